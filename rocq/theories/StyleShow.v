(** From what an element looks like to what its renderer makes of it. *)
From Verif Require SetFacts SgrFacts FormatMain.
From Verif Require Import WrapFacts WrapLoop WrapWidth.
From Verif Require Import BaseFacts StrFacts SelFacts LineFacts BoxFacts AnsiStyle RenderFacts ElemFacts SettingsFacts DressFacts DressProps PageBase PageFacts.
From Verif Require Export StyleRules.
Open Scope Z_scope.

Section A.
Context `{U : Uni}.

(** ** Settings that agree *)
Section X.
Variables (s s' : settings).
Hypothesis HX : forall k, dget k s = dget k s'.
Lemma x_template : forall k t, template_set s k t -> template_set s' k t.
Proof. unfold template_set. intros k t. now rewrite HX. Qed.
Lemma x_switched : forall k b, switched s k b -> switched s' k b.
Proof. unfold switched. intros k b. now rewrite HX. Qed.
Lemma x_int : forall k b, int_set s k b -> int_set s' k b.
Proof. unfold int_set. intros k b. now rewrite HX. Qed.
Lemma x_str : forall k b, str_set s k b -> str_set s' k b.
Proof. unfold str_set. intros k b. now rewrite HX. Qed.
Lemma x_wears : forall x, wears s x -> wears s' x.
Proof. unfold wears, sides_set, border_set. intros x. now rewrite !HX. Qed.
Lemma x_heading : forall h, heading_set s h -> heading_set s' h.
Proof. unfold heading_set, template_set, switched, int_set, str_set. intros h. now rewrite !HX. Qed.
Lemma x_just : forall j, justification_set s j -> justification_set s' j.
Proof. unfold justification_set, str_set. intros j. now rewrite !HX. Qed.
Lemma x_wrapper : forall j, wrapper_set s j -> wrapper_set s' j.
Proof.
  unfold wrapper_set, chosen. intros j. rewrite !HX. intros (H1 & H2 & H3). split; [|split; [|exact H3]]; [destruct H1 as (n & H1 & E)|destruct H2 as (n & H2 & E)]; exists n; split; auto; now apply x_int.
Qed.
Lemma x_link : forall a b c, link_templates s a b c -> link_templates s' a b c.
Proof. unfold link_templates. intros a b c. now rewrite HX. Qed.
Lemma x_image : forall a b, image_templates s a b -> image_templates s' a b.
Proof. unfold image_templates. intros a b. now rewrite HX. Qed.
Lemma x_listing : forall a b, listing_templates s a b -> listing_templates s' a b.
Proof. unfold listing_templates. intros a b. now rewrite HX. Qed.
Lemma x_ansi : forall x, ansi_render s x = ansi_render s' x.
Proof.
  intros x. unfold ansi_render, sattr. rewrite !HX.
  assert (E : forall n l, effect_seqs s n l = effect_seqs s' n l).
  { intros n l. induction l as [|[name [on off]] l IH]; [reflexivity|]. cbn [effect_seqs]. unfold sitem. now rewrite HX, IH. }
  destruct (match dget (lit "normalise") s' with Some v => Ok v | None => Err EAttr end); [|reflexivity]. cbn [bind]. now rewrite E.
Qed.
Lemma x_room : forall k page inner, room_in k s page inner -> room_in k s' page inner.
Proof.
  intros k page inner. unfold room_in. destruct (takes_block k); auto. intros (x & label & W & B & T & E). exists x, label. split; [now apply x_wears|].
  split; [cbv zeta in *; now rewrite <- HX|]. split; auto. destruct (takes_label k); auto. destruct T as (t & T & L). exists t. split; auto. now apply x_template.
Qed.
Lemma x_read : forall l, map (fun k => dget k s) l = map (fun k => dget k s') l.
Proof. intros l. apply map_ext. exact HX. Qed.
Lemma x_picture : forall tg a kids pre page l e content k out, picture tg a kids pre s page l e content k out -> picture tg a kids pre s' page l e content k out.
Proof.
  intros tg a kids pre page l e content k out H.
  destruct H; [eapply pi_plain|eapply pi_nothing|eapply pi_inline|eapply pi_ansi|eapply pi_pre_code|eapply pi_code|eapply pi_break|eapply pi_link|eapply pi_image|eapply pi_block|eapply pi_heading|eapply pi_paragraph|eapply pi_code_paragraph|eapply pi_pre|eapply pi_quote|eapply pi_item|eapply pi_listed_link|eapply pi_menu_link|eapply pi_listed_image|eapply pi_own|eapply pi_own_block];
  eauto using x_template, x_switched, x_int, x_wears, x_heading, x_just, x_wrapper, x_link, x_image, x_listing.
  - apply SgrFacts.ansi_iff. rewrite <- x_ansi. now apply SgrFacts.ansi_iff.
  - now rewrite <- x_read.
  - cbv zeta in *. now rewrite <- x_read.
Qed.
End X.

(** ** Objects *)
Lemma dget_one : forall k (v : val) key, dget key [(k, v)] = if seqb key k then Some v else None.
Proof. reflexivity. Qed.
Lemma digit_read : forall c v, uni_decimal c = Some v <-> digit_for c v.
Proof.
  intros c v. unfold uni_decimal, dec_digit, is_digit_ascii, digit_for. destruct (N.ltb_spec c 128) as [L|L].
  - destruct ((48 <=? c)%N && (c <=? 57)%N) eqn:E.
    + apply andb_prop in E as [E1 E2]. apply N.leb_le in E1, E2. split; [intros H; injection H as <-; left; auto|]. intros [[_ ->]|[H _]]; [reflexivity|lia].
    + split; [discriminate|]. intros [[H _]|[H _]]; [|lia]. apply andb_false_iff in E. rewrite !N.leb_gt in E. lia.
  - split; [auto|]. intros [[H _]|[_ H]]; [lia|auto].
Qed.
Lemma settled_inst : forall d cl i c n tg index over s page inner,
  node_at d i = Some n -> n_tag n = Some tg -> n_parent n <> PNone -> nat_index i (children_of d (n_parent n)) = Some index ->
  c_parent_box c = Some page -> (forall l, c_settings c = Some l -> keyed l) ->
  (forall key, dget key over = overridden key (c_settings c) None) ->
  settled cl tg index over s -> room_in (rc_kind cl) s page inner ->
  exists r, instantiate d cl i c = Ok r /\ (forall key, dget key s = dget key (i_settings r))
    /\ (let* bx := if i_block r then the_box r else Ok page in Ok bx) = Ok inner.
Proof.
  intros d cl i c n tg index over s page inner N T P X B K OV (under & above & C & S) R. unfold instantiate. cbv zeta.
  set (s1 := match rc_kind cl with KOrdered => _ | _ => _ end).
  assert (E1 : exists s1', s1 = Ok s1' /\ forall key, dget key s1' = inherited key [under; class_settings cl]).
  { unfold s1, computed in *. destruct (rc_kind cl); try (destruct C as [-> ->]; exists (class_settings cl); split; [reflexivity|]; intros key; cbn [inherited dget]; destruct (dget key (class_settings cl)); reflexivity).
    - destruct C as (m & _ & -> & _). exists (class_settings cl); split; [reflexivity|]; intros key; cbn [inherited dget]; destruct (dget key (class_settings cl)); reflexivity.
    - destruct C as (label & (t & st & sp & L1 & L2 & L3 & L4) & -> & _). unfold int_set in *. unfold template_set in L1.
      rewrite (sattr_get _ _ _ L2), (sattr_get _ _ _ L3). cbn [bind]. change (want_int (VInt st)) with (Ok st). change (want_int (VInt sp)) with (Ok sp). cbn [bind].
      unfold ordinal. rewrite N. destruct (n_parent n) eqn:EP; [congruence| |]; rewrite X; cbn [bind]; rewrite (sattr_get _ _ _ L1); cbn [bind want_str];
      rewrite Z.add_comm, (proj2 (FormatMain.format_ok _ _ _ _) L4); cbn [bind]; (eexists; split; [reflexivity|]); intros key; cbn [inherited]; rewrite dget_one, dget_dset;
      destruct (seqb key (lit "line_template")); try reflexivity; destruct (dget key (class_settings cl)); reflexivity. }
  destruct E1 as (s1' & -> & S1). cbn [bind].
  set (s3 := match rc_kind cl with KMdHeader => _ | _ => _ end).
  assert (E3 : exists s3', s3 = Ok s3' /\ forall key, dget key s = dget key s3').
  { assert (A : forall key, dget key (adjust s1' c) = inherited key [over; under; class_settings cl]).
    { intros key. rewrite adjust_get by auto. cbn [inherited]. rewrite OV, S1. unfold overridden. destruct (c_settings c) as [l|]; [destruct (dget key l)|]; reflexivity. }
    unfold s3, computed in *. destruct (rc_kind cl); try (destruct C as [_ ->]; eexists; split; [reflexivity|]; intros key; rewrite S, A; reflexivity).
    - destruct C as (m & (c0 & dg & v & rest & -> & D & ->) & _ & ->). unfold md_template. rewrite N, T. cbn [nth_error]. apply digit_read in D. rewrite D. cbn [bind].
      eexists. split; [reflexivity|]. intros key. rewrite S. cbn [inherited]. rewrite dget_one, dget_dset. destruct (seqb key (lit "template")) eqn:E.
      + rewrite srep_copies. now rewrite <- Znat.N_nat_Z, Znat.Nat2Z.id.
      + now rewrite A.
    - destruct C as (label & _ & _ & ->). eexists; split; [reflexivity|]; intros key; rewrite S, A; reflexivity. }
  destruct E3 as (s3' & -> & S3). cbn [bind]. apply (x_room _ _ S3) in R. unfold room_in in R. change (is_block (rc_kind cl)) with (takes_block (rc_kind cl)).
  destruct (takes_block (rc_kind cl)).
  - destruct R as (x & label & (W1 & W2 & W3) & BO & LB & ->). cbv zeta in BO.
    assert (BV : exists bv, dget (lit "border") s3' = Some bv /\ borders_of_val bv = Ok (dr_border x)).
    { destruct x as [m pd [bt br bb bl]]. cbn [dr_border bo_top bo_right bo_bottom bo_left] in *. destruct BO as [BO|BO]; eexists; (split; [exact BO|reflexivity]). }
    destruct BV as (bv & BV1 & BV2). rewrite (sattr_get _ _ _ BV1). cbn [bind]. rewrite BV2. cbn [bind]. unfold generate_box. rewrite B.
    rewrite (sides_read _ _ _ W1), (sides_read _ _ _ W2). cbn [bind]. change (has_line_template (rc_kind cl)) with (takes_label (rc_kind cl)).
    assert (LT : (if takes_label (rc_kind cl) then template_of_val (dget (lit "line_template") s3') else Ok None) = Ok label).
    { destruct (takes_label (rc_kind cl)); [|now subst]. destruct LB as (t & LB & ->). unfold template_set in LB. rewrite LB. unfold template_of_val. cbn [truth]. destruct t; reflexivity. }
    rewrite LT. cbn [bind]. eexists. split; [reflexivity|]. cbn [i_settings i_block]. split; [exact S3|]. unfold the_box. cbn [i_box bind]. reflexivity.
  - subst inner. eexists. split; [reflexivity|]. cbn [i_settings i_block bind]. auto.
Qed.

Lemma formats_fun : forall args kws t out out', formats args kws t out -> formats args kws t out' -> out = out'.
Proof. intros args kws t out out' A B. apply FormatMain.format_ok in A, B. congruence. Qed.
Lemma dressed_fun : forall page x ls o1 o2, dressed page x ls o1 -> dressed page x ls o2 -> o1 = o2.
Proof.
  intros page x ls o1 o2 (b1 & P1 & ->) (b2 & P2 & ->). apply prefixed_iff in P1, P2. now subst.
Qed.
Lemma placed_fun : forall b w x o1 o2, DressSpec.placed b w x o1 -> DressSpec.placed b w x o2 -> o1 = o2.
Proof. intros [] w x o1 o2 A B; cbn in *; [eapply SetFacts.centred_fun; eauto|congruence]. Qed.
Lemma heading_fun : forall s h w c o1 o2, heading_set s h -> heading h w c o1 -> heading h w c o2 -> o1 = o2.
Proof.
  intros s h w c o1 o2 _ (t1 & F1 & H1) (t2 & F2 & H2). assert (t1 = t2) by (eapply formats_fun; eauto). subst t2.
  destruct (hs_underline h) as [[full u]|]; [|eapply placed_fun; eauto]. destruct H1 as (a & b & A1 & B1 & ->), H2 as (a' & b' & A2 & B2 & ->).
  f_equal; [eapply placed_fun; eauto|]. f_equal. eapply placed_fun; eauto.
Qed.

(** ** Rendering *)
Lemma kept_read : forall n a k, carries n a -> dget k (n_attrs n) = kept a k.
Proof.
  intros n a k (C1 & C2 & _). unfold kept. destruct (seqb_spec k (lit "class")) as [->|NE].
  - rewrite C2. destruct (dlast (lit "class") a) as [[x|]|]; reflexivity.
  - rewrite (C1 k NE). destruct (dlast k a) as [[x|]|]; reflexivity.
Qed.
Lemma view_read : forall d r o n tg a page, node_at d (i_tag r) = Some n -> n_tag n = Some tg -> carries n a -> c_parent_box (i_ctx r) = Some page ->
  view_of d r o = View tg (map (kept a) (ow_attrs o)) (map (fun k => dget k (i_settings r)) (ow_settings o)) (Some page) (i_box r) (c_link (i_ctx r)) (c_extra (i_ctx r)).
Proof.
  intros d r o n tg a page N T C B. unfold view_of. rewrite N, T, B. cbv zeta. f_equal. apply map_ext. intros k. now apply kept_read.
Qed.
Lemma boxless : forall d cl i c r, is_block (rc_kind cl) = false -> instantiate d cl i c = Ok r -> i_box r = None.
Proof.
  intros d cl i c r B H. unfold instantiate in H. cbv zeta in H. apply bind_Ok in H as (s1 & _ & H). apply bind_Ok in H as (s3 & _ & H). rewrite B in H. apply ok_inj in H. now subst r.
Qed.
Lemma rendered_picture : forall d cl i c r n tg a kids pre page l e content out,
  node_at d i = Some n -> n_tag n = Some tg -> carries n a ->
  c_parent_box c = Some page -> c_link c = l -> c_extra c = e -> instantiate d cl i c = Ok r ->
  para_skip d i = only_code kids -> pre_parent d i = pre ->
  picture tg a kids pre (i_settings r) page l e content (rc_kind cl) out -> render_inst d r content = Ok out.
Proof.
  intros d cl i c r n tg a kids pre page l e content out ND NT NA CB CLK CE HI SK PP H. remember (rc_kind cl) as k eqn:EK. symmetry in EK.
  destruct (instantiate_fields _ _ _ _ _ HI) as (EC & EKI & ET).
  assert (FIN : forall x ls, (exists o, render_inst d r content = Ok o /\ dressed page x ls o) -> dressed page x ls out -> render_inst d r content = Ok out).
  { intros x ls (o & O1 & O2) D. rewrite O1. f_equal. eapply dressed_fun; eauto. }
  destruct H.
  - unfold render_inst. now rewrite EKI, EK.
  - eapply C67_nothing; eauto.
  - eapply C67_inline; eauto.
  - unfold render_inst. rewrite EKI, EK. erewrite inline_rendered by eauto. apply SgrFacts.ansi_iff in H2. exact H2.
  - unfold render_inst. rewrite EKI, EK. unfold code_render. rewrite ET, PP, H. reflexivity.
  - eapply C67_code; eauto. intros (n0 & j & m & D1 & D2 & [D3 D4]). unfold pre_parent in PP. rewrite D1, D2, D3, D4, seqb_refl in PP. congruence.
  - eapply C67_break; eauto.
  - subst. eapply C67_link; eauto.
  - subst. eapply C67_image; eauto.
  - eapply FIN; [|exact H0]. eapply C64_block; eauto.
  - assert (HE : exists text, fills (hs_template h) (spread_by (hs_spread h) (hs_gap h) (cased (hs_caps h) content)) text) by (destruct H2 as (text & T & _); eauto).
    destruct HE as (text & HE). destruct (C65_heading d cl i c r page x h content text) as (inner' & o & O1 & O2 & O3); [now rewrite EK|auto..].
    eapply FIN; [|exact H3]. exists o. split; auto. now rewrite (heading_fun _ _ _ _ _ _ H1 H2 O2).
  - eapply FIN; [|exact H8]. eapply C66_paragraph; eauto. intros -> OC. apply skip_read in OC. rewrite SK in OC. rewrite OC in H5. discriminate.
  - eapply FIN; [|exact H2]. eapply C66_code_paragraph; eauto. apply skip_read. congruence.
  - eapply FIN; [|exact H3]. eapply C66_pre; eauto.
  - eapply FIN; [|exact H2]. eapply C66_quote; eauto.
  - eapply FIN; [|exact H8]. eapply C66_item; eauto. now rewrite EK.
  - eapply FIN; [|exact H7]. eapply (C67_listed_link d cl i c r page x l' e'); eauto. split; congruence.
  - eapply (C67_menu_link d cl i c r page x l' e'); eauto. split; congruence.
  - eapply FIN; [|exact H7]. eapply (C67_listed_image d cl i c r page x l' e'); eauto; [split; congruence|]. rewrite H0 in H6. exact H6.
  - unfold render_inst. rewrite EKI, EK. unfold own_render. rewrite (view_read d r o n tg a page); try congruence. rewrite (boxless d cl i c r); [|now rewrite EK|auto]. congruence.
  - eapply FIN; [|exact H1]. destruct (block_box d cl i c r page x) as (lt & B1 & _ & B3); [now rewrite EK|auto..]. rewrite EK in B3. cbn [has_line_template] in B3. apply ok_inj in B3. subst lt.
    unfold render_inst. rewrite EKI, EK. apply (block_dressed d cl i c r page x content inner); auto; [now rewrite EK|].
    unfold inner_render. rewrite EKI, EK. unfold own_render. rewrite (view_read d r o n tg a page); try congruence. rewrite B1, EC, CLK, CE. exact H0.
Qed.
End A.
