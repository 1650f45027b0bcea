(** Columns taken by nesting. *)
From Verif Require FormatMain ElemFacts.
From Verif Require Import WrapFacts WrapLoop WrapWidth.
From Verif Require Import BaseFacts StrFacts SelFacts DressFacts StyleRules StyleShow SafeFacts SafeMain SafeCheck.
From Verif Require Export DepthSpec.
Open Scope Z_scope.

Section S.
Context `{U : Uni}.
Variables (g : cfg) (F : list tree).

(** ** Places are in the document *)
Lemma spots_tail : forall kids up before z, In z (spots up before kids) -> tl z = up.
Proof. induction kids as [|t kids IH]; intros up before z H; [inversion H|]. cbn [spots] in H. destruct H as [<-|H]; [reflexivity|eauto]. Qed.
Lemma inner_tail : forall z y, In y (inner_spots z) -> tl y = z.
Proof. intros [|x z] y H; [inversion H|]. cbn [inner_spots] in H. now apply spots_tail in H. Qed.

(** ** Room left *)
Variable cost : site -> Z.
Hypothesis CP : forall z, 0 <= cost z.
Hypothesis CM : takes_at_most g cost.
Lemma total_pos : forall z, 0 <= total cost z.
Proof. induction z as [|x z IH]; cbn [total]; [lia|]. specialize (CP (x :: z)). lia. Qed.
Lemma room_left : forall listed z page cl s inner, given g listed z cl s -> room_in (rc_kind cl) s page inner ->
  wrap_width page - cost z <= wrap_width inner.
Proof.
  intros listed z page cl s inner G R. unfold room_in in R. destruct (takes_block (rc_kind cl)) eqn:TB; [|subst; specialize (CP z); lia].
  destruct R as (x & label & W & _ & L & ->).
  assert (E : exists t, (if takes_label (rc_kind cl) then template_set s "line_template" t else t = []) /\ template_width label = label_columns t).
  { destruct (takes_label (rc_kind cl)); [destruct L as (t & T & ->); exists t; split; auto; destruct t; reflexivity|subst; exists []; auto]. }
  destruct E as (t & T & E). specialize (CM _ _ _ _ _ _ G TB W T). unfold frame in CM. revert CM.
  unfold wrap_width, line_width, child_box, both, add_lr in *. cbn. rewrite E. lia.
Qed.
Lemma room_after : forall listed z page, placed_in g F listed z page -> wrap_width (g_box g) - total cost (tl z) <= wrap_width page.
Proof.
  intros listed z page H. induction H.
  - rewrite (spots_tail _ _ _ _ H). cbn [total]. lia.
  - pose proof (total_pos (tl z)). lia.
  - rewrite (inner_tail _ _ H2). pose proof (room_left _ _ _ _ _ _ H0 H1). destruct z as [|x z]; [destruct H0|]. cbn [tl total] in *. lia.
  - apply filter_In in H3 as [H3 _]. rewrite (inner_tail _ _ H3). pose proof (room_left _ _ _ _ _ _ H1 H2). subst z. cbn [tl total] in *. lia.
Qed.
Lemma not_cramped : (forall z, In z (all_places [] [] F) -> total cost z < wrap_width (g_box g)) ->
  forall listed z page, placed_in g F listed z page -> ~ cramped g listed z page EValue.
Proof.
  intros SH listed z page P C. inversion C as [cl s w a b G LO (x & t & j & cfg & W & T & _ & _ & _ & -> & _) N|]; subst.
  pose proof (room_after _ _ _ P) as R. pose proof (SH _ (placed_all _ _ _ _ _ P)) as D.
  assert (TB : takes_block (rc_kind cl) = true /\ takes_label (rc_kind cl) = true) by (unfold lays_out in LO; destruct (rc_kind cl); try contradiction; auto).
  destruct TB as [TB TL]. assert (T' : if takes_label (rc_kind cl) then template_set s "line_template" t else t = []) by now rewrite TL.
  pose proof (CM _ _ _ _ _ _ G TB W T') as M. unfold text_room in N. unfold frame in M. destruct z as [|y z]; [destruct G|]. cbn [tl total] in *. lia.
Qed.
End S.

(** ** The tables of the library *)
Section T.
Context `{U : Uni}.
Variable g : cfg.
Definition flat_sides (v : val) : bool :=
  match v with
  | VNone => true
  | VList (_ :: VInt r :: _ :: VInt l :: _) => (r =? 0) && (l =? 0)
  | _ => false
  end.
Definition flat_border (v : val) : bool :=
  match v with
  | VList (_ :: VStr r :: _ :: VStr l :: _) | VTuple (_ :: VStr r :: _ :: VStr l :: _) => seqb r [] && seqb l []
  | _ => false
  end.
Definition flat_value (key : str) (v : val) : bool :=
  if seqb key (lit "margin") || seqb key (lit "padding") then flat_sides v
  else if seqb key (lit "border") then flat_border v else true.
Definition flat_check (s : settings) : bool := forallb (fun p => flat_value (fst p) (snd p)) s.
Lemma flat_got : forall s, flat_check s = true -> forall key v, dget key s = Some v -> flat_value key v = true.
Proof.
  induction s as [|[k v] s IH]; intros H key w E; [discriminate|]. cbn [flat_check forallb fst snd dget] in *. apply andb_prop in H as [H1 H2]. destruct (seqb_spec key k) as [->|]; [now injection E as <-|eauto].
Qed.
Definition flat_settings (s : settings) : Prop := forall key v, dget key s = Some v -> flat_value key v = true.
Lemma flat_frame : forall s x, flat_settings s -> wears s x -> frame x = 0.
Proof.
  intros s x FS (M & P & (rest & B)).
  assert (A : forall k sd, seqb (lit k) (lit "margin") || seqb (lit k) (lit "padding") = true -> sides_set s k sd -> both sd = 0).
  { intros k sd K S. unfold sides_set in S. destruct (dget (lit k) s) as [v|] eqn:E; [|now subst]. apply FS in E. unfold flat_value in E. rewrite K in E.
    destruct v; try (destruct S as (r & S); discriminate S); [now subst|]. destruct S as (r & S). injection S as ->. cbn [flat_sides] in E. apply andb_prop in E as [E1 E2]. apply Z.eqb_eq in E1, E2. unfold both. lia. }
  rewrite <- (Z.add_0_l 0). unfold frame. rewrite (A "margin"%string _ eq_refl M), (A "padding"%string _ eq_refl P).
  assert (E : bo_right (dr_border x) = [] /\ bo_left (dr_border x) = []).
  { destruct B as [B|B]; apply FS in B; unfold flat_value in B; change (seqb (lit "border") (lit "margin") || seqb (lit "border") (lit "padding")) with false in B; change (seqb (lit "border") (lit "border")) with true in B;
      cbn [flat_border] in B; apply andb_prop in B as [B1 B2]; apply seqb_eq in B1, B2; auto. }
  destruct E as [-> ->]. reflexivity.
Qed.

(** *** Rules *)
(** The columns of the label of a class that does not number. *)
Definition fixed_label (cl : rcls) : option Z := match dget (lit "line_template") (class_settings cl) with Some (VStr t) => Some (label_columns t) | _ => None end.
Definition tag_cost (t : str) : Z := if seqb t (lit "blockquote") || seqb t (lit "dd") || seqb t (lit "li") then 2 else 0.
Definition numbers_items (cl : rcls) : bool :=
  match dget (lit "line_template") (class_settings cl), dget (lit "start_index") (class_settings cl), dget (lit "step") (class_settings cl) with
  | Some (VStr t), Some (VInt a), Some (VInt b) => seqb t (lit "{0}. {1}") && (a =? 1) && (b =? 1)
  | _, _, _ => false
  end.
Definition ol_li (s : sel) : bool :=
  match s with
  | SCombined (SElement (Some p)) c (SElement (Some q)) => seqb p (lit "ol") && seqb c (lit ">") && seqb q (lit "li")
  | _ => false
  end.
Definition label_check (cl : rcls) (s : sel) : bool :=
  if takes_label (rc_kind cl) then
    match rc_kind cl with
    | KOrdered => numbers_items cl && ol_li s
    | _ => match fixed_label cl, subject s with Some c, Some t => c <=? tag_cost t | _, _ => false end
    end
  else true.
Definition unset_check (r : rspec rcls) : bool :=
  match r with RPair _ (Some s) => flat_check s && match dget (lit "line_template") s with None => true | Some _ => false end | _ => true end.
Definition rule_check (ru : rule rcls) : bool :=
  match rule_renderer (ru_spec ru) with
  | Some cl => negb (takes_block (rc_kind cl)) || flat_check (class_settings cl) && forallb (fun s => label_check cl (sl_tree s)) (ru_sel ru)
  | None => true
  end.
Definition slim_check : bool :=
  forallb unset_check (g_default g :: map (@ru_spec rcls) (g_rules g))
  && match rule_renderer (g_default g) with Some cl => negb (takes_block (rc_kind cl)) | None => true end
  && forallb rule_check (g_rules g)
  && forallb (fun r => match rule_renderer r with Some cl => negb (takes_block (rc_kind cl)) || flat_check (class_settings cl) && negb (takes_label (rc_kind cl)) | None => true end)
       ((match g_ext_a g with Some r => [r] | None => [] end) ++ map (@ru_spec rcls) (g_ext_rules g)).

Lemma label_cost_pos : forall z, 0 <= label_cost z.
Proof.
  intros [|[before [i t a kids|] after] up]; cbn [label_cost]; try lia. destruct (_ || _); [lia|]. destruct (seqb t (lit "li")); [|lia]. destruct (in_ol up); [|lia]. unfold len. lia.
Qed.
Lemma tag_cost_le : forall before i t a kids after up, tag_cost t <= label_cost (Spot before (Tag i t a kids) after :: up).
Proof.
  intros. unfold tag_cost. cbn [label_cost]. destruct (_ || seqb t (lit "dd")); cbn [orb]; [lia|]. destruct (seqb t (lit "li")); [|lia]. destruct (in_ol up); [|lia]. unfold len. lia.
Qed.
Lemma ol_li_judged : forall s before i t a kids after up, ol_li s = true -> judged s (Spot before (Tag i t a kids) after :: up) Yes -> t = lit "li" /\ in_ol up = true.
Proof.
  intros s before i t a kids after up H J. destruct s as [| | | | | | |s1 c s2|]; try discriminate H. destruct s1 as [[p|]| | | | | | | |]; try discriminate H. destruct s2 as [[q|]| | | | | | | |]; try discriminate H.
  cbn [ol_li] in H. apply andb_prop in H as [H H3]. apply andb_prop in H as [H1 H2]. apply seqb_eq in H1, H2, H3. subst. cbn [judged] in J. unfold provided, and_then, says in J.
  destruct J as [[_ J]|[_ J]]; [|discriminate]. destruct J as [[J1 J2]|[_ J]]; [|congruence]. split; [destruct J1 as [[J1 _]|[_ J1]]; [exact J1|discriminate]|].
  destruct J2 as [[E _]|[[_ J2]|[[E _]|[E _]]]]; try (vm_compute in E; discriminate). destruct up as [|[b2 [i2 t2 a2 k2|] af2] up]; try discriminate J2.
  destruct J2 as [[-> _]|[_ J2]]; [cbn [in_ol]; apply seqb_refl|discriminate].
Qed.
Lemma numbered_label : forall n label, formats [FInt n; FStr (lit "{}")] [] (lit "{0}. {1}") label -> label_columns label = len (str_of_Z n) + 2.
Proof.
  intros n label H.
  assert (E : formats [FInt n; FStr (lit "{}")] [] (lit "{0}. {1}") (str_of_Z n ++ lit ". " ++ lit "{}" ++ [])).
  { change (lit "{0}. {1}") with (written [PNumber 0; PText (lit ". "); PNumber 1]). apply filled_formats; [left; intros [X|[X|[X|[]]]]; discriminate|].
    eapply (fi_number _ _ 0%nat 0%N (FInt n)); [vm_compute; discriminate|reflexivity|]. apply fi_text. eapply (fi_number _ _ 0%nat 1%N (FStr (lit "{}"))); [vm_compute; discriminate|reflexivity|constructor]. }
  apply FormatMain.format_ok in H, E. rewrite H in E. assert (X : label = str_of_Z n ++ lit ". " ++ lit "{}" ++ []) by congruence. rewrite X. unfold label_columns.
  assert (L : len (str_of_Z n ++ lit ". " ++ lit "{}" ++ []) = len (str_of_Z n) + 4) by (unfold len; rewrite !app_length; change (length (lit ". ")) with 2%nat; change (length (lit "{}")) with 2%nat; cbn [length]; lia).
  destruct (str_of_Z n ++ lit ". " ++ lit "{}" ++ []) as [|c r] eqn:Q; [exfalso; change (len (@nil N)) with 0 in L; unfold len in L; lia|]. cbv beta iota. lia.
Qed.
Lemma settled_key : forall cl tg index over s key v, settled cl tg index over s -> dget key s = Some v -> ~ In key [lit "template"; lit "line_template"] ->
  dget key over = Some v \/ dget key (class_settings cl) = Some v.
Proof.
  intros cl tg index over s key v (under & above & CO & S) E N. rewrite S in E. cbn [inherited] in E.
  assert (AU : dget key above = None /\ dget key under = None).
  { assert (Q : forall k w, In k [lit "template"; lit "line_template"] -> dget key [(k, w)] = @None val).
    { intros k w J. cbn [dget]. destruct (seqb_spec key k) as [->|]; [contradiction|reflexivity]. }
    unfold computed in CO. destruct (rc_kind cl); try (destruct CO as [-> ->]; auto); [destruct CO as (m & _ & -> & ->)|destruct CO as (m & _ & -> & ->)]; split; try reflexivity; apply Q; cbn; auto. }
  destruct AU as [A1 A2]. rewrite A1, A2 in E. destruct (dget key over) as [w|]; [left; exact E|]. right. destruct (dget key (class_settings cl)); [exact E|discriminate].
Qed.
Lemma settled_flat : forall cl tg index over s, flat_settings (class_settings cl) -> flat_settings over -> settled cl tg index over s -> flat_settings s.
Proof.
  intros cl tg index over s C O S key v E.
  destruct (in_dec (list_eq_dec N.eq_dec) key [lit "template"; lit "line_template"]) as [J|J].
  - destruct J as [<-|[<-|[]]]; vm_compute; reflexivity.
  - destruct (settled_key _ _ _ _ _ _ _ S E J); eauto.
Qed.
Lemma slim_tables : slim_check = true -> takes_at_most g label_cost.
Proof.
  intros H. unfold slim_check in H. apply andb_prop in H as [H H4]. apply andb_prop in H as [H H3]. apply andb_prop in H as [H1 H2]. rewrite forallb_forall in H1, H3, H4.
  intros listed z cl s x label G TB W L. destruct z as [|[before [i t a kids|] after] up]; try contradiction. cbn [given] in G. destruct listed.
  - destruct G as [LB S]. destruct (listed_from _ _ _ LB) as (r & R & N).
    assert (J' : In r ((match g_ext_a g with Some r => [r] | None => [] end) ++ map (@ru_spec rcls) (g_ext_rules g))).
    { apply in_or_app. destruct R as [->|(ru & J & ->)]; [left; now left|]. right. now apply in_map. }
    specialize (H4 r J'). unfold names in N. rewrite N, TB in H4. cbn [negb orb] in H4. apply andb_prop in H4 as [H4 H5]. destruct (takes_label (rc_kind cl)); [discriminate|]. subst label.
    rewrite (flat_frame s x); auto; [pose proof (label_cost_pos (Spot before (Tag i t a kids) after :: up)); cbn [label_columns]; lia|].
    eapply settled_flat; [exact (flat_got _ H4)| |exact S]. intros ? ? E. discriminate E.
  - destruct G as (over & ST & S). destruct (styled_from _ _ _ _ ST) as [_ OV].
    match type of S with settled _ _ _ ?ov _ => assert (FO : flat_settings ov /\ dget (lit "line_template") ov = None) end.
    { destruct (shown_inline g t); [split; [intros ? ? E; discriminate E|reflexivity]|].
      assert (Q : forall key v, dget key over = Some v -> flat_value key v = true /\ key <> lit "line_template").
      { intros key v E. destruct (OV _ _ E) as (r & R & E').
        assert (K : In r (g_default g :: map (@ru_spec rcls) (g_rules g))) by (destruct R as [->|(ru & J & ->)]; [now left|right; now apply in_map]).
        specialize (H1 r K). destruct r as [|c [s'|]]; try discriminate E'. cbn [unset_check rule_setting] in *. apply andb_prop in H1 as [F1 F2]. split; [eapply flat_got; eauto|].
        intros ->. rewrite E' in F2. discriminate. }
      split; [intros key v E; eapply Q; eauto|]. destruct (dget (lit "line_template") over) as [v|] eqn:E; auto. elim (proj2 (Q _ _ E)). reflexivity. }
    destruct FO as [FO NL].
    destruct ST as [[WN _]|[_ D]].
    2: { exfalso. destruct (g_default g); destruct D as [-> _]; cbn [rule_renderer] in H2; rewrite TB in H2; discriminate. }
    destruct WN as (k & ru & sp & N & (sl0 & J & Y & _) & E & _). apply nth_error_In in N. specialize (H3 ru N). unfold rule_check in H3. rewrite E, TB in H3. cbn [negb orb] in H3. apply andb_prop in H3 as [F1 F2].
    rewrite (flat_frame s x); auto; [|eapply settled_flat; [exact (flat_got _ F1)|exact FO|exact S]]. rewrite forallb_forall in F2. specialize (F2 sl0 J). unfold label_check in F2.
    destruct (takes_label (rc_kind cl)) eqn:TL; [|subst label; pose proof (label_cost_pos (Spot before (Tag i t a kids) after :: up)); cbn [label_columns]; lia].
    unfold template_set in L. destruct S as (under & above & CO & S). rewrite S in L. cbn [inherited] in L. rewrite NL in L.
    assert (CASES : (rc_kind cl = KOrdered /\ exists lb, item_label cl (length before) lb /\ label = lb) \/ (rc_kind cl <> KOrdered /\ dget (lit "line_template") (class_settings cl) = Some (VStr label))).
    { unfold computed in CO. destruct (rc_kind cl) eqn:RK; try discriminate TL; try (right; split; [discriminate|]; destruct CO as [-> ->]; cbn [dget] in L; destruct (dget (lit "line_template") (class_settings cl)); [exact L|discriminate L]).
      left. split; auto. destruct CO as (lb & IL & -> & ->). exists lb. split; auto. cbn [dget] in L. rewrite seqb_refl in L. now injection L as ->. }
    destruct CASES as [(K & lb & (t0 & st & sp0 & T1 & T2 & T3 & T4) & ->)|(K & T)].
    + rewrite K in F2. apply andb_prop in F2 as [F2 F3]. unfold numbers_items in F2. unfold template_set, int_set in *. rewrite T1, T2, T3 in F2. apply andb_prop in F2 as [F2 F5]. apply andb_prop in F2 as [F2 F4].
      apply seqb_eq in F2. apply Z.eqb_eq in F4, F5. subst. destruct (ol_li_judged _ _ _ _ _ _ _ _ F3 Y) as [-> IO]. rewrite (numbered_label _ _ T4). cbn [label_cost]. rewrite IO.
      change (seqb (lit "li") (lit "blockquote") || seqb (lit "li") (lit "dd")) with false. change (seqb (lit "li") (lit "li")) with true. cbv beta iota. rewrite Z.mul_1_r. lia.
    + assert (F3 : match fixed_label cl, subject (sl_tree sl0) with Some c, Some t => c <=? tag_cost t | _, _ => false end = true) by (destruct (rc_kind cl); try exact F2; contradiction).
      unfold fixed_label in F3. rewrite T in F3. destruct (subject (sl_tree sl0)) as [n|] eqn:SB; [|discriminate]. pose proof (subject_judged _ _ _ _ _ _ _ _ _ Y SB) as ->. apply Z.leb_le in F3.
      pose proof (tag_cost_le before i n a kids after up). lia.
Qed.
End T.
Close Scope Z_scope.
