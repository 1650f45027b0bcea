(** The page under any rule tables: from nodes to places in the document. *)
From Verif Require FormatMain.
From Verif Require Import WrapFacts WrapLoop WrapWidth.
From Verif Require Import BaseFacts StrFacts SelFacts CssFacts TreeFacts HistoryFacts DomFacts LineFacts BoxFacts AnsiStyle RenderFacts ElemFacts ElemText LinkFacts DocFacts SettingsFacts DressFacts PageBase PageFacts PageMain.
From Verif Require Import GoodFacts StyleMain.
From Verif Require Export ShapeBack.
Open Scope Z_scope.

Section M.
Context `{U : Uni}.

(** ** Computed settings *)
Lemma any_template : forall t, a_template (VStr t).
Proof. intros. eexists. reflexivity. Qed.
Lemma settled_shaped : forall cl tg index over s, class_shaped cl -> settled cl tg index over s ->
  (forall key v, dget key over = Some v -> shape_of (rc_kind cl) key v) -> shaped (rc_kind cl) s.
Proof.
  intros cl tg index over s CS (under & above & C & S) OV. pose proof CS as [[N T] _].
  assert (AB : forall key v, dget key above = Some v -> shape_of (rc_kind cl) key v).
  { intros key v E. unfold computed in C. destruct (rc_kind cl); try (destruct C as [_ ->]; discriminate E); [destruct C as (m & HM & _ & ->)|destruct C as (m & HM & _ & ->); discriminate E].
    rewrite dget_one in E. destruct (seqb_spec key (lit "template")) as [->|]; [|discriminate]. injection E as <-. exact (any_template _). }
  assert (UN : forall key v, dget key under = Some v -> shape_of (rc_kind cl) key v).
  { intros key v E. unfold computed in C. destruct (rc_kind cl) eqn:K; try (destruct C as [-> _]; discriminate E); [destruct C as (m & HM & -> & _); discriminate E|destruct C as (m & HM & -> & _)].
    rewrite dget_one in E. destruct (seqb_spec key (lit "line_template")) as [->|]; [|discriminate]. injection E as <-. exact (any_template _). }
  split.
  - intros key J. rewrite S. cbn [inherited]. specialize (N key J). destruct (dget (lit key) above); [discriminate|]. destruct (dget (lit key) over); [discriminate|].
    destruct (dget (lit key) under); [discriminate|]. destruct (dget (lit key) (class_settings cl)); [discriminate|congruence].
  - intros key v E. rewrite S in E. cbn [inherited] in E. destruct (dget key above) eqn:E1; [injection E as <-; auto|]. destruct (dget key over) eqn:E2; [injection E as <-; auto|].
    destruct (dget key under) eqn:E3; [injection E as <-; auto|]. destruct (dget key (class_settings cl)) eqn:E4; [injection E as <-; auto|discriminate].
Qed.

(** ** Objects *)
Lemma inst_settled : forall d cl i c n tg index over r,
  node_at d i = Some n -> n_tag n = Some tg -> n_parent n <> PNone -> nat_index i (children_of d (n_parent n)) = Some index ->
  (forall l, c_settings c = Some l -> keyed l) ->
  (forall key, dget key over = overridden key (c_settings c) None) ->
  class_shaped cl -> instantiate d cl i c = Ok r -> settled cl tg index over (i_settings r).
Proof.
  intros d cl i c n tg index over r N T P X K OV CS H. unfold instantiate in H. cbv zeta in H. apply bind_Ok in H as (s1 & H1 & H). apply bind_Ok in H as (s3 & H3 & H).
  assert (ES : i_settings r = s3).
  { destruct (is_block (rc_kind cl)); [|apply ok_inj in H; now subst]. apply bind_Ok in H as (bv & _ & H). apply bind_Ok in H as (b & _ & H). apply bind_Ok in H as (bx & _ & H). apply ok_inj in H. now subst. }
  rewrite ES. clear H ES.
  assert (E1 : exists under, (forall key, dget key s1 = inherited key [under; class_settings cl])
     /\ match rc_kind cl with KOrdered => exists label, item_label cl index label /\ under = [(lit "line_template", VStr label)] | _ => under = [] end).
  { destruct (rc_kind cl) eqn:EK; try (apply ok_inj in H1; subst s1; exists []; split; [|reflexivity]; intros key; cbn [inherited dget]; destruct (dget key (class_settings cl)); reflexivity).
    destruct CS as [CH CS]. rewrite EK in CH. destruct (has_template _ _ CH "line_template"%string) as (t & V); [cbn; tauto|cbn; tauto|]. unfold template_set in V. destruct (CS EK) as ((v1 & V1 & (st & ->)) & (v2 & V2 & (sp & ->))).
    rewrite (sattr_get _ _ _ V1), (sattr_get _ _ _ V2) in H1. cbn [bind] in H1. change (want_int (VInt st)) with (Ok st) in H1. change (want_int (VInt sp)) with (Ok sp) in H1. cbn [bind] in H1.
    unfold ordinal in H1. rewrite N in H1.
    assert (OD : (match n_parent n with PNone => Err EAttr | p => match nat_index i (children_of d p) with Some k => Ok (Z.of_nat k * sp + st) | None => Err EValue end end) = Ok (Z.of_nat index * sp + st))
      by (destruct (n_parent n); [congruence| |]; now rewrite X).
    rewrite OD in H1. cbn [bind] in H1. rewrite (sattr_get _ _ _ V) in H1. cbn [bind want_str] in H1. apply bind_Ok in H1 as (label & F & H1). apply ok_inj in H1. subst s1.
    exists [(lit "line_template", VStr label)]. split.
    - intros key. cbn [inherited]. rewrite dget_one, dget_dset. destruct (seqb key (lit "line_template")); [reflexivity|]. destruct (dget key (class_settings cl)); reflexivity.
    - exists label. split; auto. exists t, st, sp. split; [exact V|]. split; auto. split; auto. rewrite Z.add_comm in F. now apply FormatMain.format_ok. }
  destruct E1 as (under & S1 & U1).
  assert (A : forall key, dget key (adjust s1 c) = inherited key [over; under; class_settings cl]).
  { intros key. rewrite adjust_get by auto. cbn [inherited]. rewrite OV, S1. unfold overridden. destruct (c_settings c) as [l|]; [destruct (dget key l)|]; reflexivity. }
  assert (E3 : exists above, (forall key, dget key s3 = inherited key [above; over; under; class_settings cl])
     /\ match rc_kind cl with KMdHeader => exists m, heading_marks tg m /\ above = [(lit "template", VStr (m ++ lit " {} " ++ m))] | _ => above = [] end).
  { destruct (rc_kind cl) eqn:EK; try (apply ok_inj in H3; subst s3; exists []; split; [|reflexivity]; intros key; rewrite A; reflexivity).
    apply bind_Ok in H3 as (t & HT & H3). apply ok_inj in H3. subst s3. unfold md_template in HT. rewrite N, T in HT. destruct tg as [|c0 [|dg rest]]; cbn [nth_error] in HT; try discriminate.
    destruct (uni_decimal dg) as [hh|] eqn:DG; [|discriminate]. apply ok_inj in HT. apply digit_read in DG. exists [(lit "template", VStr t)]. split.
    - intros key. cbn [inherited]. rewrite dget_one, dget_dset. destruct (seqb key (lit "template")); [reflexivity|]. apply A.
    - exists (copies (N.to_nat hh) (lit "#")). split; [exists c0, dg, hh, rest; auto|]. subst t. rewrite srep_copies. rewrite <- Znat.N_nat_Z, Znat.Nat2Z.id. reflexivity. }
  destruct E3 as (above & S3 & A3). exists under, above. split; auto. unfold computed. destruct (rc_kind cl); auto; [destruct A3 as (m & A3 & ->)|destruct U1 as (m & U1 & ->)]; eauto.
Qed.
Lemma inst_room : forall d cl i c r page inner, c_parent_box c = Some page -> instantiate d cl i c = Ok r -> shaped (rc_kind cl) (i_settings r) ->
  (if i_block r then the_box r else Ok page) = Ok inner -> room_in (rc_kind cl) (i_settings r) page inner.
Proof.
  intros d cl i c r page inner CB HI SH H. unfold room_in. change (takes_block (rc_kind cl)) with (is_block (rc_kind cl)).
  assert (IB : i_block r = is_block (rc_kind cl)).
  { unfold instantiate in HI. cbv zeta in HI. apply bind_Ok in HI as (s1 & _ & HI). apply bind_Ok in HI as (s3 & _ & HI). destruct (is_block (rc_kind cl)); [|apply ok_inj in HI; now subst].
    apply bind_Ok in HI as (bv & _ & HI). apply bind_Ok in HI as (b & _ & HI). apply bind_Ok in HI as (bx & _ & HI). apply ok_inj in HI. now subst. }
  rewrite IB in H. assert (LB : is_block (rc_kind cl) = true \/ is_block (rc_kind cl) = false) by (destruct (is_block (rc_kind cl)); auto).
  destruct LB as [LB|LB]; rewrite LB in *; [|now apply ok_inj in H].
  assert (NB : In "border"%string (needed (rc_kind cl))) by (destruct (rc_kind cl); try discriminate LB; cbn; tauto).
  destruct (has_wears _ _ SH NB) as (x & W & BO). destruct (block_box _ _ _ _ _ _ _ LB CB HI W) as (lt & L1 & _ & L3). unfold the_box in H. rewrite L1 in H. apply ok_inj in H. subst inner.
  exists x, lt. split; auto. split; auto. split; [|reflexivity]. change (takes_label (rc_kind cl)) with (has_line_template (rc_kind cl)).
  destruct (has_line_template (rc_kind cl)) eqn:HL; [|now apply ok_inj in L3].
  assert (NL : In "line_template"%string (needed (rc_kind cl))) by (destruct (rc_kind cl); try discriminate HL; cbn; tauto).
  destruct (has_template _ _ SH "line_template"%string) as (t & T); [cbn; tauto|auto|]. exists t. split; auto. unfold template_set in T. rewrite T in L3. unfold template_of_val in L3. cbn [truth] in L3.
  destruct t; apply ok_inj in L3; auto.
Qed.

(** ** Tables of the right shape are of the right shape on any page *)
Lemma tables_page : forall g F, shaped_tables g -> shaped_page g F.
Proof.
  intros g F [SM SE]. split.
  - intros before i t a kids after up cl over z _ [[W V]|[_ D]].
    + destruct W as (k & ru & sp & N & _ & E & _). apply nth_error_In in N. destruct (SM (ru_spec ru) cl) as [S1 S2]; [right; eauto|exact E|]. split; auto. intros _ key v X.
      specialize (V key). rewrite X in V. destruct V as (k' & ru' & sp' & N' & _ & E' & _). apply nth_error_In in N'. eapply (S2 (ru_spec ru')); [right; eauto|exact E'].
    + destruct (SM (g_default g) cl) as [S1 S2]; [now left|unfold names; destruct (g_default g); destruct D as [-> _]; reflexivity|]. split; auto. intros _ key v X.
      apply (S2 (g_default g) (or_introl eq_refl)). destruct (g_default g) as [c|c [s|]]; destruct D as [_ ->]; try discriminate X. exact X.
  - intros z cl _ _ [(k & ru & sp & N & _ & E & _)|[_ (s & E)]].
    + apply nth_error_In in N. eapply (SE (ru_spec ru)); [right; eauto|exact E].
    + eapply (SE (RPair (Some cl) s)); [now left|reflexivity].
Qed.

(** ** Places are in the document *)
Lemma spots_in_all : forall kids up before z, In z (spots up before kids) -> In z (all_places up before kids).
Proof.
  induction kids as [|t kids IH]; intros up before z H; [inversion H|]. cbn [spots all_places] in *. apply in_or_app. destruct H as [<-|H]; [left; destruct t; now left|right; auto].
Qed.
Lemma places_all : forall up before i tg a kids after,
  JudgeSpec.places up before (Tag i tg a kids) after = (Spot before (Tag i tg a kids) after :: up) :: all_places (Spot before (Tag i tg a kids) after :: up) [] kids.
Proof.
  intros. cbn [JudgeSpec.places]. f_equal. generalize (Spot before (Tag i tg a kids) after :: up) as up'. intros up'.
  match goal with |- ?f [] kids = _ => assert (A : forall b, f b kids = all_places up' b kids); [|apply A] end.
  induction kids as [|k r IH]; intros b; [reflexivity|]. cbn [all_places]. f_equal. apply IH.
Qed.
Lemma inner_of_place : forall t z y up before after, In z (JudgeSpec.places up before t after) -> In y (inner_spots z) -> In y (JudgeSpec.places up before t after).
Proof.
  fix IH 1. intros t z y up before after. destruct t as [i tg a kids|i s].
  - rewrite places_all. intros [<-|H] J.
    + right. cbn [inner_spots sp_here kids_of] in J. now apply spots_in_all.
    + right. revert H. generalize (Spot before (Tag i tg a kids) after :: up) as up'. intros up'. generalize (@nil tree) as b. induction kids as [|k r IHk]; intros b H; [inversion H|].
      cbn [all_places] in *. apply in_app_or in H. apply in_or_app. destruct H as [H|H]; [left; eapply IH; eauto|right; auto].
  - cbn [JudgeSpec.places]. intros [<-|[]] J. inversion J.
Qed.
Lemma inner_in_all : forall kids up before z y, In z (all_places up before kids) -> In y (inner_spots z) -> In y (all_places up before kids).
Proof.
  induction kids as [|t kids IH]; intros up before z y H J; [inversion H|]. cbn [all_places] in *. apply in_app_or in H. apply in_or_app. destruct H as [H|H]; [left; eapply inner_of_place; eauto|right; eauto].
Qed.

Section C.
Variables (g : cfg) (s : pstate) (F : list tree) (sg : asgs).
Hypothesis RU : good g s.
Hypothesis DOC : document (p_dom s) F.
Hypothesis PRE : flat_map preorder F = seq 0 (length (d_nodes (p_dom s))).
Hypothesis BU : built (p_dom s) g.
Hypothesis SHT : shaped_page g F.
Local Notation d := (p_dom s).
Let WF : wf_dom d := go_wf _ _ RU.
Let CK : classes_ok d := go_classes _ _ RU.
Hypothesis AS : assign_all g d (p_asg s) (seq 0 (length (d_nodes d))) = Ok sg.
Hypothesis FA : p_asg s = [].

Section E.
Variables (b c : list tree) (i : nat) (tg : str) (a : attributes) (kids : list tree) (up : site).
Local Notation z := (Spot b (Tag i tg a kids) c :: up).
Hypothesis AT : at_site d F z.
Hypothesis IN : In z (all_places [] [] F).
Lemma main_back : forall cl, a_rend (asg_get i sg) = Some cl ->
  exists over, styled (g_rules g) (g_default g) z cl over /\ (forall l, a_settings (asg_get i sg) = Some l -> keyed l)
    /\ (forall key, dget key over = overridden key (a_settings (asg_get i sg)) None)
    /\ class_shaped cl /\ (shown_inline g tg = false -> forall key v, dget key over = Some v -> shape_of (rc_kind cl) key v).
Proof.
  intros cl AR. pose proof (here_assigned g s F sg AS FA b c i tg a kids up AT) as HA. destruct (here_node s F b c i tg a kids up AT) as (n & N & NT & _).
  destruct (got d F WF b (Tag i tg a kids) c up eq_refl AT (g_rules g) (bu_rules _ _ BU i n N) (bu_rules_ok _ _ BU)) as (r & R & Q).
  cbn [tid] in R. unfold assign_one, get_renderer in HA. rewrite R, N, NT in HA. cbn [bind asg_get] in HA.
  set (m := match r with Some (c0, s0) => RPair (Some c0) (Some s0) | None => g_default g end) in *.
  assert (E : a_rend (asg_get i sg) = a_rend (assign_main m asg0) /\ a_settings (asg_get i sg) = a_settings (assign_main m asg0)).
  { destruct (is_link tg); [|injection HA as <-; auto]. destruct (get_ext_renderer g d i) as [e|]; [|discriminate]. cbn [bind] in HA. injection HA as <-.
    destruct e; auto. }
  destruct E as [E1 E2]. rewrite E2. rewrite E1 in AR. clear E1 E2 HA. unfold m in *. destruct r as [[cl' st]|].
  - destruct Q as (Q1 & Q2 & Q3). cbn [assign_main a_rend a_settings] in *. injection AR as ->. assert (ST : styled (g_rules g) (g_default g) z cl st) by (left; auto).
    exists st. split; [exact ST|]. split; [intros l E; now injection E as <-|]. split; [intros key; cbn [overridden]; destruct (dget key st); reflexivity|]. exact (proj1 SHT _ _ _ _ _ _ _ _ _ IN ST).
  - pose proof (bu_default _ _ BU) as K. assert (ST : forall over, match g_default g with RPlain c0 => c0 = Some cl /\ over = [] | RPair c0 s0 => c0 = Some cl /\ over = match s0 with Some s0 => s0 | None => [] end end ->
        styled (g_rules g) (g_default g) z cl over) by (intros over H; right; split; [exact Q|exact H]).
    destruct (g_default g) as [c0|c0 s0] eqn:EG; cbn [assign_main a_rend a_settings asg0] in *; subst c0; rewrite <- EG in ST.
    + exists []. pose proof (ST [] (conj eq_refl eq_refl)) as ST'. rewrite <- EG. split; [exact ST'|]. split; [discriminate|]. split; [reflexivity|]. exact (proj1 SHT _ _ _ _ _ _ _ _ _ IN ST').
    + exists (match s0 with Some s0 => s0 | None => [] end). pose proof (ST _ (conj eq_refl eq_refl)) as ST'. rewrite <- EG. split; [exact ST'|]. split; [intros l ->; exact K|].
      split; [intros key; destruct s0 as [s0|]; cbn [overridden]; auto; destruct (dget key s0); reflexivity|]. exact (proj1 SHT _ _ _ _ _ _ _ _ _ IN ST').
Qed.
Lemma link_back : forall cl, is_link tg = true -> a_lrend (asg_get i sg) = Some cl -> a_lsettings (asg_get i sg) <> None ->
  listed_by g z cl /\ class_shaped cl.
Proof.
  intros cl L AR AL. pose proof (here_assigned g s F sg AS FA b c i tg a kids up AT) as HA. destruct (here_node s F b c i tg a kids up AT) as (n & N & NT & _).
  destruct (got d F WF b (Tag i tg a kids) c up eq_refl AT (g_ext_rules g) (bu_ext _ _ BU i n tg N NT L) (bu_ext_ok _ _ BU)) as (r & R & Q).
  cbn [tid] in R. unfold assign_one, get_ext_renderer in HA. rewrite R, N, NT, L in HA. destruct (get_renderer g d i) as [m|]; [|discriminate]. cbn [bind asg_get] in HA.
  assert (SHE : listed_by g z cl -> listed_by g z cl /\ class_shaped cl) by (intros H; split; [exact H|]; exact (proj2 SHT z cl IN L H)).
  destruct r as [[cl' st]|].
  - destruct Q as (_ & Q2 & _). cbn [bind] in HA. injection HA as HA. rewrite <- HA in *. cbn [assign_link a_lrend a_lsettings] in *. injection AR as ->.
    apply SHE. now left.
  - destruct (g_ext_a g) as [[c0|c0 s0]|] eqn:EG; cbn [bind] in HA; [| |discriminate]; injection HA as HA; rewrite <- HA in *; cbn [assign_link a_lrend a_lsettings] in *; subst c0.
    + destruct m; cbn in AL; congruence.
    + apply SHE. right. split; [exact Q|]. rewrite EG. eauto.
Qed.
End E.

(** ** Nodes *)
Local Notation draw listing j bx := (render_node (render_fuel d) d sg listing j bx).
(** A place that may be listed. *)
Definition listable (listing : bool) (t : tree) : Prop :=
  listing = true -> match t with Tag _ tg _ _ => is_link_tag tg = true /\ shown_inline g tg = false | Text _ _ => False end.
Definition undrawn (t : tree) : Prop := forall up b c, at_site d F (Spot b t c :: up) -> In (Spot b t c :: up) (all_places [] [] F) -> forall listing bx out, listable listing t ->
  draw listing (tid t) bx = Ok out -> shows g F listing (Spot b t c :: up) bx out.
Lemma undrawn_list : forall listing bx L outs,
  (forall z, In z L -> (at_site d F z /\ In z (all_places [] [] F)) /\ exists b t c up, z = Spot b t c :: up /\ undrawn t /\ listable listing t) ->
  mapM (fun j => draw listing j bx) (map here_id L) = Ok outs -> Forall2 (fun y o => shows g F listing y bx o) L outs.
Proof.
  intros listing bx L. induction L as [|y L IH]; intros outs H Q; cbn [map mapM] in Q; [apply ok_inj in Q; subst; constructor|].
  apply bind_Ok in Q as (o & Q1 & Q). apply bind_Ok in Q as (os & Q2 & Q). apply ok_inj in Q. subst outs. constructor.
  - destruct (H y (or_introl eq_refl)) as ((A1 & A2) & b & t & c & up & -> & D & LS). exact (D up b c A1 A2 listing bx o LS Q1).
  - apply IH; auto. intros y' J. apply H. now right.
Qed.
Lemma listed_listable : forall w b t c up, w <> lit "inline" -> forall z, z = Spot b t c :: up -> forall wh, w = lit wh -> listed_at g wh z = true -> listable true t.
Proof.
  intros w b t c up NW z -> wh -> H _. cbn [listed_at sp_here] in H. destruct t as [i tg a kids|]; [|discriminate]. cbn [put] in H. apply andb_prop in H as [H1 H2].
  split; [exact H1|]. unfold shown_inline. unfold is_link_tag. rewrite H1. cbn [andb]. destruct (seqb_spec (placement g tg) (lit wh)) as [->|]; [|discriminate].
  destruct (seqb_spec (lit wh) (lit "inline")); congruence.
Qed.
Lemma undrawn_all : forall t, undrawn t.
Proof.
  induction t as [i tg a kids IH|i x] using tree_ind2; intros up b c AT IN listing bx out LS DR.
  2:{ assert (listing = false) by (destruct listing; [elim (LS eq_refl)|reflexivity]). subst listing.
      pose proof (site_stores _ _ _ _ AT) as ST. cbn [sp_here] in ST. destruct ST as (n & H1 & H2 & H3 & _). cbn [tid] in DR.
      rewrite (rendered_step d _ _ _ _ (go_down _ _ RU)) in DR. unfold level_render in DR. rewrite H1, H3 in DR. apply ok_inj in DR. subst. constructor. }
  destruct (here_node s F b c i tg a kids up AT) as (n & N1 & N2 & N3 & N4 & N5 & N6 & N7 & N8).
  pose proof (lo_info _ _ (go_links _ _ RU) i n N1) as LI. unfold link_info in LI. rewrite N2 in LI.
  pose proof (lo_pending _ _ (go_links _ _ RU) i n N1) as LP.
  assert (PN : n_parent n <> PNone) by (rewrite N4; destruct up; discriminate).
  assert (IX : nat_index i (children_of d (n_parent n)) = Some (length b)) by (rewrite N4; eapply here_index; eauto).
  assert (SK : para_skip d i = only_code kids).
  { eapply skip_code; [split; [exact N1|exact N2]|exact N5|exact N7]. }
  pose proof (here_pre s F b c i tg a kids up AT) as PP.
  set (z := Spot b (Tag i tg a kids) c :: up) in *.
  assert (KD : forall f bx' outs lst, (forall y, In y (filter f (inner_spots z)) -> exists b' t' c' up', y = Spot b' t' c' :: up' /\ listable lst t') ->
     mapM (fun j => draw lst j bx') (map here_id (filter f (inner_spots z))) = Ok outs -> Forall2 (fun y o => shows g F lst y bx' o) (filter f (inner_spots z)) outs).
  { intros f bx' outs lst HL Q. eapply undrawn_list; [|exact Q]. intros y J. destruct (HL y J) as (b' & t' & c' & up' & E & LL). apply filter_In in J as [J _].
    pose proof (inner_at d F _ AT) as IA. eapply Forall_forall in IA; [|exact J]. split; [split; [exact IA|eapply inner_in_all; [exact IN|exact J]]|]. exists b', t', c', up'. split; auto. split; auto.
    unfold inner_spots, z in J. cbn [sp_here kids_of] in J. apply spots_in in J as (b2 & t2 & c2 & E2 & J). rewrite E in E2. injection E2 as -> -> -> ->. eapply Forall_forall in IH; eauto. }
  assert (FT : filter (fun _ => true) (inner_spots z) = inner_spots z) by (clear; induction (inner_spots z) as [|y L IH]; auto; cbn [filter]; now f_equal).
  assert (KK : forall bx' outs, mapM (fun j => draw false j bx') (n_children n) = Ok outs -> Forall2 (fun y o => shows g F false y bx' o) (inner_spots z) outs).
  { intros bx' outs Q. rewrite <- FT. apply KD; [|rewrite FT].
    - intros y J. rewrite FT in J. unfold inner_spots, z in J. cbn [sp_here kids_of] in J. apply spots_in in J as (b2 & t2 & c2 & E2 & J). exists b2, t2, c2, z. split; auto. discriminate.
    - rewrite N5 in Q. rewrite <- (spots_ids z kids []) in Q. exact Q. }
  assert (KL : n_pending n = map here_id (filter (listed_at g "after_block") (inner_spots z))).
  { rewrite LP, N5. rewrite <- (spots_ids z kids []). apply filter_ids. intros y J. eapply placed_listed.
    - pose proof (inner_at d F _ AT) as IA. eapply Forall_forall in IA; [exact IA|exact J].
    - apply spots_in in J as (b' & t' & c' & -> & _). discriminate. }
  change (is_link tg) with (is_link_tag tg) in LI.
  rewrite (rendered_step d _ _ _ _ (go_down _ _ RU)) in DR. cbn [tid] in DR. unfold level_render in DR. rewrite N1, N3, N2 in DR. cbv zeta in DR.
  assert (TGT : forall lk, parse_href (lk_href lk) (g_host g) (g_port g) = Ok (lk_gopher lk) -> n_link n = Some lk -> is_link_tag tg = true ->
    LinkExtra (lk_href lk) (lk_title lk) (lk_gopher lk) = link_details g tg a).
  { intros lk PH NL L. unfold link_details, is_img. unfold link_data in N6. unfold is_link_tag, is_a, is_img in L. destruct (seqb_spec tg (lit "a")) as [->|NA].
    - destruct N6 as (lk' & X1 & X2 & X3). assert (lk' = lk) by congruence. subst lk'. change (seqb (lit "a") (lit "img")) with false. cbv iota. unfold target. rewrite <- X2, <- X3, PH. reflexivity.
    - destruct (seqb_spec tg (lit "img")) as [->|NI]; [|discriminate].
      destruct N6 as (lk' & X1 & X2 & X3). assert (lk' = lk) by congruence. subst lk'. unfold target. rewrite <- X2, <- X3, PH. reflexivity. }
  assert (PL : forall lk ref, lk_ctx lk = link_context g ref -> is_link_tag tg = true -> seqb (if seqb tg (lit "img") then lc_image_placement (lk_ctx lk) else lc_link_placement (lk_ctx lk)) (lit "inline") = shown_inline g tg).
  { intros lk ref -> L. unfold shown_inline. rewrite L. cbn [andb]. unfold link_context, placement. cbn [lc_image_placement lc_link_placement]. unfold is_link_tag, is_a, is_img in L.
    destruct (seqb_spec tg (lit "a")) as [->|]; [reflexivity|]. destruct (seqb_spec tg (lit "img")); [reflexivity|discriminate]. }
  assert (RF : forall lk ref, n_link n = Some lk -> lk_ctx lk = link_context g ref -> lk_ctx lk = link_context g (reference g F i)).
  { intros lk ref L1 L2. rewrite L2. unfold link_context. f_equal. transitivity (lc_reference (lk_ctx lk)); [now rewrite L2|]. eapply (numbers_all g s F (go_refs _ _ RU) DOC PRE i n lk); auto. }
  assert (LB : is_link_tag tg = true \/ is_link_tag tg = false) by (destruct (is_link_tag tg); auto).
  assert (SI : shown_inline g tg = true \/ shown_inline g tg = false) by (destruct (shown_inline g tg); auto).
  assert (CASES : (listing = false /\ shown_inline g tg = false) \/ (listing = false /\ shown_inline g tg = true) \/ (listing = true /\ is_link_tag tg = true /\ shown_inline g tg = false)).
  { destruct listing; [right; right; split; auto; apply (LS eq_refl)|]. destruct SI; auto. }
  destruct CASES as [[-> NI]|[[-> SIN]|(-> & L & NI)]].
  - assert (AL : match n_link n with Some lk => false || seqb (if seqb tg (lit "img") then lc_image_placement (lk_ctx lk) else lc_link_placement (lk_ctx lk)) (lit "inline") | None => false end = false).
    { destruct LB as [L|L]; rewrite L in LI; [|now rewrite LI]. destruct LI as (lk & ref & L1 & L2 & _). rewrite L1. cbn [orb]. rewrite (PL lk ref L2 L). assumption. }
    rewrite AL in DR. destruct (a_rend (asg_get i sg)) as [cl|] eqn:AR; [|discriminate]. cbn [bind] in DR.
    destruct (main_back b c i tg a kids up AT IN cl AR) as (over & M1 & M2 & M3 & M4 & M5).
    set (cx := Ctx (a_settings (asg_get i sg)) (Some bx) _ None) in *.
    apply bind_Ok in DR as (r & R1 & DR). apply bind_Ok in DR as (inner & R2 & DR). apply bind_Ok in DR as (parts & R3 & DR). apply bind_Ok in DR as (entries & R4 & DR).
    pose proof (inst_settled d cl i cx n tg (length b) over r N1 N2 PN IX M2 M3 M4 R1) as SE. pose proof (settled_shaped _ _ _ _ _ M4 SE (M5 NI)) as SS.
    pose proof (inst_room d cl i cx r bx inner eq_refl R1 SS R2) as RM. rewrite KL in R4, DR.
    eapply (sh_element g F b i tg a kids c up bx cl over (i_settings r) inner parts entries out NI M1 SE RM).
    + apply KK. exact R3.
    + apply KD; [|exact R4]. intros y J. apply filter_In in J as [J LA]. unfold inner_spots, z in J. cbn [sp_here kids_of] in J. apply spots_in in J as (b2 & t2 & c2 & -> & J).
      exists b2, t2, c2, z. split; auto. eapply (listed_listable (lit "after_block")); [|reflexivity|reflexivity|exact LA]. intros X. vm_compute in X. discriminate.
    + pose proof (picture_back d cl i cx r n tg a kids (in_pre up) bx (c_link cx) None _ out N1 N2 N8 eq_refl eq_refl eq_refl R1 SK PP SS DR) as PI.
      match goal with H : picture _ _ ?k ?p ?s1 ?q ?l ?e ?ct _ _ |- picture _ _ _ _ _ _ ?l' _ ?ct' _ _ => replace l' with l; [replace ct' with ct; [exact H|]|] end.
      * f_equal. f_equal. fold z. destruct (filter (listed_at g "after_block") (inner_spots z)); reflexivity.
      * unfold cx. cbn [c_link]. destruct LB as [L|L]; rewrite L in *; [|now rewrite LI]. destruct LI as (lk & ref & L1 & L2 & _). rewrite L1. f_equal. eapply RF; eauto.
  - assert (L : is_link_tag tg = true) by (unfold shown_inline in SIN; apply andb_prop in SIN; apply SIN).
    rewrite L in LI. destruct LI as (lk & ref & L1 & L2 & L3). rewrite L1 in DR. cbn [orb] in DR. rewrite (PL lk ref L2 L), SIN in DR. rewrite ?(PL lk ref L2 L), ?SIN in DR.
    destruct (a_rend (asg_get i sg)) as [cl|] eqn:AR; [|discriminate]. cbn [bind] in DR.
    destruct (main_back b c i tg a kids up AT IN cl AR) as (over & M1 & _ & _ & M4 & _).
    set (cx := Ctx None (Some bx) _ _) in *.
    apply bind_Ok in DR as (r & R1 & DR). apply bind_Ok in DR as (inner & R2 & DR). apply bind_Ok in DR as (parts & R3 & DR).
    pose proof (inst_settled d cl i cx n tg (length b) [] r N1 N2 PN IX ltac:(discriminate) ltac:(reflexivity) M4 R1) as SE. pose proof (settled_shaped _ _ _ _ _ M4 SE ltac:(discriminate)) as SS.
    pose proof (inst_room d cl i cx r bx inner eq_refl R1 SS R2) as RM.
    eapply (sh_inline g F b i tg a kids c up bx cl over (i_settings r) inner parts out SIN M1 SE RM); [apply KK; exact R3|].
    pose proof (picture_back d cl i cx r n tg a kids (in_pre up) bx (c_link cx) (c_extra cx) _ out N1 N2 N8 eq_refl eq_refl eq_refl R1 SK PP SS DR) as PI.
    unfold cx in PI. cbn [c_link c_extra] in PI. rewrite (TGT lk L3 L1 L), (RF lk ref L1 L2) in PI. exact PI.
  - rewrite L in LI. destruct LI as (lk & ref & L1 & L2 & L3). rewrite L1 in DR. cbn [orb] in DR. rewrite (PL lk ref L2 L), NI in DR.
    destruct (a_lsettings (asg_get i sg)) as [lst|] eqn:ALS; [|discriminate]. destruct (a_lrend (asg_get i sg)) as [cl|] eqn:AR; [|discriminate]. cbn [bind] in DR.
    destruct (link_back b c i tg a kids up AT IN cl L AR ltac:(congruence)) as (M1 & M4).
    set (cx := Ctx None (Some bx) _ _) in *.
    apply bind_Ok in DR as (r & R1 & DR). apply bind_Ok in DR as (inner & R2 & DR). apply bind_Ok in DR as (parts & R3 & DR).
    pose proof (inst_settled d cl i cx n tg (length b) [] r N1 N2 PN IX ltac:(discriminate) ltac:(reflexivity) M4 R1) as SE. pose proof (settled_shaped _ _ _ _ _ M4 SE ltac:(discriminate)) as SS.
    pose proof (inst_room d cl i cx r bx inner eq_refl R1 SS R2) as RM.
    eapply (sh_listed g F b i tg a kids c up bx cl (i_settings r) inner parts out L NI M1 SE RM); [apply KK; exact R3|].
    pose proof (picture_back d cl i cx r n tg a kids (in_pre up) bx (c_link cx) (c_extra cx) _ out N1 N2 N8 eq_refl eq_refl eq_refl R1 SK PP SS DR) as PI.
    unfold cx in PI. cbn [c_link c_extra] in PI. rewrite (TGT lk L3 L1 L), (RF lk ref L1 L2) in PI. exact PI.
Qed.

(** ** The page *)
Lemma sites_undrawn : forall listing bx L outs, Forall (at_site d F) L -> incl L (all_places [] [] F) -> (forall z, In z L -> exists b t c up, z = Spot b t c :: up /\ listable listing t) ->
  mapM (fun j => draw listing j bx) (map here_id L) = Ok outs -> Forall2 (fun y o => shows g F listing y bx o) L outs.
Proof.
  intros listing bx L outs H IC NE Q. eapply undrawn_list; [|exact Q]. intros z J. eapply Forall_forall in H; [|exact J]. split; [split; [exact H|exact (IC z J)]|].
  destruct (NE z J) as (b & t & c & up & -> & LS). exists b, t, c, up. split; auto. split; auto. apply undrawn_all.
Qed.
Lemma close_back : forall out, p_chunks s = [] -> (let* s' := close g s in Ok (p_out s')) = Ok out -> styled_page g F out.
Proof.
  intros out FC H. pose proof (roots_at s F DOC) as RA. unfold close in H. cbv zeta in H. rewrite AS in H. cbn [bind] in H.
  set (L := filter (listed_at g "footer") (all_places [] [] F)) in *.
  assert (FT : p_footer s = map here_id L).
  { rewrite (lo_footer _ _ (go_links _ _ RU)), <- PRE, <- (all_places_ids F [] []). apply filter_ids. intros z J. eapply placed_listed.
    - pose proof (all_places_at d F F [] [] RA) as X. eapply Forall_forall in X; eauto.
    - eapply all_places_some; eauto. }
  apply bind_Ok in H as (s' & H & E). apply ok_inj in E. apply bind_Ok in H as (parts & B & H). apply bind_Ok in H as (foot & Q & H). apply ok_inj in H. subst s'. cbn [p_out] in E.
  assert (B' : Forall2 (fun z o => shows g F false z (g_box g) o) (spots [] [] F) parts).
  { rewrite (proj1 DOC), <- (spots_ids [] F []) in B. eapply sites_undrawn; eauto; [intros z J; now apply spots_in_all|]. intros z J. apply spots_in in J as (b & t & c & -> & _). exists b, t, c, []. split; auto. discriminate. }
  set (L' := if seqb (g_link g) (lit "footer") then L else []).
  assert (Q' : exists entries, Forall2 (fun z o => shows g F true z (g_box g) o) L' entries /\ concat foot = (match L' with [] => [] | _ => nl end) ++ concat entries).
  { unfold L'. destruct (seqb (g_link g) (lit "footer")); [|apply ok_inj in Q; subst foot; exists []; split; [constructor|reflexivity]]. rewrite FT in Q.
    assert (U' : forall entries, mapM (fun i => draw true i (g_box g)) (map here_id L) = Ok entries -> Forall2 (fun z o => shows g F true z (g_box g) o) L entries).
    { intros entries. apply sites_undrawn.
      - pose proof (all_places_at d F F [] [] RA) as X. rewrite Forall_forall in *. intros z J. apply X. apply filter_In in J. apply J.
      - intros z J. apply filter_In in J. apply J.
      - intros z J. apply filter_In in J as [J LA]. apply all_places_some in J as NZ. destruct z as [|[b t c] up]; [congruence|]. exists b, t, c, up. split; auto.
        eapply (listed_listable (lit "footer")); [|reflexivity|reflexivity|exact LA]. intros X. vm_compute in X. discriminate. }
    destruct L as [|z L0]; [apply ok_inj in Q; subst foot; exists []; split; [constructor|reflexivity]|]. cbn [map] in Q, U'. apply bind_Ok in Q as (entries & Q1 & Q2). apply ok_inj in Q2. subst foot.
    exists entries. split; [apply U'; exact Q1|reflexivity]. }
  destruct Q' as (entries & Q1 & Q2). exists parts, entries. cbv zeta. fold L. fold L'. split; auto. split; auto. rewrite <- Q2.
  rewrite FC in E. cbn [app] in E. rewrite concat_app in E. unfold finished. subst out. destruct (g_optimise g); reflexivity.
Qed.
End C.
End M.
Close Scope Z_scope.
