(** One parser under any calls: the tree, what it put together, and the settings
    that earlier closings left behind. *)
From Verif Require Import WrapFacts WrapLoop WrapWidth.
From Verif Require Import BaseFacts StrFacts SelFacts CssFacts TreeFacts HistoryFacts DomFacts LineFacts BoxFacts CollapseFacts RenderFacts DocFacts CrashFacts LinkTree.
From Verif Require Import PageSpec PageRead StyleMain JudgeMain JudgeProps ShapeMain TripMain TripFacts GoodFacts.
From Verif Require MarkupFacts MarkupMain.
From Verif Require Export SessionLast ShapeSpec.

Section F.
Context `{U : Uni}.

(** ** The tree *)
Lemma zstep_grows : forall o z, forest (zstep o z) =
  match o with
  | OStart t a => add_at (length (z_open z)) (Tag (z_n z) t a []) (forest z)
  | OData s => add_at (length (z_open z)) (Text (z_n z) (if z_pre z then s else normalise s)) (forest z)
  | OEnd _ | OClose => forest z
  | OReset => []
  end.
Proof.
  intros o z. unfold forest. destruct o as [t a|t|x| |]; cbn [zstep].
  - destruct (void t).
    + destruct (add_leaf (Tag (z_n z) t a []) (z_open z) (z_root z)) as [fs root] eqn:E. cbn [z_open z_root].
      rewrite (plug_add_leaf _ _ _ _ _ E). symmetry. apply add_here.
    + cbn [z_open z_root plug]. unfold f_close. cbn [f_id f_tag f_attrs f_kids app]. symmetry. apply add_here.
  - destruct (void t); [reflexivity|]. destruct (z_open z) as [|f r] eqn:EO; [reflexivity|].
    destruct (seqb (f_tag f) t).
    + destruct (add_leaf (f_close f []) r (z_root z)) as [fs root] eqn:E. cbn [z_open z_root].
      rewrite (plug_add_leaf _ _ _ _ _ E). reflexivity.
    + cbn [z_open z_root]. reflexivity.
  - destruct (add_leaf (Text (z_n z) (data_text (z_pre z) x)) (z_open z) (z_root z)) as [fs root] eqn:E. cbn [z_open z_root].
    rewrite (plug_add_leaf _ _ _ _ _ E). unfold data_text. rewrite collapse_nrm. symmetry. apply add_here.
  - cbn [z_open z_root plug]. apply app_nil_r.
  - reflexivity.
Qed.
Lemma leaf_open : forall x fs root, map f_tag (fst (add_leaf x fs root)) = map f_tag fs.
Proof. intros x [|f fs] root; reflexivity. Qed.
Lemma zstep_open : forall o z, map f_tag (z_open (zstep o z)) =
  match o with
  | OStart t _ => if void t then map f_tag (z_open z) else t :: map f_tag (z_open z)
  | OEnd t => if void t then map f_tag (z_open z)
              else match map f_tag (z_open z) with x :: r => if seqb x t then r else map f_tag (z_open z) | [] => [] end
  | OData _ => map f_tag (z_open z)
  | OClose | OReset => []
  end.
Proof.
  intros o z. destruct o as [t a|t|x| |]; cbn [zstep]; try reflexivity.
  - destruct (void t); [|reflexivity]. pose proof (leaf_open (Tag (z_n z) t a []) (z_open z) (z_root z)) as L. destruct (add_leaf _ _ _). exact L.
  - destruct (void t); [reflexivity|]. destruct (z_open z) as [|f r] eqn:EO; [reflexivity|]. cbn [map]. destruct (seqb (f_tag f) t); [|reflexivity].
    pose proof (leaf_open (f_close f []) r (z_root z)) as L. destruct (add_leaf _ _ _). exact L.
  - pose proof (leaf_open (Text (z_n z) (data_text (z_pre z) x)) (z_open z) (z_root z)) as L. destruct (add_leaf _ _ _). exact L.
Qed.
Lemma inv_count : forall s z, Inv s z -> count_nodes (forest z) = z_n z.
Proof. intros s z I. destruct (Inv_document _ _ I) as [_ P]. unfold count_nodes. rewrite P, seq_length. apply (inv_len _ _ I). Qed.
Lemma good_inv : forall g s z, Inv s z -> links_ok g s -> refs_ok g s -> good g s.
Proof.
  intros g s z I L R. destruct (Inv_document _ _ I) as [D P]. constructor; auto; [eapply document_wf; eauto|].
  intros i n a av Hn E G. destruct (document_carries _ _ D P i n Hn E) as (at' & C). eapply carries_class; eauto.
Qed.
Lemma good_step : forall g o s z s', Inv s z -> good g s -> step g o s = Ok s' -> good g s'.
Proof.
  intros g o s z s' I G H. eapply good_inv; [eapply step_inv; eauto|eapply step_links; eauto; apply G|eapply (step_numbers g); eauto; apply G].
Qed.
Lemma start_keeps : forall g t a s s', handle_starttag g t a s = Ok s' -> p_chunks s' = p_chunks s /\ p_out s' = p_out s /\ p_asg s' = p_asg s.
Proof.
  intros g t a s s' H. unfold handle_starttag in H. inv_bind H. destruct x as [[av cls] nid]. inv_bind H. inv_bind H. destruct x0 as [[d footer] next].
  injection H as <-. cbn. auto.
Qed.
Lemma end_keeps : forall t s, p_chunks (handle_endtag t s) = p_chunks s /\ p_out (handle_endtag t s) = p_out s /\ p_asg (handle_endtag t s) = p_asg s.
Proof.
  intros t s. unfold handle_endtag. destruct (is_void t); auto. destruct (get_top s) as [i|]; auto. destruct (node_at _ i) as [n|]; auto. destruct (n_tag n) as [t'|]; auto.
  destruct (seqb t' t); auto.
Qed.

(** ** Settings of earlier closings *)
Section G.
Variable g : cfg.
Definition at_element (z : site) : Prop := match z with x :: _ => PageSpec.element (sp_here x) = true | [] => False end.
(** The node was reached by a rule that names a renderer, then or now. *)
Definition kept_by (rules : list (rule rcls)) (F : list tree) (i : nat) : Prop :=
  exists F0 z0, grown F0 F /\ In z0 (all_places [] [] F0) /\ node_of z0 = Some i /\ (at_element z0 -> ~ silent rules z0 rule_renderer).
Definition paired (r : option (rspec rcls)) : Prop := exists c s, r = Some (RPair c s).
Definition stale (F : list tree) (sg : asgs) : Prop := forall i,
  (a_settings (asg_get i sg) <> None -> paired (Some (g_default g)) \/ kept_by (g_rules g) F i)
  /\ (a_lsettings (asg_get i sg) <> None -> paired (g_ext_a g) \/ kept_by (g_ext_rules g) F i).
Lemma kept_grown : forall rules F F' i, grown F F' -> kept_by rules F i -> kept_by rules F' i.
Proof. intros rules F F' i H (F0 & z0 & K1 & K). exists F0, z0. split; auto. eapply grown_trans; eauto. Qed.
Lemma stale_grown : forall F F' sg, grown F F' -> stale F sg -> stale F' sg.
Proof.
  intros F F' sg H S i. destruct (S i) as [S1 S2]. split; intros N; [destruct (S1 N)|destruct (S2 N)]; auto; right; eapply kept_grown; eauto.
Qed.
Lemma stale_none : forall F, stale F [].
Proof. intros F i. split; intros H; now elim H. Qed.

Section C.
Variables (s : pstate) (F : list tree).
Hypothesis GO : good g s.
Hypothesis DOC : document (p_dom s) F.
Hypothesis PRE : flat_map preorder F = seq 0 (length (d_nodes (p_dom s))).
Hypothesis OK1 : rules_ok (g_rules g).
Hypothesis OK2 : rules_ok (g_ext_rules g).
Local Notation d := (p_dom s).

Lemma first_err_none : forall i l, first_err s i l = None -> forall x, In x l -> exists v, selector_matches d (sl_tree x) (ONode i) = Ok v.
Proof.
  intros i. induction l as [|y l IH]; cbn [first_err]; intros H x J; [contradiction|]. destruct (selector_matches d (sl_tree y) (ONode i)) as [v|] eqn:E; [|discriminate].
  destruct J as [<-|J]; [eauto|auto].
Qed.
Lemma got_covered : forall i (rules : list (rule rcls)) r, get_for_tag d (ONode i) rules = Ok r -> rules_covered d i rules.
Proof.
  intros i rules r H. pose proof (got_fails s i rules) as K. destruct (first_err s i (flat_map ru_sel rules)) as [e|] eqn:E; cbn [fails_as] in K; [congruence|].
  intros ru J x I. apply (first_err_none _ _ E). apply in_flat_map. eauto.
Qed.
(** What looking a node up in the rules says of its place. *)
Lemma place_of : forall i, (i < length (d_nodes d))%nat -> exists z, In z (all_places [] [] F) /\ node_of z = Some i /\ at_site d F z.
Proof.
  intros i L. destruct (node_at d i) as [n|] eqn:N; [|unfold node_at in N; apply nth_error_None in N; lia].
  destruct (node_place d F DOC PRE i n N) as (z & Z1 & Z2 & Z3). exists z. split; auto. split; auto.
  destruct z as [|x z]; [discriminate|]. injection Z2 as <-. reflexivity.
Qed.
Lemma looked_up : forall rules i r z, rules_ok rules -> get_for_tag d (ONode i) rules = Ok r -> node_of z = Some i -> at_site d F z -> at_element z ->
  match r with Some _ => ~ silent rules z rule_renderer | None => silent rules z rule_renderer end.
Proof.
  intros rules i r z RO H NZ AT EL. pose proof (got_covered _ _ _ H) as CO. destruct z as [|[b t c] up]; [contradiction|]. cbn [node_of sp_here] in NZ. injection NZ as <-. cbn [at_element sp_here] in EL.
  destruct (got d F (go_wf _ _ GO) b t c up EL AT rules CO RO) as (r' & R & Q). assert (r' = r) by congruence. subst r'.
  destruct r as [[cl st]|]; [|exact Q]. destruct Q as (_ & Q & _). intros K. exact (wins_not_silent _ _ _ _ _ Q K).
Qed.
Lemma node_lt : forall sg i a, assign_one g d sg i = Ok a -> (i < length (d_nodes d))%nat.
Proof.
  intros sg i a H. unfold assign_one in H. inv_bind H. destruct (node_at d i) as [n|] eqn:N; [eapply node_at_lt; eauto|discriminate].
Qed.
Lemma one_stale : forall sg i a, stale F sg -> assign_one g d sg i = Ok a ->
  (a_settings a <> None -> paired (Some (g_default g)) \/ kept_by (g_rules g) F i)
  /\ (a_lsettings a <> None -> paired (g_ext_a g) \/ kept_by (g_ext_rules g) F i).
Proof.
  intros sg i a ST H. destruct (place_of i (node_lt _ _ _ H)) as (z & Z1 & Z2 & Z3). destruct (ST i) as [S1 S2].
  assert (KB : forall rules x, rules_ok rules -> get_for_tag d (ONode i) rules = Ok (Some x) -> kept_by rules F i).
  { intros rules x RO G. exists F, z. split; [constructor|]. split; auto. split; auto. intros EL. exact (looked_up rules i (Some x) z RO G Z2 Z3 EL). }
  unfold assign_one, get_renderer in H. destruct (get_for_tag d (ONode i) (g_rules g)) as [r|] eqn:G1; [|discriminate]. cbn [bind] in H.
  set (m := match r with Some (c0, s0) => RPair (Some c0) (Some s0) | None => g_default g end) in *.
  assert (M1 : a_settings (assign_main m (asg_get i sg)) <> None -> paired (Some (g_default g)) \/ kept_by (g_rules g) F i).
  { unfold m. destruct r as [[c0 s0]|]; [intros _; right; eapply KB; eauto|]. destruct (g_default g) as [c0|c0 s0] eqn:EG; cbn [assign_main a_settings]; [intros N; destruct (S1 N) as [(c1 & s1 & P)|]; auto; rewrite EG in P; discriminate|intros _; left; exists c0, s0; congruence]. }
  assert (M2 : a_lsettings (assign_main m (asg_get i sg)) <> None -> paired (g_ext_a g) \/ kept_by (g_ext_rules g) F i) by (destruct m; exact S2).
  destruct (node_at d i) as [n|]; [|discriminate]. destruct (n_tag n) as [t|]; [|injection H as <-; auto]. destruct (is_link t); [|injection H as <-; auto].
  destruct (get_ext_renderer g d i) as [e|] eqn:G2; [|discriminate]. cbn [bind] in H. injection H as <-. split; [destruct e; exact M1|].
  unfold get_ext_renderer in G2. destruct (get_for_tag d (ONode i) (g_ext_rules g)) as [[[c1 s1]|]|x] eqn:G3.
  - intros _. right. eapply KB; eauto.
  - cbn [bind] in G2. destruct (g_ext_a g) as [r'|] eqn:EA; [|discriminate]. injection G2 as <-. destruct r' as [c1|c1 s1]; [exact M2|]. intros _. left. unfold paired. eauto.
  - destruct x; try discriminate. cbn [bind] in G2. destruct (g_ext_a g) as [r'|] eqn:EA; [|discriminate]. injection G2 as <-. destruct r' as [c1|c1 s1]; [exact M2|]. intros _. left. unfold paired. eauto.
Qed.
Lemma assign_stale : forall sg ids sg', stale F sg -> assign_all g d sg ids = Ok sg' -> stale F sg'.
Proof.
  intros sg ids. induction ids as [|j ids IH]; intros sg' ST H; cbn [assign_all] in H; [injection H as <-; apply stale_none|].
  destruct (assign_one g d sg j) as [a|] eqn:A; [|discriminate]. cbn [bind] in H. destruct (assign_all g d sg ids) as [rest|] eqn:R; [|discriminate]. cbn [bind] in H. injection H as <-.
  intros i. cbn [asg_get]. destruct (Nat.eqb_spec i j) as [->|_]; [eapply one_stale; eauto|]. apply IH; auto.
Qed.
Lemma assigned_stale : forall sg ids, stale F sg -> stale F (assigned g d sg ids ++ sg).
Proof.
  intros sg ids ST. induction ids as [|j ids IH]; cbn [assigned app]; auto. destruct (assign_one g d sg j) as [a|] eqn:A; [|exact ST].
  intros i. cbn [asg_get app]. destruct (Nat.eqb_spec i j) as [->|_]; [exact (one_stale sg j a ST A)|]. apply IH.
Qed.

(** ** They show nowhere *)
Hypothesis LAST : lasting g.
Hypothesis ST : stale F (p_asg s).
Hypothesis BU : built d g.
Variables (sg sg0 : asgs).
Hypothesis AS : assign_all g d (p_asg s) (seq 0 (length (d_nodes d))) = Ok sg.
Hypothesis AS0 : assign_all g d [] (seq 0 (length (d_nodes d))) = Ok sg0.
Lemma kept_not : forall rules i z, rules_last rules -> kept_by rules F i -> In z (all_places [] [] F) -> node_of z = Some i -> at_element z -> silent rules z rule_renderer -> False.
Proof.
  intros rules i z RL (F0 & z0 & K1 & K2 & K3 & K4) Z1 Z2 EL S. assert (ND : NoDup (flat_map preorder F)) by (rewrite PRE; apply seq_NoDup).
  assert (E : node_of z0 = node_of z) by congruence. pose proof (grown_same F0 F z0 z K1 ND K2 Z1 E) as LT. apply K4.
  - destruct LT as [|x y z0 z [_ A] _]; [contradiction|]. cbn [at_element] in *. destruct (sp_here x), (sp_here y); cbn in *; auto; try contradiction.
  - exact (RL F0 F z0 z K1 ND K2 Z1 E S).
Qed.
Lemma site_element : forall i n t z, node_at d i = Some n -> n_tag n = Some t -> node_of z = Some i -> at_site d F z -> at_element z.
Proof.
  intros i n t z N T NZ AT. destruct z as [|[b x c] up]; [discriminate|]. injection NZ as NZ. cbn [at_element sp_here] in *. pose proof (site_stores _ _ _ _ AT) as S. cbn [sp_here] in S.
  destruct x as [j tg a kids|j y]; [reflexivity|]. cbn [tid] in NZ. subst j. destruct S as (n' & N1 & N2 & _). congruence.
Qed.
Lemma same_assigned : forall i n t, node_at d i = Some n -> n_tag n = Some t ->
  a_rend (asg_get i sg) = a_rend (asg_get i sg0) /\ a_settings (asg_get i sg) = a_settings (asg_get i sg0)
  /\ (is_link t = true -> a_lrend (asg_get i sg) = a_lrend (asg_get i sg0) /\ (a_lsettings (asg_get i sg) = None <-> a_lsettings (asg_get i sg0) = None)).
Proof.
  intros i n t N T. pose proof (node_at_lt _ _ _ N) as LT. assert (J : In i (seq 0 (length (d_nodes d)))) by (apply in_seq; lia).
  destruct (assign_all_get _ _ _ _ _ i AS J) as (a & A1 & ->). destruct (assign_all_get _ _ _ _ _ i AS0 J) as (a0 & A2 & ->).
  destruct (place_of i LT) as (z & Z1 & Z2 & Z3). pose proof (site_element i n t z N T Z2 Z3) as EL. destruct (ST i) as [S1 S2]. destruct LAST as [L1 L2].
  unfold assign_one, get_renderer in A1, A2. destruct (get_for_tag d (ONode i) (g_rules g)) as [r|] eqn:G1; [|discriminate]. cbn [bind] in A1, A2. rewrite N, T in A1, A2. cbn [asg_get] in A2.
  set (m := match r with Some (c0, s0) => RPair (Some c0) (Some s0) | None => g_default g end) in *.
  assert (E1 : a_rend (assign_main m (asg_get i (p_asg s))) = a_rend (assign_main m asg0)) by (destruct m; reflexivity).
  assert (E2 : a_settings (assign_main m (asg_get i (p_asg s))) = a_settings (assign_main m asg0)).
  { unfold m. destruct r as [[c0 s0]|]; [reflexivity|]. pose proof (looked_up (g_rules g) i None z OK1 G1 Z2 Z3 EL) as Q. cbv iota in Q.
    destruct (g_default g) as [c0|c0 s0] eqn:EG; [|reflexivity]. cbn [assign_main a_settings asg0]. destruct (a_settings (asg_get i (p_asg s))) eqn:EA; [|reflexivity]. exfalso.
    destruct (S1 ltac:(congruence)) as [(? & ? & P)|K]; [congruence|]. destruct L1 as [(? & ? & P)|RL]; [congruence|]. exact (kept_not _ _ _ RL K Z1 Z2 EL Q). }
  destruct (is_link t) eqn:LK.
  - destruct (get_ext_renderer g d i) as [e|] eqn:G2; [|discriminate]. cbn [bind] in A1, A2. injection A1 as <-. injection A2 as <-.
    split; [destruct e; exact E1|]. split; [destruct e; exact E2|]. intros _. split; [destruct e; reflexivity|]. destruct e as [c1|c1 s1]; cbn [assign_link a_lsettings]; [|split; discriminate].
    assert (X : forall sg1, a_lsettings (assign_main m sg1) = a_lsettings sg1) by (intros sg1; destruct m; reflexivity). rewrite !X. cbn [asg0 a_lsettings]. split; auto. intros _.
    unfold get_ext_renderer in G2. destruct (get_for_tag d (ONode i) (g_ext_rules g)) as [[[c2 s2]|]|x] eqn:G3; [discriminate| |exfalso].
    + pose proof (looked_up (g_ext_rules g) i None z OK2 G3 Z2 Z3 EL) as Q. cbv iota in Q. cbn [bind] in G2. destruct (g_ext_a g) as [r'|] eqn:EA; [|discriminate]. injection G2 as ->.
      destruct (a_lsettings (asg_get i (p_asg s))) eqn:EL2; [|reflexivity]. exfalso. destruct (S2 ltac:(congruence)) as [(? & ? & P)|K]; [congruence|].
      destruct L2 as [(? & ? & P)|RL]; [congruence|]. exact (kept_not _ _ _ RL K Z1 Z2 EL Q).
    + destruct (got_total s i n (g_ext_rules g) N (bu_ext _ _ BU i n t N T LK)) as (r2 & R2). congruence.
  - injection A1 as <-. injection A2 as <-. split; auto. split; auto. discriminate.
Qed.
Lemma same_drawn : forall f force i bx, render_node f d sg force i bx = render_node f d sg0 force i bx.
Proof.
  induction f as [|f IH]; intros force i bx; auto. rewrite !render_node_S.
  rewrite (level_ext (render_node f d sg) (render_node f d sg0)) by (intros; apply IH). clear IH.
  unfold level_render. destruct (node_at d i) as [n|] eqn:N; auto. destruct (n_data n) eqn:ND; auto. cbv zeta.
  destruct (n_tag n) as [t|] eqn:T.
  2:{ exfalso. destruct (place_of i (node_at_lt _ _ _ N)) as (z & Z1 & Z2 & Z3). destruct z as [|[b x c] up]; [discriminate|]. injection Z2 as Z2. cbn [sp_here] in *.
      pose proof (site_stores _ _ _ _ Z3) as S. cbn [sp_here] in S. destruct x as [j tg a kids|j y]; cbn [tid] in Z2; subst j.
      - apply stores_Tag in S as [(n' & N1 & N2 & _) _]. congruence.
      - destruct S as (n' & N1 & N2 & N3 & _). congruence. }
  destruct (same_assigned i n t N T) as (E1 & E2 & E3). rewrite E1, E2.
  pose proof (lo_info _ _ (go_links _ _ GO) i n N) as LI. unfold link_info in LI. rewrite T in LI. destruct (is_link t); [|rewrite LI; reflexivity].
  destruct (E3 eq_refl) as [E4 E5]. rewrite E4. destruct (a_lsettings (asg_get i sg)), (a_lsettings (asg_get i sg0)); auto; exfalso; [discriminate (proj2 E5 eq_refl)|discriminate (proj1 E5 eq_refl)].
Qed.
End C.
End G.
End F.
