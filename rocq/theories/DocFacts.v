(** Whole documents: composition, trailing white space, constructor. *)
From Verif Require Import BaseFacts StrFacts LineFacts TreeFacts RenderFacts ElemFacts LinkSettings.
From Verif Require Export DocSpec.
Section S.
Context `{U : Uni}.

(** ** Constructor *)
Lemma construct_cases : forall o,
  let bad := (seqb (o_format o) (lit "gophermap") && (seqb (o_link o) (lit "inline") || seqb (o_host o) []))%bool in
  if bad then construct o = Err EValue else exists g, construct o = Ok g.
Proof.
  intros o bad. unfold bad, construct. destruct (seqb (o_format o) (lit "gophermap")), (seqb (o_link o) (lit "inline")), (seqb (o_host o) []); cbn [andb orb]; auto;
    cbv zeta; (assert (K : exists v, dget [] (dupdate default_table (o_renderers o)) = Some v) by
      (rewrite dget_dupdate_last; destruct (dlast [] (o_renderers o)); [eauto|]; eexists; vm_compute; reflexivity));
    destruct K as ([? ?] & ->); eauto.
Qed.

(** ** optimise *)
Lemma optimise_lines : forall s, split_on 10%N (optimise s) = map rstrip (split_on 10%N s).
Proof.
  intros s. unfold optimise, nl. apply split_on_join.
  - destruct (split_on_cons 10%N s) as (l & ls & ->). discriminate.
  - apply Forall_map. apply Forall_forall. intros l I X. apply rstrip_In in X. revert X. exact (proj1 (Forall_forall _ _) (split_on_nochar 10%N s) l I).
Qed.
Lemma rstrip_trim : forall s, space_last (rstrip s) = false.
Proof.
  intros s. destruct (rstrip_spec s) as (b & _ & _ & [-> |(a & c & -> & H)]); [reflexivity|].
  unfold space_last. rewrite rev_app_distr. exact H.
Qed.
Definition but_out (s s' : pstate) : Prop :=
  p_dom s = p_dom s' /\ p_stack s = p_stack s' /\ p_next s = p_next s' /\ p_footer s = p_footer s' /\ p_in_pre s = p_in_pre s'
  /\ p_chunks s = p_chunks s' /\ p_asg s = p_asg s'.
Definition plain_cfg (g : cfg) (b : bool) : cfg :=
  Cfg (g_box g) (g_format g) (g_link g) (g_image g) (g_host g) (g_port g) (g_rules g) (g_default g) (g_ext_rules g) (g_ext_a g) b.
Lemma close_opt : forall g s s' (b b' : bool), but_out s s' ->
  res_rel (fun t t' : pstate => but_out t t' /\ exists y : str, p_out t = (if b then optimise y else y) /\ p_out t' = (if b' then optimise y else y))
    (close (plain_cfg g b) s) (close (plain_cfg g b') s').
Proof.
  intros g s s' b b' (E1 & E2 & E3 & E4 & E5 & E6 & E7). unfold close. cbv zeta. rewrite <- E1, <- E3, <- E4, <- E5, <- E6, <- E7.
  replace (assign_all (plain_cfg g b') (p_dom s) (p_asg s) (seq 0 (length (d_nodes (p_dom s)))))
    with (assign_all (plain_cfg g b) (p_dom s) (p_asg s) (seq 0 (length (d_nodes (p_dom s))))).
  2: { generalize (seq 0 (length (d_nodes (p_dom s)))) as l. induction l as [|i l IH]; auto. cbn [assign_all]. rewrite IH. reflexivity. }
  destruct (assign_all _ _ _ _) as [sg|e]; [|reflexivity]. cbn [bind]. change (g_box (plain_cfg g b')) with (g_box (plain_cfg g b)).
  destruct (mapM _ (d_root (p_dom s))) as [body|e]; [|reflexivity]. cbn [bind]. change (g_link (plain_cfg g b')) with (g_link (plain_cfg g b)).
  match goal with |- res_rel _ (bind ?x _) (bind ?y _) => change y with x; destruct x as [foot|e]; [|reflexivity] end. cbn [bind plain_cfg g_optimise].
  split; [repeat split|]. eexists. split; reflexivity.
Qed.
Lemma step_opt : forall g o s s' b b', but_out s s' -> res_rel but_out (step (plain_cfg g b) o s) (step (plain_cfg g b') o s').
Proof.
  intros g o s s' b b' H. destruct o as [t a|t|x| |].
  - destruct H as (E1 & E2 & E3 & E4 & E5 & E6 & E7). cbn [step]. unfold handle_starttag.
    replace (get_top s') with (get_top s) by (unfold get_top; now rewrite E1, E2). rewrite <- E1, <- E2, <- E3, <- E4, <- E5, <- E6, <- E7.
    eapply (bind_rel eq); [apply res_rel_refl; auto|]. intros x y <-. destruct x as [[av cls] nid].
    eapply (bind_rel eq); [apply res_rel_refl; auto|]. intros x y <-.
    eapply (bind_rel eq); [apply res_rel_refl; auto|]. intros z y <-. destruct z as [[d1 footer] next].
    repeat split.
  - destruct H as (E1 & E2 & E3 & E4 & E5 & E6 & E7). cbn [step]. unfold handle_endtag.
    replace (get_top s') with (get_top s) by (unfold get_top; now rewrite E1, E2). rewrite <- E1, <- E2, <- E3, <- E4, <- E5, <- E6, <- E7.
    destruct (is_void t); [repeat split; auto|]. cbv zeta. destruct (get_top s); [|repeat split; auto].
    destruct (node_at (p_dom s) n); [|repeat split; auto]. destruct (n_tag n0); [|repeat split; auto]. destruct (seqb s0 t); repeat split; auto.
  - destruct H as (E1 & E2 & E3 & E4 & E5 & E6 & E7). cbn [step]. unfold handle_data.
    replace (get_top s') with (get_top s) by (unfold get_top; now rewrite E1, E2). rewrite <- E1, <- E2, <- E3, <- E4, <- E5, <- E6, <- E7.
    repeat split; auto.
  - cbn [step]. pose proof (close_opt g s s' b b' H) as C. destruct (close _ s), (close _ s'); cbn in *; try tauto. 
  - cbn [step]. unfold reset. destruct H as (E1 & E2 & E3 & E4 & E5 & E6 & E7). rewrite E5. repeat split.
Qed.
Lemma run_opt : forall g h s s' b b', but_out s s' -> res_rel but_out (run (plain_cfg g b) h s) (run (plain_cfg g b') h s').
Proof.
  intros g h. induction h as [|o h IH]; intros s s' b b' H; cbn [run]; auto.
  eapply bind_rel; [now apply step_opt|]. intros x y R. now apply IH.
Qed.
Lemma render_opt : forall o h,
  res_rel trimmed (render_doc (with_optimise o false) h) (render_doc (with_optimise o true) h).
Proof.
  intros o h. unfold render_doc.
  assert (K : res_rel (fun g g' => g = plain_cfg g false /\ g' = plain_cfg g true) (construct (with_optimise o false)) (construct (with_optimise o true))).
  { unfold construct. cbn [with_optimise o_format o_link o_host o_box o_renderers o_ext o_image o_port o_optimise].
    destruct (_ && seqb (o_link o) _)%bool; [reflexivity|]. destruct (_ && seqb (o_host o) _)%bool; [reflexivity|]. cbv zeta.
    destruct (dget [] (dupdate default_table (o_renderers o))) as [[x dflt]|]; [|reflexivity]. split; reflexivity. }
  eapply bind_rel; [exact K|]. intros g g' [-> ->]. rewrite !run_app.
  pose proof (run_opt g h pstate0 pstate0 false true) as R. cbv beta in R. 
  change (plain_cfg (plain_cfg g false) true) with (plain_cfg g true).
  assert (B0 : but_out pstate0 pstate0) by (repeat split). specialize (R B0).
  destruct (run (plain_cfg g false) h pstate0) as [s|e], (run (plain_cfg g true) h pstate0) as [s'|e']; cbn [res_rel] in R; try contradiction; [|exact R].
  cbn [bind run step]. pose proof (close_opt g s s' false true R) as C.
  destruct (close (plain_cfg g false) s) as [t|], (close (plain_cfg g true) s') as [t'|]; cbn [res_rel] in C; try contradiction; [|exact C].
  destruct C as (_ & y & E1 & E2). cbn [bind res_rel]. unfold trimmed. rewrite E1, E2. apply optimise_lines.
Qed.

(** ** Composition *)
Lemma fresh_run : forall g h s, run g h pstate0 = Ok s -> ~ In OClose h -> p_chunks s = [] /\ p_asg s = [].
Proof.
  intros g h. assert (G : forall s0 s, p_chunks s0 = [] /\ p_asg s0 = [] -> ~ In OClose h -> run g h s0 = Ok s -> p_chunks s = [] /\ p_asg s = []).
  { induction h as [|o h IH]; intros s0 s HE NC H; cbn [run] in H; [injection H as <-; exact HE|]. inv_bind H.
    apply (IH x s); auto; [|intros I; apply NC; now right]. destruct o as [t a|t|y| |]; cbn [step] in E.
    - unfold handle_starttag in E. inv_bind E. destruct x0 as [[av cls] nid]. inv_bind E. inv_bind E. destruct x1 as [[d1 ft] nx].
      injection E as <-. exact HE.
    - injection E as <-. unfold handle_endtag. destruct (is_void t); auto. cbv zeta. destruct (get_top s0); auto.
      destruct (node_at (p_dom s0) n); auto. destruct (n_tag n0); auto. destruct (seqb s1 t); auto.
    - injection E as <-. exact HE.
    - elim NC. now left.
    - injection E as <-. unfold reset. auto. }
  intros s H NC. apply (G pstate0 s); auto.
Qed.
Lemma listed_footer : forall g h s, run g h pstate0 = Ok s ->
  listed g (p_dom s) = if seqb (g_link g) (lit "footer") then p_footer s else [].
Proof.
  intros g h s H. unfold listed. destruct (seqb (g_link g) (lit "footer")); auto. rewrite (lo_footer _ _ (reach_links _ _ _ H)).
  apply filter_ext. intros i. unfold placed, tag_at, is_link. destruct (node_at (p_dom s) i) as [n|]; auto.
Qed.
Lemma mapM_Forall2 : forall {A B} (f : A -> res B) l x, mapM f l = Ok x <-> Forall2 (fun a b => f a = Ok b) l x.
Proof.
  induction l as [|a l IH]; intros x; cbn [mapM]; split; intros H.
  - injection H as <-. constructor.
  - inversion H. reflexivity.
  - inv_bind H. inv_bind H. injection H as <-. constructor; auto. now apply IH.
  - inversion H; subst. rewrite H2. cbn [bind]. apply IH in H4. rewrite H4. reflexivity.
Qed.
Lemma close_parts : forall g h s s', run g h pstate0 = Ok s -> close g s = Ok s' ->
  exists sg body, assign_all g (p_dom s) (p_asg s) (seq 0 (length (d_nodes (p_dom s)))) = Ok sg
    /\ page_body g (p_dom s) sg body /\ concat (p_chunks s') = concat (p_chunks s) ++ body
    /\ exists mid, prefixed (spaces (sd_left (b_margin (g_box g)))) (concat (p_chunks s) ++ body) mid
       /\ p_out s' = (if g_optimise g then optimise else fun x => x)
            (newlines (sd_top (b_margin (g_box g))) ++ mid ++ newlines (sd_bottom (b_margin (g_box g)))).
Proof.
  intros g h s s' H C. unfold close in C. cbv zeta in C. inv_bind C. rename x into sg. inv_bind C. rename x into body. inv_bind C. rename x into foot.
  apply (f_equal (fun r => match r with Ok x => x | Err _ => s end)) in C. subst s'.
  cbn [p_chunks p_out]. exists sg, (concat body ++ concat foot). split; auto.
  assert (PB : page_body g (p_dom s) sg (concat body ++ concat foot)).
  { apply mapM_Forall2 in E0. unfold page_body. rewrite (listed_footer g h s H). destruct (seqb (g_link g) (lit "footer")).
    - destruct (p_footer s) as [|k l].
      + injection E1 as <-. exists body, []. repeat split; auto.
      + inv_bind E1. injection E1 as <-. apply mapM_Forall2 in E2. exists body, x. split; auto.
    - injection E1 as <-. exists body, []. repeat split; auto. }
  split; auto. rewrite !concat_app. split; [reflexivity|].
  exists (indent_body (sd_left (b_margin (g_box g))) (concat (p_chunks s) ++ concat body ++ concat foot)). split.
  - apply prefixed_iff. reflexivity.
  - destruct (g_optimise g); reflexivity.
Qed.
End S.

(** ** Links listed after the block *)
Section After.
Context `{U : Uni}.
Lemma grow_parent : forall p b id i n, n_parent (grow p b id i n) = n_parent n.
Proof. intros. unfold grow. destruct p as [| |k]; auto. destruct (Nat.eqb k i); auto. destruct b; auto. Qed.
Lemma some_inj : forall (A : Type) (a b : A), Some a = Some b -> b = a.
Proof. intros A a b H. injection H as ->. reflexivity. Qed.
Lemma after_inside : forall g h s, run g h pstate0 = Ok s -> forall i n t, is_tagged (p_dom s) i n t ->
  placed g "after_block" (Some t) = true -> exists j, n_parent n = PNode j.
Proof.
  intros g h. induction h as [|o h IH] using rev_ind; intros s H i n t [T1 T2] P.
  - injection H as <-. destruct i; discriminate.
  - destruct (run_snoc _ _ _ _ _ H) as (s1 & H1 & H2). specialize (IH _ H1).
    destruct o as [t' a|t'|x| |]; cbn [step] in H2.
    + destruct (start_nodes _ _ _ _ _ H2) as (lk & av & cls & nid & A1 & A2 & A3 & _ & _ & A6).
      assert (LT : i < S (length (d_nodes (p_dom s1)))) by (rewrite <- A1; eapply node_at_lt; eauto).
      destruct (Nat.eq_dec i (length (d_nodes (p_dom s1)))) as [->|NE].
      * rewrite A2 in T1. injection T1 as <-. cbn [n_tag n_parent] in *. injection T2 as ->. apply A6. exact P.
      * destruct (node_at (p_dom s1) i) as [m|] eqn:EM; [|unfold node_at in EM; apply nth_error_None in EM; lia].
        rewrite (A3 i m EM) in T1. apply some_inj in T1. subst n. rewrite grow_parent. rewrite (proj1 (grow_tag _ _ _ _ _)) in T2.
        apply (IH i m t (conj EM T2) P).
    + injection H2 as <-. unfold handle_endtag in T1.
      assert (K : exists m, node_at (p_dom s1) i = Some m /\ n_tag m = n_tag n /\ n_parent m = n_parent n).
      { destruct (is_void t'); [eauto|]. cbv zeta in T1. destruct (get_top s1) as [k|]; [|eauto].
        destruct (node_at (p_dom s1) k) as [m|] eqn:EK; [|eauto]. destruct (n_tag m) as [t1|]; [|eauto]. destruct (seqb t1 t'); [|eauto].
        cbn [p_dom] in T1. unfold node_at in *. cbn [d_nodes] in T1. destruct (Nat.eq_dec k i) as [->|NE].
        - rewrite upd_same, EK in T1. injection T1 as <-. exists m. auto.
        - rewrite upd_other in T1 by exact NE. eauto. }
      destruct K as (m & K1 & K2 & K3). rewrite <- K3. apply (IH i m t); auto. split; congruence.
    + injection H2 as <-. destruct (data_nodes x s1) as (A1 & A2 & A3 & _).
      assert (LT : i < S (length (d_nodes (p_dom s1)))) by (rewrite <- A1; eapply node_at_lt; eauto).
      destruct (Nat.eq_dec i (length (d_nodes (p_dom s1)))) as [->|NE].
      * rewrite A2 in T1. injection T1 as <-. discriminate.
      * destruct (node_at (p_dom s1) i) as [m|] eqn:EM; [|unfold node_at in EM; apply nth_error_None in EM; lia].
        rewrite (A3 i m EM) in T1. apply some_inj in T1. subst n. rewrite grow_parent. rewrite (proj1 (grow_tag _ _ _ _ _)) in T2.
        apply (IH i m t (conj EM T2) P).
    + unfold close in H2. inv_bind H2. inv_bind H2. inv_bind H2. injection H2 as <-. cbn [p_dom] in T1. apply (IH i n t); auto. split; auto.
    + injection H2 as <-. destruct i; discriminate.
Qed.
(** The numbers of the nodes [l]. *)
Lemma numbers_filter : forall g d (keep : node -> bool),
  (forall i n, node_at d i = Some n -> keep n = match reference_of g n with [] => false | _ => true end) ->
  forall l, flat_map (fun i => match node_at d i with Some n => reference_of g n | None => [] end) l
    = flat_map (fun i => match node_at d i with Some n => reference_of g n | None => [] end)
        (filter (fun i => match node_at d i with Some n => keep n | None => false end) l).
Proof.
  intros g d keep K. induction l as [|i l IH]; auto. cbn [flat_map filter]. destruct (node_at d i) as [n|] eqn:E.
  - rewrite (K i n E). destruct (reference_of g n) eqn:R; cbn [app]; auto. cbn [flat_map]. rewrite E, R, IH. reflexivity.
  - exact IH.
Qed.
Lemma references_seq : forall g d, references g d
  = flat_map (fun i => match node_at d i with Some n => reference_of g n | None => [] end) (seq 0 (length (d_nodes d))).
Proof.
  intros g d. unfold references, node_at. generalize (d_nodes d) as l. intros l.
  assert (G : forall (k l : list node), flat_map (fun i => match nth_error (k ++ l) i with Some n => reference_of g n | None => [] end) (seq (length k) (length l)) = flat_map (reference_of g) l).
  { clear. intros k l. revert k. induction l as [|n l IH]; intros k; auto. cbn [length seq flat_map].
    rewrite nth_error_app2 by lia. rewrite Nat.sub_diag. cbn [nth_error]. f_equal.
    specialize (IH (k ++ [n])). rewrite app_length in IH. cbn [length] in IH. rewrite Nat.add_1_r in IH. rewrite <- IH, <- app_assoc. reflexivity. }
  symmetry. apply (G [] l).
Qed.
(** ** Closing again *)
Lemma assign_again : forall g d sg ids sg', NoDup ids -> assign_all g d sg ids = Ok sg' -> assign_all g d sg' ids = Ok sg'.
Proof.
  intros g d sg ids sg' ND H.
  assert (K : forall i, In i ids -> assign_one g d sg' i = Ok (asg_get i sg')).
  { intros i I. destruct (assign_all_get _ _ _ _ _ _ H I) as (a & A & <-). revert A. unfold assign_one.
    destruct (get_renderer g d i) as [r|e]; [|discriminate]. cbn [bind]. destruct (node_at d i) as [n|]; [|discriminate].
    assert (M : forall a, asg_get i sg' = assign_main r a -> assign_main r (asg_get i sg') = asg_get i sg') by (intros a E; rewrite E; destruct r; reflexivity).
    destruct (n_tag n) as [t|].
    - destruct (is_link t).
      + destruct (get_ext_renderer g d i) as [e|e]; [|discriminate]. cbn [bind]. intros E. apply ok_inj in E. rewrite E.
        destruct r, e; reflexivity.
      + intros E. apply ok_inj in E. now rewrite (M _ E).
    - intros E. apply ok_inj in E. now rewrite (M _ E). }
  assert (L : sg' = map (fun i => (i, asg_get i sg')) ids).
  { clear K. revert sg' H. induction ids as [|i ids IH]; intros sg' H; cbn [assign_all] in H; [injection H as <-; reflexivity|].
    inv_bind H. inv_bind H. apply ok_inj in H. subst sg'. cbn [map asg_get]. rewrite Nat.eqb_refl. f_equal.
    inversion ND; subst. rewrite (IH H2 _ E0) at 1. apply map_ext_in. intros j J. destruct (Nat.eqb_spec j i) as [->|_]; [contradiction|reflexivity]. }
  rewrite L at 2. clear L H ND. induction ids as [|i ids IH]; [reflexivity|]. cbn [assign_all map]. rewrite K by now left. cbn [bind].
  rewrite IH by (intros j J; apply K; now right). reflexivity.
Qed.
Lemma close_twice : forall g s s1, close g s = Ok s1 -> exists s2 body, close g s1 = Ok s2
  /\ concat (p_chunks s1) = concat (p_chunks s) ++ body /\ concat (p_chunks s2) = concat (p_chunks s1) ++ body /\ p_dom s2 = p_dom s.
Proof.
  intros g s s1 C. pose proof C as C'. unfold close in C. cbv zeta in C. inv_bind C. rename x into sg. inv_bind C. rename x into body. inv_bind C. rename x into foot.
  apply ok_inj in C. eexists. exists (concat body ++ concat foot). split.
  - unfold close. cbv zeta. subst s1. cbn [p_dom p_asg p_chunks p_footer]. rewrite (assign_again _ _ _ _ _ (seq_NoDup _ _) E). cbn [bind].
    rewrite E0. cbn [bind]. rewrite E1. cbn [bind]. reflexivity.
  - subst s1. cbn [p_chunks p_dom]. rewrite !concat_app. auto.
Qed.
End After.
