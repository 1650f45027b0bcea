(** Which selector raises when a document is closed. *)
From Verif Require Import WrapFacts WrapLoop WrapWidth.
From Verif Require Import BaseFacts StrFacts SelFacts CssFacts TreeFacts HistoryFacts DomFacts DocFacts PageSpec PageRead.
From Verif Require Export StyleMain.

Lemma first_some : forall J l v, first_of J l v -> v = No \/ exists z, In z l /\ J z v.
Proof. intros J l v H. induction H as [|z l v H N|z l v H _ IH]; [now left|right; exists z; cbn; auto|]. destruct IH as [->|(y & Y & K)]; [now left|]. right. exists y. cbn. auto. Qed.
(** The exceptions a selector may raise. *)
Lemma judged_errors : forall s z e, judged s z (Fails e) -> In e [EAttr; EType; EIndex; EValue].
Proof.
  induction s as [nm|s IH cn|s IH x|s1 IH1 s2 IH2|s IH k op v|s IH p|s IH f args|s1 IH1 cb s2 IH2|]; intros z e H;
  (destruct z as [|[b [i tg a kids|i x0] c] up]; cbn [judged] in H; try discriminate).
  - destruct nm; [|discriminate]. destruct H as [[_ H]|[_ H]]; discriminate.
  - destruct H as [[_ H]|[_ H]]; [eauto|discriminate].
  - destruct H as [[_ H]|[_ H]]; [eauto|discriminate].
  - destruct H as [[_ (w & H & E)]|[H _]]; [|eauto]. destruct w; try discriminate. injection E as ->. eauto.
  - destruct H as [[_ H]|[H _]]; [|eauto]. destruct (dlast k a) as [y|]; [|discriminate]. destruct H as [[_ H]|[_ H]]; [discriminate|]. destruct y as [y|].
    + destruct H as (y' & _ & [[_ H]|[_ H]]); discriminate.
    + destruct H as [[_ H]|[[_ H]|[_ H]]]; try discriminate; injection H as ->; cbn; auto.
  - destruct H as [[_ H]|[_ H]]; [eauto|discriminate].
  - destruct H as [[_ H]|[_ H]]; [|discriminate]. destruct args as [|x args]; [injection H as ->; cbn; auto|].
    destruct H as [[_ H]|(k & _ & H)]; [injection H as ->; cbn; auto|]. cbv zeta in H. destruct H as [[_ H]|(_ & p & _ & [[_ H]|[_ H]])]; try discriminate; [|injection H as ->; cbn; auto].
    destruct H as [[_ H]|[_ H]]; [eauto|discriminate].
  - destruct H as [[_ H]|[_ H]]; [|discriminate]. destruct H as [[_ H]|[H _]]; [|eauto].
    destruct H as [[_ H]|[[_ H]|[[_ H]|[_ [[_ H]|(l & j & m & _ & _ & _ & H)]]]]]; try discriminate; eauto;
    apply first_some in H as [H|(y & _ & H)]; try discriminate; eauto.
Qed.

Section M.
Context `{U : Uni}.
Variables (g : cfg) (s : pstate) (F : list tree).
Hypothesis WF : wf_dom (p_dom s).
Local Notation d := (p_dom s).

(** ** One place *)
Lemma err_split : forall z l, at_site d F z -> forall i, place_obj z = ONode i ->
  match first_err s i l with
  | None => forall x e, In x l -> ~ judged (sl_tree x) z (Fails e)
  | Some e => exists l1 x l2, l = l1 ++ x :: l2 /\ judged (sl_tree x) z (Fails e) /\ forall y e', In y l1 -> ~ judged (sl_tree y) z (Fails e')
  end.
Proof.
  intros z l AT i E. induction l as [|x l IH]; cbn [first_err]; [intros x e []|].
  pose proof (judge d F WF (sl_tree x) z AT) as T. rewrite E in T. destruct (selector_matches d (sl_tree x) (ONode i)) as [v|e]; cbn [seen] in T.
  - assert (Q : forall e, ~ judged (sl_tree x) z (Fails e)) by (intros e K; apply T in K; destruct v; discriminate).
    destruct (first_err s i l) as [e|].
    + destruct IH as (l1 & y & l2 & -> & J & K). exists (x :: l1), y, l2. split; [reflexivity|]. split; auto. intros y' e' [<-|I']; auto.
    + intros y e [<-|I']; auto.
  - exists [], x, l. split; [reflexivity|]. split; [now apply T|]. intros y e' [].
Qed.
Definition calm (l : list (sel * site)) : Prop := forall x z e, In (x, z) l -> ~ judged x z (Fails e).
Definition stops (l : list (sel * site)) (e : exn) : Prop := exists l1 x z l2, l = l1 ++ (x, z) :: l2 /\ judged x z (Fails e) /\ calm l1.
Hypothesis HA : g_ext_a g <> None.
Lemma one_place : forall z i n, at_site d F z -> place_obj z = ONode i -> node_at d i = Some n -> forall sg,
  calm (asked_at g z) /\ (exists a, assign_one g d sg i = Ok a)
  \/ exists e, stops (asked_at g z) e /\ assign_one g d sg i = Err e.
Proof.
  intros z i n AT E N sg.
  assert (L : match n_tag n with Some t => is_link t | None => false end = at_link z).
  { destruct z as [|[b x c] up]; [discriminate|]. injection E as E. pose proof (site_stores _ _ _ _ AT) as S. cbn [sp_here] in *. destruct x as [j tg a kids|j y]; cbn [tid] in E; subst j.
    - apply stores_Tag in S as [(n' & N1 & N2 & _) _]. rewrite N in N1. injection N1 as <-. rewrite N2. reflexivity.
    - destruct S as (n' & N1 & N2 & _). rewrite N in N1. injection N1 as <-. now rewrite N2. }
  pose proof (got_fails s i (g_rules g)) as G1. pose proof (err_split z (flat_map ru_sel (g_rules g)) AT i E) as S1.
  pose proof (got_fails s i (g_ext_rules g)) as G2. pose proof (err_split z (flat_map ru_sel (g_ext_rules g)) AT i E) as S2.
  assert (C : forall l, (forall x e, In x l -> ~ judged (sl_tree x) z (Fails e)) -> calm (map (fun x => (sl_tree x, z)) l)).
  { intros l H x z' e J. apply in_map_iff in J as (y & Y & J). injection Y as <- <-. auto. }
  assert (P : forall l r e, (forall x e, In x l -> ~ judged (sl_tree x) z (Fails e)) -> (exists l1 x l2, r = l1 ++ x :: l2 /\ judged (sl_tree x) z (Fails e) /\ forall y e', In y l1 -> ~ judged (sl_tree y) z (Fails e')) ->
            forall r2, stops (map (fun x => (sl_tree x, z)) (l ++ r ++ r2)) e).
  { intros l r e H (l1 & x & l2 & -> & J & K) r2. exists (map (fun x => (sl_tree x, z)) (l ++ l1)), (sl_tree x), z, (map (fun x => (sl_tree x, z)) (l2 ++ r2)).
    split; [rewrite <- !app_assoc; cbn [app]; rewrite !map_app; cbn [map]; rewrite !map_app, <- !app_assoc; reflexivity|]. split; auto. apply C. intros y e' I'. apply in_app_or in I' as [I'|I']; auto. }
  unfold assign_one, get_renderer. rewrite N. unfold asked_at. destruct (first_err s i (flat_map ru_sel (g_rules g))) as [e|]; cbn [fails_as] in G1.
  { right. exists e. rewrite G1. split; [|reflexivity]. apply (P [] _ e ltac:(intros ? ? []) S1). }
  destruct G1 as (r1 & ->). cbn [bind]. rewrite <- L. destruct (n_tag n) as [t|]; [|left; split; [rewrite app_nil_r; now apply C|eauto]].
  destruct (is_link t); [|left; split; [rewrite app_nil_r; now apply C|eauto]]. unfold get_ext_renderer.
  destruct (first_err s i (flat_map ru_sel (g_ext_rules g))) as [e|]; cbn [fails_as] in G2.
  - right. exists e. rewrite G2. split; [rewrite <- (app_nil_r (flat_map ru_sel (g_ext_rules g))); apply P; auto|].
    destruct S2 as (_ & x & _ & _ & J & _). apply judged_errors in J. cbn [In] in J. destruct e; try reflexivity. exfalso. intuition discriminate.
  - left. destruct G2 as (r2 & ->). cbn [bind]. split; [apply C; intros x e J; apply in_app_or in J as [J|J]; auto|].
    destruct r2 as [[? ?]|]; [cbn [bind]; eauto|]. destruct (g_ext_a g); [cbn [bind]; eauto|congruence].
Qed.
Lemma all_assigned : forall L sg, Forall (fun z => at_site d F z /\ place_obj z = ONode (here_id z) /\ node_at d (here_id z) <> None) L ->
  calm (flat_map (asked_at g) L) /\ (exists a, assign_all g d sg (map here_id L) = Ok a)
  \/ exists e, stops (flat_map (asked_at g) L) e /\ assign_all g d sg (map here_id L) = Err e.
Proof.
  intros L sg H. induction H as [|z L (AT & E & N) _ IH]; [left; split; [intros x z e []|cbn; eauto]|].
  cbn [flat_map map assign_all]. destruct (node_at d (here_id z)) as [n|] eqn:HN; [|congruence].
  destruct (one_place z (here_id z) n AT E HN sg) as [(C & a & ->)|(e & (l1 & x & z' & l2 & S1 & S2 & S3) & ->)].
  - cbn [bind]. destruct IH as [(C' & a' & ->)|(e & (l1 & x & z' & l2 & S1 & S2 & S3) & ->)]; cbn [bind].
    + left. split; eauto. intros x z' e J. apply in_app_or in J as [J|J]; [eapply C; eauto|eapply C'; eauto].
    + right. exists e. split; [|reflexivity]. exists (asked_at g z ++ l1), x, z', l2. rewrite S1, <- app_assoc. split; [reflexivity|]. split; auto.
      intros y z2 e2 J. apply in_app_or in J as [J|J]; [eapply C; eauto|eapply S3; eauto].
  - right. exists e. split; [|reflexivity]. exists l1, x, z', (l2 ++ flat_map (asked_at g) L). rewrite S1, <- app_assoc. cbn [app]. auto.
Qed.
Hypothesis DOC : document d F.
Hypothesis PRE : flat_map preorder F = seq 0 (length (d_nodes d)).
Lemma assign_trouble : forall sg,
  untroubled g F /\ (exists a, assign_all g d sg (seq 0 (length (d_nodes d))) = Ok a)
  \/ exists e, trouble g F e /\ assign_all g d sg (seq 0 (length (d_nodes d))) = Err e.
Proof.
  intros sg. rewrite <- PRE, <- (all_places_ids F [] []). apply all_assigned. apply Forall_forall. intros z Z.
  pose proof (proj1 (Forall_forall _ _) (forest_at d F DOC) z Z) as AT. split; auto.
  assert (J : In (here_id z) (seq 0 (length (d_nodes d)))) by (rewrite <- PRE, <- (all_places_ids F [] []); now apply in_map).
  apply in_seq in J. destruct (node_at d (here_id z)) as [n|] eqn:N; [|unfold node_at in N; apply nth_error_None in N; lia].
  split; [|discriminate]. destruct z as [|x z]; [|reflexivity]. exfalso.
  exact (no_empty_place F [] [] Z).
Qed.
End M.
