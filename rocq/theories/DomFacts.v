(** Well-formedness of every reachable document tree. *)
From Verif Require Export HistoryFacts.
From Coq Require Import Sorting.Sorted.

Definition elementb (d : dom) (i : nat) : bool :=
  match node_at d i with Some n => match n_tag n with Some _ => true | None => false end | None => false end.

Record wf_dom (d : dom) : Prop := {
  wf_kind : forall i n, node_at d i = Some n ->
    match n_tag n, n_data n with Some _, None => True | None, Some _ => n_children n = [] | _, _ => False end;
  wf_parent : forall i n, node_at d i = Some n ->
    match n_parent n with
    | PNone => n_tag n = None /\ In i (d_root d)
    | PRoot => n_tag n <> None /\ In i (d_root d)
    | PNode j => j < i /\ exists m t, node_at d j = Some m /\ n_tag m = Some t /\ In i (n_children m)
    end;
  wf_root : forall i, In i (d_root d) -> exists n, node_at d i = Some n
     /\ n_parent n = (if elementb d i then PRoot else PNone);
  wf_children : forall j m i, node_at d j = Some m -> In i (n_children m) ->
     exists n, node_at d i = Some n /\ n_parent n = PNode j;
  wf_nodup : forall p, NoDup (children_of d p) }.

Section DF.
Context `{U : Uni}.

Fixpoint subtrees (t : tree) : list tree :=
  match t with Tag _ _ _ kids => t :: flat_map subtrees kids | Text _ _ => [t] end.

Lemma subtrees_ids : forall t, map tid (subtrees t) = preorder t.
Proof.
  induction t as [i t a kids IH | i s] using tree_ind2; auto.
  simpl. f_equal. induction IH; simpl; auto. rewrite map_app. congruence.
Qed.

(** Each subtree is stored below its parent. *)
Lemma stores_sub : forall d t p, stores d p t -> forall u, In u (subtrees t) ->
  (u = t) \/ exists i tg a kids, In (Tag i tg a kids) (subtrees t) /\ In u kids /\ stores d (PNode i) u.
Proof.
  intros d. induction t as [i t a kids IH | i s] using tree_ind2; intros p H u Hu.
  - apply stores_Tag in H as [_ Hk]. simpl in Hu. destruct Hu as [<- |Hu]; auto.
    right. apply in_flat_map in Hu as (k & Hk1 & Hk2).
    rewrite Forall_forall in *. specialize (IH k Hk1 (PNode i) (Hk k Hk1) u Hk2).
    destruct IH as [-> | (i' & tg & a' & kids' & H1 & H2 & H3)].
    + exists i, t, a, kids. simpl. auto.
    + exists i', tg, a', kids'. repeat split; auto. simpl. right. apply in_flat_map. eauto.
  - simpl in Hu. destruct Hu as [<- | []]. auto.
Qed.
Lemma stores_sub_any : forall d t p u, stores d p t -> In u (subtrees t) -> exists q, stores d q u.
Proof.
  intros. destruct (stores_sub _ _ _ H _ H0) as [-> | (i & tg & a & k & _ & _ & H3)]; eauto.
Qed.

Lemma Sorted_app : forall l1 l2, StronglySorted lt (l1 ++ l2) ->
  StronglySorted lt l1 /\ StronglySorted lt l2.
Proof.
  induction l1; simpl; intros l2 H.
  - split; auto. constructor.
  - inversion H; subst. destruct (IHl1 _ H2). split; auto. constructor; auto.
    now apply Forall_app in H3.
Qed.
Lemma Sorted_seq : forall n s, StronglySorted lt (seq s n).
Proof.
  induction n; simpl; intros; constructor; auto. apply Forall_forall. intros x Hx.
  apply in_seq in Hx. lia.
Qed.
Lemma Sorted_sub : forall l (F : list tree) t, In t F ->
  flat_map preorder F = l -> StronglySorted lt l -> StronglySorted lt (preorder t).
Proof.
  induction F as [|u F IH]; intros t Ht; [destruct Ht|]. intros <- HS. simpl in HS.
  apply Sorted_app in HS as [H1 H2]. destruct Ht as [-> |Ht]; auto.
  revert H2. clear - Ht. intros H2. induction F as [|v F IH]; [destruct Ht|].
  simpl in H2. apply Sorted_app in H2 as [H3 H4]. destruct Ht as [-> |Ht]; auto.
Qed.
Lemma Sorted_subtree : forall t, StronglySorted lt (preorder t) ->
  forall u, In u (subtrees t) -> StronglySorted lt (preorder u).
Proof.
  induction t as [i t a kids IH | i s] using tree_ind2; intros H u Hu.
  - simpl in Hu. destruct Hu as [<- |Hu]; auto. apply in_flat_map in Hu as (k & H1 & H2).
    rewrite Forall_forall in IH. apply (IH k H1); auto.
    simpl in H. inversion H; subst. eapply Sorted_sub; eauto.
  - simpl in Hu. destruct Hu as [<- | []]; auto.
Qed.

Lemma Sorted_NoDup : forall l, StronglySorted lt l -> NoDup l.
Proof.
  induction 1; constructor; auto. intros HI. rewrite Forall_forall in H0. apply H0 in HI. lia.
Qed.
Lemma tids_sub : forall F x, In x (map tid F) -> In x (flat_map preorder F).
Proof.
  intros F x H. apply in_map_iff in H as (t & <- & Ht). apply in_flat_map. exists t. split; auto.
  destruct t; simpl; auto.
Qed.
Lemma NoDup_tids : forall F, NoDup (flat_map preorder F) -> NoDup (map tid F).
Proof.
  induction F as [|t F IH]; simpl; intros H; constructor.
  - intros HI. apply tids_sub in HI. eapply NoDup_app_disj; eauto. destruct t; simpl; auto.
  - apply IH. induction (preorder t); auto. inversion H; auto.
Qed.

Lemma stores_tid : forall d p t, stores d p t -> exists n, node_at d (tid t) = Some n.
Proof.
  intros d p [i tg a kids | i s] H.
  - apply stores_Tag in H as [(n & Hn & _) _]. eauto.
  - simpl in H. destruct H as (n & Hn & _). eauto.
Qed.

Lemma document_wf : forall d F, document d F ->
  flat_map preorder F = seq 0 (length (d_nodes d)) -> wf_dom d.
Proof.
  intros d F [D1 D2] HP.
  assert (ALL : forall i n, node_at d i = Some n -> exists t u, In t F /\ In u (subtrees t) /\ tid u = i).
  { intros i n Hi. apply node_at_lt in Hi.
    assert (HI : In i (flat_map preorder F)) by (rewrite HP; apply in_seq; lia).
    apply in_flat_map in HI as (t & Ht & HI). rewrite <- subtrees_ids in HI.
    apply in_map_iff in HI as (u & Hu & HI). eauto. }
  assert (SS : StronglySorted lt (flat_map preorder F)) by (rewrite HP; apply Sorted_seq).
  rewrite Forall_forall in D2.
  (* every node is the root of a stored subtree *)
  assert (ST : forall i n, node_at d i = Some n -> exists u, tid u = i /\
     ((In u F /\ stores d PRoot u) \/
      (exists t j tg a kids, In t F /\ In (Tag j tg a kids) (subtrees t) /\ In u kids
          /\ stores d (PNode j) u /\ exists q, stores d q (Tag j tg a kids)))).
  { intros i n Hi. destruct (ALL i n Hi) as (t & u & Ht & Hu & <-).
    destruct (stores_sub d t PRoot (D2 t Ht) u Hu) as [-> | (j & tg & a & kids & H1 & H2 & H3)].
    - exists t. split; auto.
    - exists u. split; auto. right. exists t, j, tg, a, kids. do 4 (split; [assumption|]).
      exact (stores_sub_any _ _ _ _ (D2 t Ht) H1). }
  constructor.
  - (* kind *)
    intros i n Hi. destruct (ST i n Hi) as (u & Eu & Hu).
    assert (exists q, stores d q u) as (q & Hq).
    { destruct Hu as [[_ H]|(t & j & tg & a & kids & _ & _ & _ & H & _)]; eauto. }
    destruct u as [i' tg a kids | i' s]; simpl in Eu; subst i'.
    + apply stores_Tag in Hq as [(n' & Hn & H1 & H2 & _) _].
      replace n with n' by congruence. now rewrite H1, H2.
    + simpl in Hq. destruct Hq as (n' & Hn & H1 & H2 & H3 & H4). replace n with n' by congruence.
      rewrite H1, H2. auto.
  - (* parent *)
    intros i n Hi. destruct (ST i n Hi) as (u & Eu & Hu).
    destruct Hu as [[HF H]|(t & j & tg & a & kids & HtF & Hsub & Hin & H & (q & Hq))].
    + destruct u as [i' tg a kids | i' s]; simpl in Eu; subst i'.
      * apply stores_Tag in H as [(n' & Hn & H1 & H2 & H3 & _) _]. replace n with n' by congruence.
        rewrite H3. split; [congruence|]. rewrite D1. apply in_map_iff. exists (Tag i tg a kids). auto.
      * simpl in H. destruct H as (n' & Hn & H1 & H2 & H3 & H4). replace n with n' by congruence.
        rewrite H3. split; auto. rewrite D1. apply in_map_iff. exists (Text i s). auto.
    + assert (EP : n_parent n = PNode j).
      { destruct u as [i' tg' a' kids' | i' s]; simpl in Eu; subst i'.
        - apply stores_Tag in H as [(n' & Hn & H1 & H2 & H3 & _) _]. congruence.
        - simpl in H. destruct H as (n' & Hn & H1 & H2 & H3 & H4). congruence. }
      rewrite EP. split.
      * pose proof (Sorted_sub _ _ _ HtF eq_refl SS) as S1.
        pose proof (Sorted_subtree _ S1 _ Hsub) as S2. simpl in S2. inversion S2; subst.
        rewrite Forall_forall in H3. apply H3. apply in_flat_map. exists u. split; auto.
        destruct u; simpl; auto.
      * apply stores_Tag in Hq as [(m & Hm & H1 & H2 & H3 & H4 & _) _].
        exists m, tg. repeat split; auto. rewrite H4. apply in_map_iff. eauto.
  - (* root *)
    intros i Hi. rewrite D1 in Hi. apply in_map_iff in Hi as (t & <- & Ht).
    pose proof (D2 t Ht) as H. unfold elementb. destruct t as [i tg a kids | i s].
    + apply stores_Tag in H as [(n' & Hn & H1 & H2 & H3 & _) _]. exists n'. simpl. rewrite Hn, H1. auto.
    + simpl in *. destruct H as (n' & Hn & H1 & H2 & H3 & _). exists n'. rewrite Hn, H1. auto.
  - (* children *)
    intros j m i Hj Hi. destruct (ST j m Hj) as (u & Eu & Hu).
    assert (exists q, stores d q u) as (q & Hq).
    { destruct Hu as [[_ H]|(t & j' & tg & a & kids & _ & _ & _ & H & _)]; eauto. }
    destruct u as [j' tg a kids | j' s]; simpl in Eu; subst j'.
    + apply stores_Tag in Hq as [(n' & Hn & H1 & H2 & H3 & H4 & _) Hk]. replace n' with m in * by congruence.
      rewrite H4 in Hi. apply in_map_iff in Hi as (k & <- & Hk1).
      rewrite Forall_forall in Hk. specialize (Hk k Hk1). destruct k as [i tg' a' kids' | i s].
      * apply stores_Tag in Hk as [(n & Hn' & _ & _ & H5 & _) _]. eauto.
      * simpl in *. destruct Hk as (n & Hn' & _ & _ & H5 & _). eauto.
    + simpl in Hq. destruct Hq as (n' & Hn & H1 & H2 & H3 & H4). replace n' with m in * by congruence.
      rewrite H4 in Hi. destruct Hi.
  - (* nodup *)
    intros [| |j]; simpl.
    + constructor.
    + rewrite D1. apply NoDup_tids. rewrite HP. apply seq_NoDup.
    + destruct (node_at d j) as [m|] eqn:Hj; [|constructor].
      destruct (ST j m Hj) as (u & Eu & Hu).
      assert (exists q, stores d q u) as (q & Hq).
      { destruct Hu as [[_ H]|(t & j' & tg & a & kids & _ & _ & _ & H & _)]; eauto. }
      destruct u as [j' tg a kids | j' s]; simpl in Eu; subst j'.
      * apply stores_Tag in Hq as [(n' & Hn & H1 & H2 & H3 & H4 & _) Hk]. replace n' with m in * by congruence.
        rewrite H4. apply NoDup_tids.
        assert (HS : StronglySorted lt (preorder (Tag j tg a kids))).
        { destruct Hu as [[HF H]|(t & j' & tg' & a' & kids' & HtF & Hsub & Hin & H & _)].
          - exact (Sorted_sub _ _ _ HF eq_refl SS).
          - pose proof (Sorted_sub _ _ _ HtF eq_refl SS) as S1.
            pose proof (Sorted_subtree _ S1 _ Hsub) as S2. simpl in S2. inversion S2; subst.
            match goal with HH : StronglySorted lt (flat_map preorder kids') |- _ => exact (Sorted_sub _ _ _ Hin eq_refl HH) end. }
        simpl in HS. inversion HS; subst. now apply Sorted_NoDup.
      * simpl in Hq. destruct Hq as (n' & Hn & H1 & H2 & H3 & H4). replace n' with m in * by congruence.
        rewrite H4. constructor.
Qed.

Lemma reach_wf : forall g h s, run g h pstate0 = Ok s -> wf_dom (p_dom s).
Proof.
  intros. destruct (reach_document _ _ _ H) as (F & D & P & _). eapply document_wf; eauto.
Qed.
End DF.
