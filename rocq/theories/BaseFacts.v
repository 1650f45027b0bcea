(** Elementary facts about the Python-level primitives. *)
From Verif Require Export PyStr Values.
From Coq Require Export Lia.
Global Arguments lit _%string : simpl never.

Lemma seqb_refl : forall a, seqb a a = true.
Proof. induction a; simpl; auto. rewrite N.eqb_refl; auto. Qed.

Lemma seqb_eq : forall a b, seqb a b = true <-> a = b.
Proof.
  split.
  - revert b; induction a as [|x a IH]; destruct b as [|y b]; simpl; try discriminate; auto.
    intros H. apply andb_true_iff in H as [H1 H2].
    apply N.eqb_eq in H1. apply IH in H2. congruence.
  - intros ->. apply seqb_refl.
Qed.

Lemma seqb_neq : forall a b, seqb a b = false <-> a <> b.
Proof.
  intros a b. destruct (seqb a b) eqn:E.
  - apply seqb_eq in E. split; congruence.
  - split; auto. intros _ H. apply seqb_eq in H. congruence.
Qed.

Lemma seqb_sym : forall a b, seqb a b = seqb b a.
Proof.
  intros a b. destruct (seqb b a) eqn:E.
  - apply seqb_eq in E. subst. apply seqb_refl.
  - apply seqb_neq in E. apply seqb_neq. congruence.
Qed.

Lemma seqb_spec : forall a b, reflect (a = b) (seqb a b).
Proof.
  intros. destruct (seqb a b) eqn:E; constructor.
  - now apply seqb_eq.
  - now apply seqb_neq.
Qed.

Lemma smem_In : forall x l, smem x l = true <-> In x l.
Proof.
  unfold smem. intros. rewrite existsb_exists. split.
  - intros [y [H1 H2]]. apply seqb_eq in H2. now subst.
  - intros H. exists x. split; auto. apply seqb_refl.
Qed.

Lemma str_eq_dec : forall a b : str, {a = b} + {a <> b}.
Proof. intros. destruct (seqb_spec a b); auto. Qed.

(** ** dicts *)
Section D.
Context {A : Type}.
Implicit Types d e : dict A.

Lemma dget_dset_same : forall d k v, dget k (dset k v d) = Some v.
Proof.
  induction d as [|[k' v'] d IH]; simpl; intros.
  - now rewrite seqb_refl.
  - destruct (seqb k k') eqn:E; simpl; rewrite ?E, ?seqb_refl; auto.
Qed.

Lemma dget_dset_other : forall d k k' v, k <> k' -> dget k' (dset k v d) = dget k' d.
Proof.
  induction d as [|[j w] d IH]; simpl; intros k k' v H.
  - destruct (seqb_spec k' k); congruence.
  - destruct (seqb_spec k j); simpl.
    + subst. destruct (seqb_spec k' j); congruence.
    + destruct (seqb_spec k' j); auto.
Qed.

Lemma dget_dset : forall d k k' v,
  dget k' (dset k v d) = if seqb k' k then Some v else dget k' d.
Proof.
  intros. destruct (seqb_spec k' k).
  - subst. apply dget_dset_same.
  - apply dget_dset_other. congruence.
Qed.

(** Last occurrence of a key in an association list. *)
Fixpoint dlast (k : str) (e : dict A) : option A :=
  match e with
  | [] => None
  | (k', v) :: r => match dlast k r with
                    | Some w => Some w
                    | None => if seqb k k' then Some v else None
                    end
  end.

Lemma dget_dupdate_last : forall e d k,
  dget k (dupdate d e) = match dlast k e with Some v => Some v | None => dget k d end.
Proof.
  induction e as [|[k' v'] e IH]; simpl; intros; auto.
  rewrite IH. destruct (dlast k e); auto.
  rewrite dget_dset. destruct (seqb k k'); auto.
Qed.

Definition dkeys d : list str := map fst d.

Lemma dget_In_keys : forall d k, dget k d <> None <-> In k (dkeys d).
Proof.
  induction d as [|[k' v'] d IH]; simpl; intros.
  - split; [congruence | tauto].
  - destruct (seqb_spec k k').
    + subst. split; auto. congruence.
    + rewrite IH. intuition congruence.
Qed.

Lemma dlast_None_notin : forall e k, ~ In k (dkeys e) -> dlast k e = None.
Proof.
  induction e as [|[k' v'] e IH]; simpl; intros; auto.
  rewrite IH by tauto. destruct (seqb_spec k k'); subst; tauto.
Qed.

(** Python dicts have distinct keys. *)
Lemma dlast_dget : forall e k, NoDup (dkeys e) -> dlast k e = dget k e.
Proof.
  induction e as [|[k' v'] e IH]; simpl; intros k H; auto.
  inversion H; subst. rewrite IH by auto.
  destruct (seqb_spec k k').
  - subst. destruct (dget k' e) eqn:E; auto.
    exfalso. apply H2. apply dget_In_keys. congruence.
  - destruct (dget k e); auto.
Qed.

Lemma dget_dupdate : forall e d k, NoDup (dkeys e) ->
  dget k (dupdate d e) = match dget k e with Some v => Some v | None => dget k d end.
Proof. intros. rewrite dget_dupdate_last, dlast_dget; auto. Qed.

Lemma dkeys_dset : forall d k v,
  dkeys (dset k v d) = if smem k (dkeys d) then dkeys d else dkeys d ++ [k].
Proof.
  induction d as [|[k' v'] d IH]; intros; auto.
  change (dkeys ((k', v') :: d)) with (k' :: dkeys d).
  change (smem k (k' :: dkeys d)) with (seqb k k' || smem k (dkeys d)).
  simpl dset. destruct (seqb_spec k k').
  - subst. simpl. auto.
  - simpl. fold (dkeys (dset k v d)). rewrite IH. destruct (smem k (dkeys d)); auto.
Qed.

Lemma dset_NoDup : forall d k v, NoDup (dkeys d) -> NoDup (dkeys (dset k v d)).
Proof.
  intros. rewrite dkeys_dset. destruct (smem k (dkeys d)) eqn:E; auto.
  assert (~ In k (dkeys d)). { intro. apply smem_In in H0. congruence. }
  clear E. induction (dkeys d); simpl.
  - repeat constructor; auto.
  - inversion H; subst. constructor.
    + rewrite in_app_iff. simpl in *. intuition.
    + apply IHl; simpl in *; tauto.
Qed.

Lemma dupdate_NoDup : forall e d, NoDup (dkeys d) -> NoDup (dkeys (dupdate d e)).
Proof. induction e as [|[k v] e IH]; simpl; intros; auto. apply IH, dset_NoDup; auto. Qed.

Lemma dget_ddel_same : forall d k, NoDup (dkeys d) -> dget k (ddel k d) = None.
Proof.
  induction d as [|[k' v'] d IH]; simpl; intros k H; auto.
  inversion H; subst. destruct (seqb_spec k k').
  - subst. destruct (dget k' d) eqn:E; auto. exfalso. apply H2, dget_In_keys. congruence.
  - simpl. destruct (seqb_spec k k'); [congruence|]. auto.
Qed.

Lemma dget_ddel_other : forall d k k', k <> k' -> dget k' (ddel k d) = dget k' d.
Proof.
  induction d as [|[j w] d IH]; simpl; intros k k' H; auto.
  destruct (seqb_spec k j).
  - subst. destruct (seqb_spec k' j); congruence.
  - simpl. destruct (seqb_spec k' j); auto.
Qed.
End D.

(** ** res *)
Lemma bind_Ok : forall {A B} (r : res A) (f : A -> res B) b,
  bind r f = Ok b -> exists a, r = Ok a /\ f a = Ok b.
Proof. intros A B [a|e] f b; simpl; intros; eauto; discriminate. Qed.

Ltac inv_bind H :=
  let x := fresh "x" in let E := fresh "E" in
  apply bind_Ok in H; destruct H as [x [E H]].

Lemma mapM_Ok_length : forall {A B} (f : A -> res B) l r, mapM f l = Ok r -> length r = length l.
Proof.
  induction l; simpl; intros r H.
  - inversion H; auto.
  - inv_bind H. inv_bind H. inversion H; subst. simpl. f_equal; eauto.
Qed.

Lemma mapM_Ok_Forall2 : forall {A B} (f : A -> res B) l r,
  mapM f l = Ok r <-> Forall2 (fun a b => f a = Ok b) l r.
Proof.
  induction l; simpl; intros r; split; intros H.
  - inversion H; constructor.
  - inversion H; auto.
  - inv_bind H. inv_bind H. inversion H; subst. constructor; auto. now apply IHl.
  - inversion H; subst. rewrite H2. simpl. apply IHl in H4. rewrite H4. auto.
Qed.

Lemma mapM_pure : forall {A B} (f : A -> res B) (g : A -> B) l,
  (forall a, In a l -> f a = Ok (g a)) -> mapM f l = Ok (map g l).
Proof.
  induction l; simpl; intros; auto. rewrite H; auto. simpl. rewrite IHl; auto.
Qed.

(** ** lengths *)
Lemma len_app : forall a b, len (a ++ b) = (len a + len b)%Z.
Proof. unfold len. intros. rewrite app_length. lia. Qed.
Lemma len_nonneg : forall s, (0 <= len s)%Z.
Proof. unfold len. intros. lia. Qed.
Lemma len_spaces : forall n, len (spaces n) = Z.max 0 n.
Proof. unfold len, spaces. intros. rewrite repeat_length. lia. Qed.
Lemma len_cons : forall c s, len (c :: s) = (1 + len s)%Z.
Proof. unfold len. intros. simpl length. lia. Qed.
Lemma len_nil : len [] = 0%Z.
Proof. reflexivity. Qed.
