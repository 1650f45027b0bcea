(** Facts about wrapping. *)
From Verif Require Export WrapSpec StrFacts BaseFacts.
Open Scope Z_scope.

(** ** Visible length *)
Section V.
Context `{U : Uni}.

Lemma esc_tail_app : forall a b k, esc_tail a = Some k -> esc_tail (a ++ b) = Some k.
Proof.
  induction a as [|c a IH]; simpl; intros b k H; [discriminate|].
  destruct (c =? 109)%N; auto. destruct (esc_param c); [|discriminate].
  destruct (esc_tail a) eqn:E; [|discriminate]. now rewrite (IH b n eq_refl).
Qed.
Lemma esc_tail_le : forall a k, esc_tail a = Some k -> (k <= length a)%nat.
Proof.
  induction a as [|c a IH]; simpl; intros k H; [discriminate|].
  destruct (c =? 109)%N; [inversion H; lia|]. destruct (esc_param c); [|discriminate].
  destruct (esc_tail a) eqn:E; [|discriminate]. inversion H. specialize (IH n eq_refl). lia.
Qed.
Lemma esc_len_le : forall s, (esc_len s <= length s)%nat.
Proof.
  intros [|a [|b r]]; simpl; try lia. destruct ((a =? 27)%N && (b =? 91)%N); try lia.
  destruct (esc_tail r) eqn:E; try lia. apply esc_tail_le in E. lia.
Qed.
Lemma esc_len_app : forall a b, esc_len a <> 0%nat -> esc_len (a ++ b) = esc_len a.
Proof.
  intros [|x [|y r]] b H; simpl in *; try congruence.
  destruct ((x =? 27)%N && (y =? 91)%N); auto. destruct (esc_tail r) eqn:E; [|congruence].
  now rewrite (esc_tail_app _ b _ E).
Qed.
Lemma strip_go_len : forall s k, (length (strip_go k s) <= length s)%nat.
Proof.
  induction s as [|c s IH]; intros k; [simpl; lia|]. cbn [strip_go].
  destruct k; [|specialize (IH k); simpl; lia].
  destruct (esc_len (c :: s)); [specialize (IH 0%nat) | specialize (IH n)]; simpl; lia.
Qed.
Lemma vlen_le_len : forall s, vlen s <= len s.
Proof. intros. unfold vlen, len, strip_esc. pose proof (strip_go_len s 0). lia. Qed.
Lemma vlen_nonneg : forall s, 0 <= vlen s.
Proof. intros. unfold vlen, len. lia. Qed.
Lemma vlen_nil : vlen [] = 0.
Proof. reflexivity. Qed.

(** A prefix whose escapes may run on into the rest hides at least as much. *)
Lemma strip_go_skip : forall k s, (k <= length s)%nat -> strip_go k s = strip_go 0 (skipn k s).
Proof.
  induction k as [|k IH]; intros s H; auto. destruct s as [|c s]; [simpl in H; lia|]. simpl.
  apply IH. simpl in H. lia.
Qed.
Lemma strip_cons : forall c s, esc_len (c :: s) = 0%nat -> strip_esc (c :: s) = c :: strip_esc s.
Proof. intros. unfold strip_esc. cbn [strip_go]. now rewrite H. Qed.
Lemma strip_esc_at : forall s, esc_len s <> 0%nat -> strip_esc s = strip_esc (skipn (esc_len s) s).
Proof.
  intros [|c s] H; [simpl in H; congruence|]. unfold strip_esc at 1. cbn [strip_go].
  pose proof (esc_len_le (c :: s)) as L. destruct (esc_len (c :: s)) as [|k]; [congruence|].
  rewrite strip_go_skip by (simpl in L; lia). reflexivity.
Qed.
(** Where an escape crosses from [a] into [b], the part in [b] has no ESC. *)
Lemma esc_tail_cross : forall a b k, esc_tail a = None -> esc_tail (a ++ b) = Some k ->
  (length a < k)%nat /\ exists j, k = (length a + j)%nat /\ (1 <= j <= length b)%nat
    /\ forall i c, (i < j)%nat -> nth_error b i = Some c -> c <> 27%N.
Proof.
  assert (P : forall b k, esc_tail b = Some k -> forall i c, (i < k)%nat -> nth_error b i = Some c -> c <> 27%N).
  { induction b as [|x b IH]; simpl; intros k H i c Hi Hc; [discriminate|].
    destruct (x =? 109)%N eqn:E.
    - inversion H; subst. destruct i; [|lia]. inversion Hc; subst. apply N.eqb_eq in E. lia.
    - destruct (esc_param x) eqn:Ep; [|discriminate]. destruct (esc_tail b) eqn:Et; [|discriminate].
      inversion H; subst. destruct i as [|i].
      + inversion Hc; subst. intros ->. discriminate Ep.
      + eapply IH; eauto. lia. }
  induction a as [|x a IH]; simpl; intros b k Ha Hk.
  - split; [destruct b; simpl in Hk; [discriminate|]; destruct (n =? 109)%N; [inversion Hk; lia|];
      destruct (esc_param n); [|discriminate]; destruct (esc_tail b); inversion Hk; lia|].
    exists k. split; auto. pose proof (esc_tail_le _ _ Hk). split.
    + split; auto. destruct b; simpl in Hk; [discriminate|]; destruct (n =? 109)%N; [inversion Hk; lia|];
      destruct (esc_param n); [|discriminate]; destruct (esc_tail b); inversion Hk; lia.
    + eapply P; eauto.
  - destruct (x =? 109)%N; [discriminate|]. destruct (esc_param x); [|discriminate].
    destruct (esc_tail a) eqn:E; [discriminate|]. destruct (esc_tail (a ++ b)) eqn:E2; [|discriminate].
    inversion Hk; subst. destruct (IH b n eq_refl E2) as (H1 & j & H2 & H3 & H4).
    split; [lia|]. exists j. split; [lia|]. auto.
Qed.

Lemma strip_skip_noesc : forall j b, (forall i c, (i < j)%nat -> nth_error b i = Some c -> c <> 27%N) ->
  (length (strip_esc (skipn j b)) <= length (strip_esc b))%nat.
Proof.
  induction j as [|j IH]; intros b H; simpl; auto. destruct b as [|x b]; auto.
  rewrite strip_cons.
  - simpl. specialize (IH b). assert (length (strip_esc (skipn j b)) <= length (strip_esc b))%nat; [|lia].
    apply IH. intros i c Hi Hc. apply (H (S i) c); auto. lia.
  - assert (x <> 27%N) by (apply (H 0%nat); auto; lia). simpl. destruct b; auto.
    destruct (N.eqb_spec x 27); [contradiction|]. reflexivity.
Qed.

Lemma esc_len_cross : forall a b, a <> [] -> esc_len a = 0%nat -> esc_len (a ++ b) <> 0%nat ->
  (length a < esc_len (a ++ b))%nat /\
  exists j, esc_len (a ++ b) = (length a + j)%nat /\ forall i c, (i < j)%nat -> nth_error b i = Some c -> c <> 27%N.
Proof.
  intros [|x [|y r]] b NE H0 H; [congruence| |].
  - simpl app in *. destruct b as [|y b]; [simpl in H; congruence|].
    cbn [esc_len] in *. destruct ((x =? 27)%N && (y =? 91)%N) eqn:E; [|congruence].
    destruct (esc_tail b) as [k|] eqn:Et; [|congruence]. split; [simpl; lia|].
    exists (S k). split; [simpl; lia|].
    apply andb_true_iff in E as [_ E]. apply N.eqb_eq in E. subst y.
    intros i c Hi Hc. destruct i as [|i]; [inversion Hc; subst; discriminate|]. simpl in Hc.
    destruct (esc_tail_cross [] b k eq_refl Et) as (_ & j & Hj & _ & HH). simpl in Hj. subst j.
    apply (HH i c); auto. lia.
  - simpl app in *. cbn [esc_len] in *. destruct ((x =? 27)%N && (y =? 91)%N) eqn:E; [|congruence].
    destruct (esc_tail r) as [k0|] eqn:Er; [congruence|].
    destruct (esc_tail (r ++ b)) as [k|] eqn:Et; [|congruence].
    destruct (esc_tail_cross r b k Er Et) as (H1 & j & H2 & _ & H4).
    split; [simpl; lia|]. exists j. split; [simpl; lia|]. auto.
Qed.

Lemma strip_app_len : forall a b,
  (length (strip_esc (a ++ b)) <= length (strip_esc a) + length (strip_esc b))%nat.
Proof.
  intros a. remember (length a) as n eqn:E. revert a E.
  induction n as [n IH] using lt_wf_ind. intros a E b.
  destruct a as [|c a]; [simpl; lia|].
  destruct (Nat.eq_dec (esc_len (c :: a)) 0) as [Z|NZ].
  - rewrite (strip_cons c a Z).
    destruct (Nat.eq_dec (esc_len ((c :: a) ++ b)) 0) as [Z2|NZ2].
    + simpl app in *. rewrite (strip_cons _ _ Z2). simpl in E.
      specialize (IH (length a) ltac:(lia) a eq_refl b). simpl. lia.
    + destruct (esc_len_cross (c :: a) b ltac:(discriminate) Z NZ2) as (_ & j & Hj & HH).
      rewrite (strip_esc_at _ NZ2), Hj.
      rewrite skipn_app. replace (skipn (length (c :: a) + j) (c :: a)) with (@nil N) by (symmetry; apply skipn_all2; lia).
      replace (length (c :: a) + j - length (c :: a))%nat with j by lia. rewrite app_nil_l.
      pose proof (strip_skip_noesc j b HH). lia.
  - rewrite (strip_esc_at _ NZ). pose proof (esc_len_app (c :: a) b NZ) as EA.
    rewrite (strip_esc_at ((c :: a) ++ b)) by congruence. rewrite EA.
    pose proof (esc_len_le (c :: a)) as L.
    rewrite skipn_app. replace (esc_len (c :: a) - length (c :: a))%nat with 0%nat by lia. cbn [skipn].
    eapply IH; [|reflexivity]. rewrite skipn_length. subst n. destruct (esc_len (c :: a)); [congruence|]. simpl in *. lia.
Qed.
Lemma vlen_app_le : forall a b, vlen (a ++ b) <= vlen a + vlen b.
Proof. intros. unfold vlen, len. pose proof (strip_app_len a b). lia. Qed.
Definition vsum (l : list str) : Z := fold_right Z.add 0 (map vlen l).
Lemma vlen_concat_le : forall l, vlen (concat l) <= vsum l.
Proof.
  induction l as [|x l IH]; simpl; [reflexivity|]. pose proof (vlen_app_le x (concat l)). unfold vsum in *. simpl. lia.
Qed.
Lemma vsum_app : forall a b, vsum (a ++ b) = vsum a + vsum b.
Proof. unfold vsum. induction a; simpl; intros; auto. rewrite IHa. lia. Qed.
Lemma vsum_rev : forall a, vsum (rev a) = vsum a.
Proof. induction a; simpl; auto. rewrite vsum_app, IHa. unfold vsum. simpl. lia. Qed.
Lemma vsum_cons : forall c l, vsum (c :: l) = vlen c + vsum l.
Proof. reflexivity. Qed.
Lemma vsum_nonneg : forall l, 0 <= vsum l.
Proof. induction l; [reflexivity|]. rewrite vsum_cons. pose proof (vlen_nonneg a). lia. Qed.

Definition no_esc (s : str) : Prop := ~ In 27%N s.
Lemma strip_no_esc : forall s, no_esc s -> strip_esc s = s.
Proof.
  unfold no_esc. induction s as [|c s IH]; intros H; auto. rewrite strip_cons.
  - rewrite IH; auto. intros HI. apply H. simpl. auto.
  - simpl. destruct s; auto. destruct (N.eqb_spec c 27); [subst; exfalso; apply H; simpl; auto|]. reflexivity.
Qed.
Lemma vlen_no_esc : forall s, no_esc s -> vlen s = len s.
Proof. intros. unfold vlen. now rewrite strip_no_esc. Qed.

(** ** Styled text *)
Lemma esc_tail_params : forall ps s, forallb esc_param ps = true -> esc_tail (ps ++ 109%N :: s) = Some (S (length ps)).
Proof.
  induction ps as [|c ps IH]; simpl; intros s H; auto. apply andb_true_iff in H as [H1 H2].
  destruct (N.eqb_spec c 109).
  - exfalso. subst. unfold esc_param in H1. vm_compute in H1. discriminate.
  - rewrite H1, IH; auto.
Qed.
Lemma styled_strip_app : forall s p, styled s p -> forall r, strip_esc (s ++ r) = p ++ strip_esc r.
Proof.
  induction 1 as [|c s p Hc Hs IH|ps s p Hp Hs IH]; intros r; auto.
  - simpl app. rewrite strip_cons; [now rewrite IH|]. simpl. destruct (s ++ r); auto.
    destruct (N.eqb_spec c 27); [contradiction|]. reflexivity.
  - replace ((27%N :: 91%N :: ps ++ 109%N :: s) ++ r) with (27%N :: 91%N :: ps ++ 109%N :: s ++ r)
      by (simpl; now rewrite <- app_assoc).
    assert (E : esc_len (27%N :: 91%N :: ps ++ 109%N :: s ++ r) = S (S (S (length ps)))).
    { cbn [esc_len]. rewrite esc_tail_params by auto. reflexivity. }
    rewrite strip_esc_at by congruence. rewrite E.
    change (skipn (S (S (S (length ps)))) (27%N :: 91%N :: ps ++ 109%N :: s ++ r))
      with (skipn (S (length ps)) (ps ++ 109%N :: s ++ r)).
    replace (skipn (S (length ps)) (ps ++ 109%N :: s ++ r)) with (s ++ r).
    + apply IH.
    + clear. induction ps as [|c ps IH]; auto.
Qed.
Lemma styled_strip : forall s p, styled s p -> strip_esc s = p.
Proof. intros. rewrite <- (app_nil_r s). rewrite (styled_strip_app _ _ H []). apply app_nil_r. Qed.
Lemma styled_app : forall s p s' p', styled s p -> styled s' p' -> styled (s ++ s') (p ++ p').
Proof.
  induction 1; intros H'; auto.
  - simpl. constructor; auto.
  - replace ((27%N :: 91%N :: ps ++ 109%N :: s) ++ s') with (27%N :: 91%N :: ps ++ 109%N :: s ++ s')
      by (simpl; now rewrite <- app_assoc). constructor; auto.
Qed.
Lemma styled_plain : forall s, no_esc s -> styled s s.
Proof.
  unfold no_esc. induction s; intros H; constructor.
  - intros ->. apply H. simpl. auto. - apply IHs. intros HI. apply H. simpl. auto.
Qed.
Lemma styled_concat : forall l m, Forall2 styled l m -> styled (concat l) (concat m).
Proof. induction 1; simpl; [constructor|]. now apply styled_app. Qed.

(** ** Chunking *)
Lemma split_go_concat : forall cl s k pre, concat (split_go cl k pre s) = s.
Proof.
  intros cl. induction s as [|c s IH]; intros k pre; auto. cbn [split_go].
  destruct (match k with O => cl pre (c :: s) | _ => k end) as [|[|k']].
  - simpl. now rewrite IH.
  - simpl. now rewrite IH.
  - specialize (IH (S k') (c :: pre)). destruct (split_go cl (S k') (c :: pre) s) as [|l ls].
    + simpl in IH. subst. reflexivity.
    + simpl in *. now rewrite IH.
Qed.
Lemma split_go_nonempty : forall cl s k pre, Forall (fun x : str => x <> []) (split_go cl k pre s).
Proof.
  intros cl. induction s as [|c s IH]; intros k pre; [constructor|]. cbn [split_go].
  destruct (match k with O => cl pre (c :: s) | _ => k end) as [|[|k']].
  - constructor; [discriminate|auto].
  - constructor; [discriminate|auto].
  - specialize (IH (S k') (c :: pre)). destruct (split_go cl (S k') (c :: pre) s) as [|l ls].
    + constructor; [discriminate|constructor].
    + inversion IH; subst. constructor; [discriminate|auto].
Qed.
Lemma fix_se_nonspace : forall l, nonspace (concat (fix_se l)) = nonspace (concat l).
Proof.
  intros l. remember (length l) as n eqn:E. revert l E. induction n as [n IH] using lt_wf_ind. intros l E.
  destruct l as [|a [|b r]]; auto.
  change (fix_se (a :: b :: r)) with
    (if seqb b (lit " ") && sent_end a then a :: lit "  " :: fix_se r else a :: fix_se (b :: r)).
  destruct (seqb b (lit " ") && sent_end a) eqn:C.
  - apply andb_true_iff in C as [C _]. apply seqb_eq in C. subst b.
    cbn [concat]. rewrite !nonspace_app. rewrite (IH (length r)); auto. simpl in E. lia.
  - cbn [concat]. rewrite nonspace_app. rewrite (IH (length (b :: r))); auto; [|simpl in *; lia].
    cbn [concat]. rewrite !nonspace_app. auto.
Qed.
Lemma expandtabs_nonspace : forall t s col, nonspace (expandtabs_from t col s) = nonspace s.
Proof.
  intros t. induction s as [|c s IH]; intros col; auto. cbn [expandtabs_from].
  destruct (N.eqb_spec c 9).
  - subst. change (nonspace (9%N :: s)) with (nonspace s). destruct (t >? 0); auto.
    rewrite nonspace_app, IH. now rewrite nonspace_spaces.
  - destruct ((c =? 10)%N || (c =? 13)%N); simpl; rewrite IH; auto.
Qed.
Lemma tw_space_is_space : forall c, tw_space c = true -> is_space c = true.
Proof.
  intros c H. unfold tw_space in H. unfold is_space.
  rewrite orb_true_iff, andb_true_iff, !N.leb_le, N.eqb_eq in H.
  repeat rewrite orb_true_iff. repeat rewrite andb_true_iff. repeat rewrite N.leb_le. repeat rewrite N.eqb_eq. lia.
Qed.
Lemma munge_nonspace : forall cfg s, nonspace (munge cfg s) = nonspace s.
Proof.
  intros. unfold munge.
  assert (R : forall s, nonspace (map (fun c => if tw_space c then 32%N else c) s) = nonspace s).
  { induction s0 as [|c s0 IH]; auto. simpl. destruct (tw_space c) eqn:E.
    - rewrite (tw_space_is_space c E). change (is_space 32) with true. simpl. auto.
    - destruct (is_space c); simpl; rewrite IH; auto. }
  destruct (w_replace cfg); [rewrite R|]; destruct (w_expand cfg); auto; apply expandtabs_nonspace.
Qed.
Lemma text_chunks_nonspace : forall cfg s, nonspace (concat (text_chunks cfg s)) = nonspace s.
Proof.
  intros. unfold text_chunks. destruct (w_fixse cfg); rewrite ?fix_se_nonspace;
  unfold split_chunks; rewrite split_go_concat; apply munge_nonspace.
Qed.
End V.
