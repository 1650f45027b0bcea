(** The whitespace treatment of text outside pre. *)
From Verif Require Export StrFacts Parser.

Global Arguments join : simpl never.

(** ** squeeze *)
Lemma blank_space : forall c, blank_char c = true -> is_space c = true.
Proof.
  intros c H. unfold blank_char in H. apply orb_true_iff in H as [H|H];
    apply N.eqb_eq in H; subst; reflexivity.
Qed.

Lemma squeeze_app_nb : forall a b p,
  (match b with c :: _ => blank_char c = false | [] => True end) ->
  squeeze p (a ++ b) = squeeze p a ++ squeeze false b.
Proof.
  induction a as [|x a IH]; simpl; intros b p H.
  - destruct b as [|c b]; simpl; auto. now rewrite H.
  - destruct (blank_char x); [destruct p|]; simpl; rewrite IH; auto.
Qed.
Lemma squeeze_false_true : forall b p,
  (match b with c :: _ => blank_char c = false | [] => True end) ->
  squeeze p b = squeeze false b.
Proof. destruct b; simpl; intros; auto. now rewrite H. Qed.

Lemma squeeze_snoc_nb : forall a c b p, blank_char c = false ->
  squeeze p (a ++ c :: b) = squeeze p a ++ c :: squeeze false b.
Proof.
  intros. rewrite squeeze_app_nb by auto. simpl. now rewrite H.
Qed.

(** After a text that is empty or ends in a non-blank, a blank run becomes " ". *)
Definition ends_nb (s : str) : Prop := s = [] \/ exists a c, s = a ++ [c] /\ blank_char c = false.
Definition starts_nb (s : str) : Prop := match s with c :: _ => blank_char c = false | [] => True end.

Lemma squeeze_false_end : forall a b, ends_nb a -> squeeze false (a ++ b) = squeeze false a ++ squeeze false b.
Proof.
  intros a b [-> |(x & c & -> & H)]; auto.
  rewrite <- app_assoc. simpl. rewrite !squeeze_snoc_nb by auto. simpl.
  now rewrite <- app_assoc.
Qed.

Lemma squeeze_mid : forall a b, ends_nb a -> starts_nb b ->
  squeeze false (a ++ 32%N :: b) = squeeze false a ++ 32%N :: squeeze false b.
Proof.
  intros. rewrite squeeze_false_end by auto. simpl. f_equal. f_equal.
  now apply squeeze_false_true.
Qed.

Lemma squeeze_two : forall a b, squeeze false (a ++ 32%N :: 32%N :: b) = squeeze false (a ++ 32%N :: b).
Proof.
  intros a. generalize false. induction a as [|x a IH]; intros p b; simpl.
  - destruct p; auto.
  - destruct (blank_char x); [destruct p|]; rewrite IH; auto.
Qed.

(** ** The run-based description *)
Notation nrun := normal_run.
Notation nrm := normalise_from.
Lemma single_blanks_squeeze : forall s p, single_blanks p s = squeeze p s.
Proof. reflexivity. Qed.

Lemma nrun_eq : forall w, nrun w = if has_char 10 w then [32%N] else squeeze false w.
Proof. reflexivity. Qed.

Lemma has_char_In : forall c s, has_char c s = true <-> In c s.
Proof.
  unfold has_char. intros. rewrite existsb_exists. split.
  - intros (x & H1 & H2). apply N.eqb_eq in H2. now subst.
  - intros H. exists c. split; auto. apply N.eqb_refl.
Qed.
Lemma has_char_notin : forall c s, ~ In c s -> has_char c s = false.
Proof. intros. destruct (has_char c s) eqn:E; auto. apply has_char_In in E. tauto. Qed.
Lemma has_char_app : forall c a b, has_char c (a ++ b) = has_char c a || has_char c b.
Proof. intros. apply existsb_app. Qed.

Lemma nonspace_nonblank : forall c, is_space c = false -> blank_char c = false.
Proof. intros. destruct (blank_char c) eqn:E; auto. apply blank_space in E. congruence. Qed.

Lemma nrm_nonl : forall s w, ~ In 10%N (rev w ++ s) -> nrm w s = squeeze false (rev w ++ s).
Proof.
  induction s as [|c s IH]; simpl; intros w H.
  - rewrite app_nil_r in *. rewrite nrun_eq. rewrite has_char_notin; auto.
  - destruct (is_space c) eqn:E.
    + rewrite IH; simpl; rewrite <- app_assoc; auto.
    + rewrite squeeze_snoc_nb by now apply nonspace_nonblank.
      rewrite nrun_eq. rewrite has_char_notin; [|rewrite in_app_iff in H; simpl in H; tauto].
      rewrite IH; simpl; auto. rewrite in_app_iff in H; simpl in H; tauto.
Qed.

Lemma nrm_space : forall a w t, all_space a = true -> nrm w (a ++ t) = nrm (rev a ++ w) t.
Proof.
  induction a as [|c a IH]; simpl; intros; auto. apply andb_true_iff in H as [H1 H2].
  rewrite H1, IH by auto. now rewrite <- app_assoc.
Qed.
Lemma nrm_newline : forall s w w', In 10%N w -> In 10%N w' -> nrm w s = nrm w' s.
Proof.
  assert (R : forall w, In 10%N w -> nrun (rev w) = [32%N]).
  { intros w H. rewrite nrun_eq. replace (has_char 10 (rev w)) with true; auto.
    symmetry. apply has_char_In. now apply in_rev in H. }
  induction s as [|c s IH]; simpl; intros w w' H H'.
  - rewrite !R; auto.
  - destruct (is_space c).
    + apply IH; simpl; auto.
    + rewrite !R; auto.
Qed.

Lemma nrm_nl : forall w s, nrm w (10%N :: s) = nrm (10%N :: w) s.
Proof. reflexivity. Qed.
Lemma nrm_ns : forall w c s, is_space c = false -> nrm w (c :: s) = nrun (rev w) ++ c :: nrm [] s.
Proof. intros. simpl. now rewrite H. Qed.

Definition starts_ns (s : str) : Prop := match s with c :: _ => is_space c = false | [] => True end.
Definition ends_ns (s : str) : Prop := s = [] \/ exists a c, s = a ++ [c] /\ is_space c = false.

Lemma nrm_starts : forall w t, starts_ns t -> nrm w t = nrun (rev w) ++ nrm [] t.
Proof.
  intros w [|c t] H; simpl.
  - now rewrite app_nil_r.
  - simpl in H. rewrite H. reflexivity.
Qed.
Lemma nrm_app_starts : forall a w t, starts_ns t -> nrm w (a ++ t) = nrm w a ++ nrm [] t.
Proof.
  induction a as [|c a IH]; simpl; intros.
  - now apply nrm_starts.
  - destruct (is_space c); auto. rewrite IH by auto. now rewrite <- app_assoc.
Qed.
Lemma nrm_app_ends : forall a t, ends_ns a -> nrm [] (a ++ t) = nrm [] a ++ nrm [] t.
Proof.
  intros a t [-> |(x & c & -> & H)]; auto.
  rewrite <- app_assoc. simpl. rewrite !nrm_app_starts by (simpl; auto).
  rewrite <- app_assoc. f_equal. simpl. now rewrite H.
Qed.

Lemma nrm_app : forall a b, (starts_ns b /\ b <> []) \/ (ends_ns a /\ a <> []) ->
  nrm [] (a ++ b) = nrm [] a ++ nrm [] b.
Proof. intros a b [[H _]|[H _]]; [apply nrm_app_starts | apply nrm_app_ends]; auto. Qed.

(** ** collapse is the run-based normalisation *)
Lemma ends_ns_nb : forall s, ends_ns s -> ends_nb s.
Proof. intros s [-> |(a & c & -> & H)]; [left|right]; eauto using nonspace_nonblank. Qed.
Lemma starts_ns_nb : forall s, starts_ns s -> starts_nb s.
Proof. destruct s; simpl; auto using nonspace_nonblank. Qed.
Lemma rstrip_ends : forall s, ends_ns (rstrip s).
Proof. intros. destruct (rstrip_spec s) as (b & _ & _ & H). exact H. Qed.
Lemma lstrip_starts : forall s, starts_ns (lstrip s).
Proof. intros. destruct (lstrip_spec s) as (b & _ & _ & H). exact H. Qed.

(** A run with a newline between two texts. *)
Lemma nrm_break : forall x' b a t,
  ends_ns x' -> all_space b = true -> all_space a = true ->
  starts_ns t -> nrm [] (x' ++ b ++ 10%N :: a ++ t) = nrm [] x' ++ 32%N :: nrm [] t.
Proof.
  intros. rewrite nrm_app_ends by auto. f_equal.
  rewrite nrm_space by auto. rewrite nrm_nl. rewrite nrm_space by auto.
  rewrite nrm_starts by auto. rewrite rev_app_distr, rev_involutive. simpl.
  rewrite app_nil_r, rev_involutive. rewrite nrun_eq. rewrite <- app_assoc. simpl.
  replace (has_char 10 (b ++ 10%N :: a)) with true; auto.
  symmetry. apply has_char_In. rewrite in_app_iff. simpl. auto.
Qed.

Lemma nonl_nrm : forall s, ~ In 10%N s -> squeeze false s = nrm [] s.
Proof. intros. now rewrite nrm_nonl. Qed.

Lemma strip_rest_ne : forall y r, exists p ps, strip_rest (y :: r) = p :: ps.
Proof. intros y [|z r]; simpl; eauto. Qed.

Lemma collapse_lines : forall (r : list str) (x y : str),
  Forall (fun l : str => ~ In 10%N l) (x :: y :: r) ->
  squeeze false (join (lit " ") (rstrip x :: strip_rest (y :: r)))
  = nrm [] (join [10%N] (x :: y :: r)).
Proof.
  induction r as [|z r IH]; intros x y HF.
  - simpl strip_rest. inversion HF as [|? ? Hx HF']; subst. inversion HF' as [|? ? Hy _]; subst.
    destruct (rstrip_spec x) as (b & E1 & Hb & _). destruct (lstrip_spec y) as (a & E2 & Ha & _).
    rewrite !join_cons2. change (join (lit " ") [lstrip y]) with (lstrip y).
    change (join [10%N] [y]) with y. change (lit " ") with [32%N]. simpl app.
    rewrite E1 at 2. rewrite E2 at 2. rewrite <- app_assoc.
    rewrite nrm_break; auto using rstrip_ends, lstrip_starts.
    rewrite squeeze_mid; auto using ends_ns_nb, starts_ns_nb, rstrip_ends, lstrip_starts.
    rewrite !nonl_nrm; auto.
    + intros H. apply lstrip_In in H. auto.
    + intros H. apply rstrip_In in H. auto.
  - inversion HF as [|? ? Hx HF']; subst. inversion HF' as [|? ? Hy HF'']; subst.
    change (strip_rest (y :: z :: r)) with (strip y :: strip_rest (z :: r)).
    destruct (strip_rest_ne z r) as (q & qs & EQ).
    destruct (lstrip_spec y) as (a & E2 & Ha & Hs).
    destruct (lstrip y) as [|c y''] eqn:EL.
    + (* blank line *)
      assert (Hbl : all_space y = true) by now apply lstrip_nil.
      assert (strip y = []) as -> by now apply strip_nil.
      assert (HF3 : Forall (fun l : str => ~ In 10%N l) (x :: z :: r)) by (constructor; auto).
      specialize (IH x z HF3). rewrite EQ in IH |- *.
      rewrite !join_cons2 in IH |- *. change (lit " ") with [32%N] in IH |- *.
      simpl app in IH |- *.
      rewrite squeeze_two, IH. rewrite (join_cons2 [10%N] x y), (join_cons2 [10%N] y z). simpl app.
      destruct (rstrip_spec x) as (b & E1 & Hb & Hend).
      remember (rstrip x) as x' eqn:Ex'. clear Ex' IH. subst x.
      rewrite <- !app_assoc. rewrite !(nrm_app_ends x') by auto. f_equal.
      rewrite !nrm_space by auto. rewrite !nrm_nl.
      rewrite nrm_space by auto. rewrite nrm_nl. apply nrm_newline; simpl; auto.
    + (* non-blank line *)
      assert (strip y = rstrip (c :: y'')) as -> by (unfold strip; now rewrite EL).
      assert (Hc : ~ In 10%N (c :: y'')).
      { intros H. apply Hy. apply lstrip_In. now rewrite EL. }
      assert (HF3 : Forall (fun l : str => ~ In 10%N l) ((c :: y'') :: z :: r)) by (constructor; auto).
      specialize (IH (c :: y'') z HF3). rewrite EQ in IH |- *.
      rewrite (join_cons2 (lit " ") (rstrip x)). change (lit " ") with [32%N] in *. simpl app.
      rewrite squeeze_mid.
      * rewrite IH. destruct (rstrip_spec x) as (b & E1 & Hb & Hend).
        rewrite (join_cons2 [10%N] x). simpl app. rewrite E2 at 1.
        rewrite (join_cons2 [10%N] (a ++ c :: y'')). rewrite <- app_assoc.
        rewrite <- (join_cons2 [10%N] (c :: y'')).
        rewrite E1 at 2. rewrite <- app_assoc. simpl app.
        rewrite nrm_break; auto.
        rewrite nonl_nrm; auto. intros H. apply rstrip_In in H. auto.
      * apply ends_ns_nb, rstrip_ends.
      * destruct (rstrip_spec (c :: y'')) as (b & E3 & Hb & Hend).
        rewrite join_cons2. simpl.
        destruct (rstrip (c :: y'')) as [|c' t] eqn:ER.
        { apply rstrip_nil in ER. simpl in ER. now rewrite Hs in ER. }
        simpl in E3. inversion E3; subst. simpl. now apply nonspace_nonblank.
Qed.

Lemma collapse_nrm : forall s, collapse s = nrm [] s.
Proof.
  intros. unfold collapse.
  pose proof (split_on_nochar 10 s) as HF. pose proof (join_split_on 10 s) as HJ.
  destruct (split_on_cons 10 s) as (x & l & E). rewrite E in *.
  destruct l as [|y r].
  - change (join [10%N] [x]) with x in HJ. subst. inversion HF; subst. now apply nonl_nrm.
  - rewrite collapse_lines by auto. now rewrite HJ.
Qed.

Lemma collapse_app : forall a b,
  (match b with c :: _ => is_space c = false | [] => False end) \/
  (exists x c, a = x ++ [c] /\ is_space c = false) ->
  collapse (a ++ b) = collapse a ++ collapse b.
Proof.
  intros a b H. rewrite !collapse_nrm. apply nrm_app. destruct H as [H|(x & c & -> & H)].
  - left. destruct b; [tauto|]. split; auto. discriminate.
  - right. split; [right; eauto|]. destruct x; discriminate.
Qed.

(** ** consequences *)
Lemma squeeze_chars : forall s p x, In x (squeeze p s) ->
  x <> 9%N /\ (In x s \/ x = 32%N).
Proof.
  induction s as [|c s IH]; simpl; intros p x H; [tauto|].
  destruct (blank_char c) eqn:E.
  - assert (x = 32%N \/ exists q, In x (squeeze q s)) as [-> |[q Hq]].
    { destruct p; simpl in H; eauto. destruct H; eauto. }
    + split; [discriminate|auto].
    + destruct (IH _ _ Hq). intuition.
  - destruct H as [-> |H].
    + split; auto. intros ->. discriminate.
    + destruct (IH _ _ H). intuition.
Qed.

Fixpoint no_double (prev : bool) (s : str) : bool :=
  match s with
  | [] => true
  | c :: r => negb (prev && (c =? 32)%N) && no_double ((c =? 32)%N) r
  end.
Lemma squeeze_no_double : forall s p, no_double p (squeeze p s) = true.
Proof.
  induction s as [|c s IH]; simpl; intros p; auto.
  destruct (blank_char c) eqn:E.
  - destruct p; auto. simpl. auto.
  - simpl. assert (c =? 32 = false)%N as ->.
    { unfold blank_char in E. now apply orb_false_iff in E as [E _]. }
    rewrite andb_false_r. simpl. auto.
Qed.
Lemma no_double_squeeze : forall s p, no_double p s = true -> ~ In 9%N s -> squeeze p s = s.
Proof.
  induction s as [|c s IH]; simpl; intros p H Ht; auto.
  apply andb_true_iff in H as [H1 H2]. unfold blank_char.
  assert (c =? 9 = false)%N as -> by (apply N.eqb_neq; intros ->; tauto).
  rewrite orb_false_r. destruct (N.eqb_spec c 32).
  - subst. destruct p; [discriminate|]. simpl in H2. rewrite IH; auto.
  - simpl in H2. rewrite IH; auto.
Qed.
Lemma no_double_spec : forall s p, no_double p s = true <->
  (p = true -> forall t, s <> 32%N :: t) /\ (forall a b, s <> a ++ 32%N :: 32%N :: b).
Proof.
  induction s as [|c s IH]; simpl; intros p.
  - split; auto. intros _. split; intros; [discriminate|]. destruct a; discriminate.
  - rewrite andb_true_iff, IH. split.
    + intros [H1 [H2 H3]]. split.
      * intros -> t E. inversion E; subst. discriminate.
      * intros [|a0 a] b E; simpl in E; inversion E; subst.
        -- eapply H2; eauto.
        -- eapply H3; eauto.
    + intros [H1 H2]. split; [|split].
      * destruct p, (N.eqb_spec c 32); auto. subst. exfalso. eapply H1; eauto.
      * intros E t ->. apply N.eqb_eq in E. subst. apply (H2 [] t). auto.
      * intros a b ->. apply (H2 (c :: a) b). auto.
Qed.

Lemma squeeze_words : forall s p cur, (p = true -> cur = []) ->
  split_ws_aux cur (squeeze p s) = split_ws_aux cur s.
Proof.
  induction s as [|c s IH]; simpl; intros p cur H; auto.
  destruct (blank_char c) eqn:E.
  - pose proof (blank_space c E) as Hs. rewrite Hs. destruct p.
    + rewrite H by auto. apply IH. auto.
    + simpl. change (is_space 32) with true. cbv iota. destruct cur; rewrite IH; auto.
  - simpl. destruct (is_space c); [destruct cur|]; rewrite IH; auto; discriminate.
Qed.

Lemma strip_rest_words : forall l : list str, flat_map split_ws (strip_rest l) = flat_map split_ws l.
Proof.
  induction l as [|x l IH]; auto. destruct l as [|y l].
  - simpl. now rewrite split_ws_lstrip.
  - change (split_ws (strip x) ++ flat_map split_ws (strip_rest (y :: l))
            = split_ws x ++ flat_map split_ws (y :: l)).
    rewrite IH, split_ws_strip. reflexivity.
Qed.

Lemma collapse_words : forall s, split_ws (collapse s) = split_ws s.
Proof.
  intros. unfold collapse, split_ws at 1. rewrite squeeze_words by discriminate.
  fold (split_ws (join (lit " ") (match split_on 10%N s with
               | x :: (y :: r) => rstrip x :: strip_rest (y :: r)
               | l => l
               end))).
  rewrite split_ws_join. rewrite <- (split_ws_lines s).
  destruct (split_on 10%N s) as [|x [|y r]]; auto.
  change (split_ws (rstrip x) ++ flat_map split_ws (strip_rest (y :: r))
          = split_ws x ++ flat_map split_ws (y :: r)).
  rewrite strip_rest_words, split_ws_rstrip. reflexivity.
Qed.
Lemma collapse_nonspace : forall s, nonspace (collapse s) = nonspace s.
Proof. intros. now rewrite <- !concat_split_ws, collapse_words. Qed.

Lemma collapse_chars : forall s x, In x (collapse s) -> x <> 10%N /\ x <> 9%N.
Proof.
  unfold collapse. intros s x H. apply squeeze_chars in H as [H1 H2]. split; auto.
  destruct H2 as [H2| -> ]; [|discriminate].
  apply In_join in H2 as [H2|(l & Hl & Hx)].
  - intros ->. destruct H2 as [H2| [] ]. discriminate.
  - intros ->. pose proof (split_on_nochar 10 s) as HF. rewrite Forall_forall in HF.
    destruct (split_on 10%N s) as [|a [|b r]].
    + destruct Hl.
    + eapply HF; eauto.
    + destruct Hl as [<- |Hl].
      * apply rstrip_In in Hx. apply (HF a); simpl; auto.
      * assert (exists l0, In l0 (b :: r) /\ In 10%N l0) as (l0 & Hl0 & Hx0).
        { clear HF. revert b Hl. induction r as [|b' r IH]; intros b Hl.
          - simpl in Hl. destruct Hl as [<- | [] ]. apply lstrip_In in Hx. exists b. simpl; auto.
          - change (strip_rest (b :: b' :: r)) with (strip b :: strip_rest (b' :: r)) in Hl.
            destruct Hl as [<- |Hl].
            + apply strip_In in Hx. exists b. simpl; auto.
            + destruct (IH b' Hl) as (l0 & ? & ?). exists l0. split; auto. now right. }
        apply (HF l0); auto. now right.
Qed.

Lemma collapse_no_double : forall s a b, collapse s <> a ++ 32%N :: 32%N :: b.
Proof.
  intros s. pose proof (squeeze_no_double (join (lit " ")
    (match split_on 10%N s with x :: (y :: r) => rstrip x :: strip_rest (y :: r) | l => l end)) false) as H.
  apply no_double_spec in H. apply H.
Qed.

Lemma collapse_idem : forall s, collapse (collapse s) = collapse s.
Proof.
  intros. unfold collapse at 1. rewrite split_on_none.
  - simpl join. apply no_double_squeeze.
    + unfold collapse. apply squeeze_no_double.
    + intros H. apply collapse_chars in H. tauto.
  - intros H. apply collapse_chars in H. tauto.
Qed.

Lemma squeeze_ne : forall w, w <> [] -> squeeze false w <> [].
Proof. destruct w as [|c w]; simpl; intros; [congruence|]. destruct (blank_char c); discriminate. Qed.
Lemma squeeze_all_space : forall w p, all_space w = true -> all_space (squeeze p w) = true.
Proof.
  induction w as [|c w IH]; simpl; intros p H; auto. apply andb_true_iff in H as [H1 H2].
  destruct (blank_char c); [destruct p|]; simpl; rewrite ?IH, ?H1; auto.
Qed.
Lemma nrun_space : forall w, all_space w = true ->
  all_space (nrun w) = true /\ (w <> [] -> nrun w <> []).
Proof.
  intros. rewrite nrun_eq. destruct (has_char 10 w).
  - split; auto. discriminate.
  - split; [now apply squeeze_all_space | apply squeeze_ne].
Qed.

Lemma nrm_first : forall s w, all_space w = true ->
  space_first (nrm w s) = if is_nil w then space_first s else true.
Proof.
  induction s as [|c s IH]; intros w Hw; simpl.
  - destruct (nrun_space (rev w)) as [H1 H2]; [now rewrite all_space_rev|].
    destruct w as [|x w]; auto. simpl is_nil. cbv iota.
    destruct (nrun (rev (x :: w))) as [|y n] eqn:E.
    + exfalso. apply H2; auto. simpl. intros E'. apply app_eq_nil in E' as [_ E']. discriminate.
    + simpl in *. now apply andb_true_iff in H1 as [H1 _].
  - destruct (is_space c) eqn:E.
    + rewrite IH by (simpl; now rewrite E). simpl. now destruct w.
    + destruct (nrun_space (rev w)) as [H1 H2]; [now rewrite all_space_rev|].
      destruct w as [|x w]; [simpl; auto|]. simpl is_nil. cbv iota.
      destruct (nrun (rev (x :: w))) as [|y n] eqn:E'.
      * exfalso. apply H2; auto. simpl. intros E2. apply app_eq_nil in E2 as [_ E2]. discriminate.
      * simpl in *. now apply andb_true_iff in H1 as [H1 _].
Qed.
Lemma collapse_first : forall s, space_first (collapse s) = space_first s.
Proof. intros. rewrite collapse_nrm. now apply nrm_first. Qed.

Lemma space_last_app : forall a b, b <> [] -> space_last (a ++ b) = space_last b.
Proof.
  intros. unfold space_last. rewrite rev_app_distr. destruct (rev b) eqn:E; auto.
  apply (f_equal (@rev _)) in E. rewrite rev_involutive in E. simpl in E. congruence.
Qed.
Lemma space_last_all : forall w, all_space w = true -> w <> [] -> space_last w = true.
Proof.
  intros w H Hn. rewrite <- all_space_rev in H. unfold space_last.
  destruct (rev w) eqn:E.
  - apply (f_equal (@rev _)) in E. rewrite rev_involutive in E. simpl in E. congruence.
  - simpl in *. now apply andb_true_iff in H as [H _].
Qed.
Lemma nrm_all : forall w, all_space w = true -> nrm [] w = nrun w.
Proof.
  intros. rewrite <- (app_nil_r w) at 1. rewrite nrm_space by auto.
  cbn [nrm]. now rewrite app_nil_r, rev_involutive.
Qed.
Lemma collapse_last : forall s, space_last (collapse s) = space_last s.
Proof.
  intros. destruct (rstrip_spec s) as (b & E & Hb & Hend).
  assert (collapse s = collapse (rstrip s) ++ collapse b) as ->.
  { rewrite E at 1. rewrite !collapse_nrm. apply nrm_app_ends. exact Hend. }
  rewrite E at 2. destruct b as [|x b].
  - change (collapse []) with (@nil N). rewrite !app_nil_r.
    destruct Hend as [-> |(a & c & -> & Hc)]; auto.
    rewrite collapse_nrm. rewrite nrm_app_starts by auto.
    rewrite !space_last_app by (try discriminate; simpl; rewrite Hc; discriminate).
    simpl. rewrite Hc. reflexivity.
  - rewrite !space_last_app; try discriminate.
    + rewrite (space_last_all (x :: b)) by (auto; discriminate).
      rewrite collapse_nrm, nrm_all by auto.
      destruct (nrun_space (x :: b) Hb) as [H1 H2].
      apply space_last_all; auto. apply H2. discriminate.
    + rewrite collapse_nrm, nrm_all by auto.
      destruct (nrun_space (x :: b) Hb) as [H1 H2]. apply H2. discriminate.
Qed.
