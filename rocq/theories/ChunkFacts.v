(** Source text that arrives in pieces. *)
From Verif Require Import BaseFacts StrFacts TreeFacts TokFacts CrashFacts.
From Verif Require Export SourceMain.
Open Scope N_scope.

(** ** Cut markup waits *)
Lemma no_after : forall c s, ~ In c s -> after_char c s = None.
Proof. intros c s H. induction s as [|x s IH]; [reflexivity|]. cbn [after_char]. destruct (N.eqb_spec x c); [subst; elim H; now left|]. apply IH. intros I. apply H. now right. Qed.
Lemma not_in_suff : forall (c : N) r s, ~ In c s -> suff r s -> ~ In c r.
Proof. intros c r s H (a & ->) I. apply H. apply in_or_app. now right. Qed.
Lemma search_gt : forall p, (forall s r, p s = Some r -> In 62 s) -> forall s, ~ In 62 s -> search p s = None.
Proof.
  intros p H. induction s as [|c s IH]; intros N62; cbn [search]; (destruct (p _) eqn:E; [apply H in E; contradiction|]); [reflexivity|]. apply IH. intros I. apply N62. now right.
Qed.
Lemma drop_in : forall p c s r, drop_while p s = c :: r -> In c s.
Proof. intros p c s r H. pose proof (suff_drop p s) as (a & E). rewrite H in E. rewrite E. apply in_or_app. right. now left. Qed.
Lemma close_gt : forall a b gap s r, close_at a b gap s = Some r -> In 62 s.
Proof.
  intros a b gap s r H. unfold close_at in H. destruct s as [|x s]; [discriminate|]. destruct (x =? a); [|discriminate].
  assert (G : forall y, suff y s -> In 62 y -> In 62 (x :: s)) by (intros y (z & ->) I; right; apply in_or_app; now right).
  destruct (if gap then drop_while is_space s else s) as [|y s2] eqn:E; [discriminate|]. destruct (y =? b); [|discriminate]. destruct (drop_while is_space s2) as [|z s3] eqn:D; [discriminate|].
  destruct (N.eqb_spec z 62); [|discriminate]. subst z. apply drop_in in D. apply (G (y :: s2)); [|now right]. destruct gap; [rewrite <- E; apply suff_drop|subst; apply suff_refl].
Qed.

Section C.
Context `{U : Uni}.

(** Where the attribute loop stops: at the end, at a bracket, or at an equal sign
    (if what comes before is not a separator). *)
Definition sep (p : N) : bool := is_quote p || is_space p || (p =? 47).
Definition halts (r : str) : Prop := match r with [] => True | c :: t => c = 62 \/ (c = 47 /\ exists t', t = 62 :: t') \/ c = 61 end.
Definition on_track (p : N) (r : str) : Prop :=
  halts r \/ (sep p = true /\ match r with [] => True | c :: _ => is_space c = false /\ (c = 47 -> exists t', r = 47 :: 62 :: t') end).
Lemma skip_end : forall s p q r, skip_misc p s = (q, r) ->
  (match r with [] => True | c :: _ => is_space c = false /\ (c = 47 -> exists t', r = 47 :: 62 :: t') end) /\ (q = p /\ r = s \/ is_space q = true \/ q = 47).
Proof.
  induction s as [|c s IH]; intros p q r H; cbn [skip_misc] in H; [injection H as <- <-; auto|].
  destruct (is_space c) eqn:SP.
  - destruct (IH _ _ _ H) as (I1 & I2). split; auto. destruct I2 as [[-> _]|I2]; auto.
  - destruct (N.eqb_spec c 47).
    + subst c. destruct s as [|d s].
      * destruct (IH _ _ _ H) as (I1 & I2). split; auto. destruct I2 as [[-> _]|I2]; auto.
      * destruct (N.eqb_spec d 62).
        -- injection H as <- <-. subst d. split; auto. split; [exact SP|]. eauto.
        -- destruct (IH _ _ _ H) as (I1 & I2). split; auto. destruct I2 as [[-> _]|I2]; auto.
    + injection H as <- <-. split; auto. split; auto. contradiction.
Qed.
Definition edge (s : str) : Prop := match s with [] => True | c :: _ => is_space c = true \/ c = 47 \/ c = 61 \/ c = 62 end.
Lemma track_end : forall s p q r, skip_misc p s = (q, r) -> sep p = true \/ edge s -> on_track q r.
Proof.
  intros s p q r H S0. destruct (skip_end _ _ _ _ H) as (E & [[-> ->]|Q]).
  - destruct S0 as [S0|S0]; [right; auto|]. left. destruct s as [|c s]; [exact I|]. destruct E as (E1 & E2). cbn [halts]. destruct S0 as [S0|[->|[->| ->]]]; [congruence| |tauto|tauto].
    destruct (E2 eq_refl) as (t' & E). injection E as ->. right. left. eauto.
  - right. split; auto. unfold sep. destruct Q as [Q| ->]; [now rewrite Q, !orb_true_r|reflexivity].
Qed.
Lemma edge_drop : forall p s, (forall c, p c = false -> is_space c = true \/ c = 47 \/ c = 61 \/ c = 62) -> edge (drop_while p s).
Proof. intros p s H. induction s as [|c s IH]; [exact I|]. cbn [drop_while]. destruct (p c) eqn:E; [exact IH|]. exact (H c E). Qed.
Lemma value_edge : forall s v p r, attr_value s = Some (v, p, r) -> sep p = true \/ edge r.
Proof.
  intros s v p r H. unfold attr_value in H. cbv zeta in H. set (s3 := drop_while is_space (drop_while (N.eqb 61) (drop_while is_space s))) in *. set (w2 := take_while is_space (drop_while (N.eqb 61) (drop_while is_space s))) in *.
  destruct (take_while (N.eqb 61) (drop_while is_space s)) as [|e eqs] eqn:EQ; [discriminate|].
  assert (BE : forall t, edge (drop_while (fun c => negb ((c =? 62) || is_space c)) t)).
  { intros t. apply edge_drop. intros c N0. apply negb_false_iff, orb_true_iff in N0. destruct N0 as [N0|N0]; [apply N.eqb_eq in N0; tauto|tauto]. }
  destruct s3 as [|q t].
  - injection H as _ _ <-. right. exact I.
  - destruct (is_quote q) eqn:QQ.
    + destruct (has_char q t).
      * injection H as _ <- _. left. unfold sep. now rewrite QQ.
      * destruct (rev w2) as [|x r2] eqn:RW.
        -- destruct eqs; [discriminate|]. injection H as _ _ <-. right. apply (BE (61 :: q :: t)).
        -- injection H as _ _ <-. right. cbn [edge]. left. assert (I : In x w2) by (apply in_rev; rewrite RW; now left).
           revert I. unfold w2. generalize (drop_while (N.eqb 61) (drop_while is_space s)). induction s0 as [|y s0 IH]; cbn [take_while]; [intros []|]. destruct (is_space y) eqn:Y; [|intros []]. intros [->|I]; auto.
    + injection H as _ _ <-. right. apply (BE (q :: t)).
Qed.
Lemma attr_track : forall p s nm v q r, attr_here p s = Some (nm, v, q, r) -> on_track q r.
Proof.
  intros p s nm v q r H. unfold attr_here in H. destruct s as [|c s]; [discriminate|]. destruct (_ && _); [|discriminate]. cbv zeta in H.
  set (more := fun c : N => negb (is_space c || (c =? 47) || (c =? 61) || (c =? 62))) in *. destruct (attr_value (drop_while more s)) as [[[v' p'] s2]|] eqn:V.
  - destruct (skip_misc p' s2) as [q' r'] eqn:K. injection H as _ _ <- <-. eapply track_end; eauto. eapply value_edge; eauto.
  - destruct (skip_misc (last_of c (c :: take_while more s)) (drop_while more s)) as [q' r'] eqn:K. injection H as _ _ <- <-. eapply track_end; eauto. right. apply edge_drop. intros d D.
    unfold more in D. apply negb_false_iff in D. rewrite !orb_true_iff, !N.eqb_eq in D. tauto.
Qed.
Lemma attrs_halt : forall f p s, (length s <= f)%nat -> on_track p s -> halts (skip_attrs f p s).
Proof.
  induction f as [|f IH]; intros p s L T; cbn [skip_attrs].
  - destruct s; [exact I|cbn in L; lia].
  - destruct (attr_here p s) as [[[[nm v] q] r]|] eqn:A.
    + destruct (suff_attr _ _ _ _ _ _ A) as (c & s' & -> & SF). apply IH; [apply suff_len in SF; cbn in L; lia|]. eapply attr_track; eauto.
    + destruct T as [T|[SP T]]; [exact T|]. destruct s as [|c s]; [exact I|]. destruct T as (T1 & T2). cbn [attr_here] in A. fold (sep p) in A. rewrite SP, T1 in A. cbn [orb andb] in A.
      destruct (N.eqb_spec c 47) as [->|N47]; [destruct (T2 eq_refl) as (t' & E); injection E as ->; right; left; eauto|]. destruct (N.eqb_spec c 62) as [->|N62]; [now left|]. cbn [orb negb] in A.
      cbv zeta in A. destruct (attr_value _) as [[[v' p'] s2]|]; destruct (skip_misc _ _); discriminate.
Qed.
(** A start tag without its closing bracket. *)
Lemma start_waits : forall s, ~ In 62 s -> (forall r, drop_while name_char s <> 0 :: r) -> whole_start_tag s = None.
Proof.
  intros s N62 N0. unfold whole_start_tag. cbv zeta. set (s1 := drop_while name_char s) in *. set (w := take_while slash_or_space s1). set (s2 := drop_while slash_or_space s1).
  assert (S2 : suff s2 s) by (eapply suff_trans; apply suff_drop). assert (T : on_track (last_of (last_of 0 (take_while name_char s)) w) s2).
  { assert (E2 : match s2 with [] => True | c :: _ => slash_or_space c = false end).
    { unfold s2. clearbody s1. clear. induction s1 as [|c s1 IH]; [exact I|]. cbn [drop_while]. destruct (slash_or_space c) eqn:E; auto. }
    destruct w as [|x w0] eqn:W.
    - left. assert (X : s2 = s1) by (pose proof (take_drop slash_or_space s1) as X; fold w in X; rewrite W in X; exact X). rewrite X in *.
      destruct s1 as [|c t] eqn:E1; [exact I|]. exfalso. assert (NC : name_char c = false).
      { revert E1. unfold s1. clear. induction s as [|y s IH]; cbn [drop_while]; [discriminate|]. destruct (name_char y) eqn:Y; auto. intros H. injection H as <- _. exact Y. }
      assert (I62 : c <> 62) by (intros ->; apply (not_in_suff 62 _ _ N62 S2); now left). assert (I0 : c <> 0) by (intros ->; apply (N0 t); reflexivity).
      unfold slash_or_space in E2. unfold name_char in NC. apply negb_false_iff in NC. rewrite !orb_true_iff, !N.eqb_eq in NC.
      destruct NC as [[[[[[[->| ->]| ->]| ->]| ->]| ->]|]|]; try discriminate; contradiction.
    - right. split.
      + unfold last_of. rewrite (last_default (x :: w0) _ 0) by discriminate. assert (LW : In (last (x :: w0) 0) w) by (rewrite W; clear; revert x; induction w0 as [|y w0 IH]; intros x; [now left|]; right; apply IH).
        revert LW. generalize (last (x :: w0) 0). unfold w. clear. intros n. induction s1 as [|y s1 IH]; cbn [take_while]; [intros []|]. destruct (slash_or_space y) eqn:Y; [|intros []]. intros [->|I]; auto.
        unfold sep. unfold slash_or_space in Y. now rewrite <- orb_assoc, Y, orb_true_r.
      + destruct s2 as [|c t]; [exact I|]. unfold slash_or_space in E2. apply orb_false_iff in E2. destruct E2 as [E2 E3]. split; auto. intros ->. discriminate. }
  pose proof (attrs_halt (length s) _ s2 (suff_len _ _ S2) T) as H. set (j := skip_attrs (length s) _ s2) in *.
  assert (SJ : suff j s) by (eapply suff_trans; [apply suff_attrs|exact S2]). assert (NJ : ~ In 62 j) by (eapply not_in_suff; eauto). clearbody j.
  destruct j as [|c t]; [reflexivity|]. cbn [halts] in H. destruct H as [->|[(-> & t' & ->)| ->]].
  - elim NJ. now left.
  - elim NJ. right. now left.
  - reflexivity.
Qed.
(** ** Markup that waits *)
Lemma markup_waits : forall c t, ~ In 62 (c :: t) -> (ascii_letter c \/ c = 47 \/ c = 63 \/ (c = 33 /\ forall r, t <> 91 :: r)) ->
  (ascii_letter c -> forall r, drop_while name_char (c :: t) <> 0 :: r) -> parse_markup None (60 :: c :: t) = Some MWait.
Proof.
  intros c t N62 K N0. unfold parse_markup. assert (N62' : ~ In 62 t) by (intros I; apply N62; now right). destruct K as [K|[->|[->|[-> K]]]].
  - rewrite (letter_alpha c K). unfold parse_starttag. rewrite start_waits; auto.
  - change (is_alpha_ascii 47) with false. change (47 =? 47) with true. cbv iota. unfold parse_endtag. now rewrite no_after.
  - change (is_alpha_ascii 63) with false. change (63 =? 47) with false. cbv iota. replace (startswith (lit "<!--") (60 :: 63 :: t)) with false by reflexivity. cbv iota. change (63 =? 63) with true. cbv iota. now rewrite no_after.
  - change (is_alpha_ascii 33) with false. change (33 =? 47) with false. change (33 =? 63) with false. change (33 =? 33) with true. cbv iota. destruct (startswith (lit "<!--") (60 :: 33 :: t)).
    + rewrite (search_gt comment_close); [reflexivity|apply close_gt|]. eapply not_in_suff; [|apply suff_skipn]. intros [I|[I|I]]; [discriminate|discriminate|contradiction].
    + unfold parse_declaration. replace (startswith (lit "<![") (60 :: 33 :: t)) with false.
      * assert (NS : ~ In 62 (60 :: 33 :: t)) by (intros [I|[I|I]]; [discriminate|discriminate|contradiction]).
        destruct (seqb _ _); rewrite no_after; try reflexivity; (eapply not_in_suff; [exact NS|apply suff_skipn]).
      * symmetry. change (lit "<![") with [60; 33; 91]. cbn [startswith]. change (60 =? 60) with true. change (33 =? 33) with true. cbn [andb]. destruct t as [|d t]; [reflexivity|]. destruct (N.eqb_spec 91 d); [subst; elim (K t eq_refl)|reflexivity].
Qed.
End C.
Close Scope N_scope.
