(** C87: the operations on text, values and dictionaries are those of Python. *)
From Verif Require Import BaseFacts TextSpec StrFacts LineFacts SettingsSpec SettingsFacts Fixture.
From Verif Require Export StrSpec.
From Coq Require DecimalFacts DecimalN DecimalPos DecimalZ.
Open Scope N_scope.

(** ** Characters *)
Theorem C87_white : forall c, is_space c = true <-> In c white.
Proof.
  intros c. split.
  - unfold is_space. intros H. repeat (apply orb_prop in H as [H|H]); try (apply N.eqb_eq in H; subst c; unfold white; cbn [In]; tauto);
      apply andb_prop in H as [H1 H2]; apply N.leb_le in H1, H2; unfold white; cbn [In]; lia.
  - unfold white. cbn [In]. intros H. repeat (destruct H as [<-|H]; [vm_compute; reflexivity|]). destruct H.
Qed.
Theorem C87_line_ends : forall c, is_linebreak c = true <-> In c line_ends.
Proof.
  intros c. split.
  - unfold is_linebreak. intros H. repeat (apply orb_prop in H as [H|H]); try (apply N.eqb_eq in H; subst c; unfold line_ends; cbn [In]; tauto);
      apply andb_prop in H as [H1 H2]; apply N.leb_le in H1, H2; unfold line_ends; cbn [In]; lia.
  - unfold line_ends. cbn [In]. intros H. repeat (destruct H as [<-|H]; [vm_compute; reflexivity|]). destruct H.
Qed.
Lemma ascii_all : forall (p q : N -> bool), forallb (fun n => Bool.eqb (p (N.of_nat n)) (q (N.of_nat n))) (seq 0 128) = true -> forall c, c < 128 -> p c = q c.
Proof.
  intros p q H c L. rewrite forallb_forall in H. specialize (H (N.to_nat c)). rewrite N2Nat.id in H. apply Bool.eqb_prop, H. apply in_seq. lia.
Qed.
Lemma In_char : forall c s, In c s <-> existsb (N.eqb c) s = true.
Proof.
  intros c s. rewrite existsb_exists. split; [intros H; exists c; split; [exact H|apply N.eqb_refl]|]. intros (x & J & E). apply N.eqb_eq in E. now subst.
Qed.
Theorem C87_word : forall `{U : Uni} c, c < 128 -> (is_word c = true <-> In c word_chars).
Proof.
  intros U c L. rewrite In_char. assert (E : is_word c = existsb (N.eqb c) word_chars); [|now rewrite E].
  revert c L. apply ascii_all. vm_compute. reflexivity.
Qed.
Theorem C87_digit : forall `{U : Uni} c, c < 128 -> (is_digit c = true <-> In c digit_chars).
Proof.
  intros U c L. rewrite In_char. assert (E : is_digit c = existsb (N.eqb c) digit_chars); [|now rewrite E].
  revert c L. apply ascii_all. vm_compute. reflexivity.
Qed.
(** Capitals and small letters of ASCII text. *)
Lemma case_all : forall (f g : N -> str), forallb (fun n => seqb (f (N.of_nat n)) (g (N.of_nat n))) (seq 0 128) = true -> forall c, c < 128 -> f c = g c.
Proof.
  intros f g H c L. rewrite forallb_forall in H. specialize (H (N.to_nat c)). rewrite N2Nat.id in H. apply seqb_eq, H. apply in_seq. lia.
Qed.
Definition changed (from to : str) (c : N) : N := match find (fun p => fst p =? c) (combine from to) with Some p => snd p | None => c end.
Theorem C87_upper : forall `{U : Uni} s, (forall c, In c s -> c < 128) -> upper s = map (changed small capital) s.
Proof.
  intros U s. unfold upper. induction s as [|c s IH]; intros H; [reflexivity|]. cbn [flat_map map]. rewrite IH by (intros x J; apply H; now right).
  rewrite (case_all upper_c (fun c => [changed small capital c])); [reflexivity|vm_compute; reflexivity|apply H; now left].
Qed.
Theorem C87_lower : forall `{U : Uni} s, (forall c, In c s -> c < 128) -> lower s = map (changed capital small) s.
Proof.
  intros U s. unfold lower. induction s as [|c s IH]; intros H; [reflexivity|]. cbn [flat_map map]. rewrite IH by (intros x J; apply H; now right).
  rewrite (case_all lower_c (fun c => [changed capital small c])); [reflexivity|vm_compute; reflexivity|apply H; now left].
Qed.

(** ** Stripping *)
Lemma blank_iff : forall s, blank s <-> all_space s = true.
Proof. intros s. unfold blank, all_space. rewrite forallb_forall. split; intros H c J; apply C87_white, H, J. Qed.
Lemma not_white : forall c, ~ In c white <-> is_space c = false.
Proof. intros c. rewrite <- C87_white. apply Bool.not_true_iff_false. Qed.
Lemma blank_app : forall a b, blank a -> blank b -> blank (a ++ b).
Proof. intros a b A B c J. apply in_app_or in J as [J|J]; auto. Qed.
Theorem C87_lstrip : forall s out, lstrip s = out <-> lstripped s out.
Proof.
  intros s out. split.
  - intros <-. unfold lstrip. exists (take_while is_space s). split; [now rewrite take_drop_while|]. split; [apply blank_iff, take_while_all|].
    intros c r E. apply not_white. revert E. induction s as [|x s IH]; cbn [drop_while]; [discriminate|]. destruct (is_space x) eqn:X; auto. intros E. now injection E as <- _.
  - intros (a & -> & A & O). apply blank_iff in A. unfold lstrip. rewrite drop_while_app_all by exact A. destruct out as [|c r]; [reflexivity|]. apply drop_while_head, not_white. now apply (O c r).
Qed.
Theorem C87_rstrip : forall s out, rstrip s = out <-> rstripped s out.
Proof.
  intros s out. assert (R : rstripped s out <-> lstripped (rev s) (rev out)).
  { split.
    - intros (b & -> & B & O). exists (rev b). rewrite rev_app_distr. split; auto. split; [intros c J; apply B; now apply in_rev|]. intros c r E. apply (O (rev r)). rewrite <- (rev_involutive out), E. reflexivity.
    - intros (a & E & A & O). exists (rev a). split; [rewrite <- (rev_involutive s), E, rev_app_distr; now rewrite rev_involutive|]. split; [intros c J; apply A; now apply in_rev|].
      intros r c X. apply (O c (rev r)). rewrite X, rev_app_distr. reflexivity. }
  rewrite R, <- C87_lstrip. unfold rstrip, lstrip. split; [intros <-; now rewrite rev_involutive|intros ->; apply rev_involutive].
Qed.
Theorem C87_strip : forall s out, strip s = out <-> stripped s out.
Proof.
  intros s out. split.
  - intros H. unfold strip in H. apply C87_rstrip in H as (b & E & B & O). destruct (proj1 (C87_lstrip s _) eq_refl) as (a & E' & A & O').
    exists a, b. rewrite <- E. split; auto. split; auto. split; auto. split; auto. intros c r X. subst out. apply (O' c (r ++ b)). now rewrite E.
  - intros (a & b & -> & A & B & O1 & O2). unfold strip. apply C87_rstrip. destruct out as [|c r].
    + assert (E : lstrip (a ++ [] ++ b) = []) by (apply C87_lstrip; exists (a ++ b); split; [now rewrite app_nil_r|split; [now apply blank_app|discriminate]]).
      rewrite E. exists []. split; auto. split; [intros c []|]. exact O2.
    + assert (E : lstrip (a ++ (c :: r) ++ b) = (c :: r) ++ b) by (apply C87_lstrip; exists a; split; auto; split; auto; intros c' r' X; injection X as <- _; eapply O1; reflexivity).
      rewrite E. exists b. auto.
Qed.

(** ** Taking apart and putting together *)
Theorem C87_join : forall sep l s, join sep l = s <-> joined sep l s.
Proof.
  intros sep l s. split.
  - intros <-. induction l as [|x [|y l] IH]; [constructor|constructor|]. rewrite join_cons2. apply jo_more; [discriminate|exact IH].
  - intros H. induction H as [|x|x l s N H IH]; auto. destruct l as [|y l]; [congruence|]. rewrite join_cons2. now rewrite IH.
Qed.
Theorem C87_split : forall c s l, split_on c s = l <-> split_at c s l.
Proof.
  intros c s l. split.
  - intros <-. split; [destruct (split_on_cons c s) as (x & y & ->); discriminate|]. split; [apply C87_join, join_split_on|apply split_on_nochar].
  - intros (N & J & F). apply C87_join in J. subst s. now apply split_on_join.
Qed.
Lemma fields_words : forall s l, fields s l -> split_ws s = l.
Proof.
  intros s l H. induction H as [s B|a w s l A N W S H IH].
  - now apply split_ws_all, blank_iff.
  - apply blank_iff in A. rewrite split_ws_app_all_l by exact A. apply words_split_ws in IH. clear a A H.
    assert (W' : forallb (fun c => negb (is_space c)) w = true) by (apply forallb_forall; intros c J; apply Bool.negb_true_iff, not_white, W, J).
    destruct w as [|c w]; [congruence|]. cbn [forallb] in W'. apply andb_prop in W' as [W1 W2]. apply Bool.negb_true_iff in W1.
    cbn [app]. rewrite split_ws_word by exact W1. assert (T : take_while (fun c => negb (is_space c)) (w ++ s) = w /\ drop_while (fun c => negb (is_space c)) (w ++ s) = s).
    { clear - W2 S. induction w as [|x w IH]; cbn [app take_while drop_while].
      - destruct S as [->|(c & r & -> & J)]; [auto|]. apply C87_white in J. cbn [take_while drop_while]. now rewrite J.
      - cbn [forallb] in W2. apply andb_prop in W2 as [-> W2]. destruct (IH W2) as [-> ->]. auto. }
    destruct T as [-> ->]. f_equal. now apply words_split_ws.
Qed.
Lemma fields_some : forall n s, (length s <= n)%nat -> exists l, fields s l.
Proof.
  induction n as [|n IH]; intros s L.
  - destruct s; [|cbn in L; lia]. exists []. constructor. intros c [].
  - pose proof (take_drop_while is_space s) as E. set (a := take_while is_space s) in *.
    assert (A : blank a) by (apply blank_iff, take_while_all).
    destruct (drop_while is_space s) as [|c r] eqn:ER.
    + exists []. constructor. rewrite <- E, app_nil_r. exact A.
    + assert (C : is_space c = false) by (clear - ER; induction s as [|x s IHs]; cbn [drop_while] in ER; [discriminate|]; destruct (is_space x) eqn:X; auto; now injection ER as <- _).
      pose proof (take_drop_while (fun c => negb (is_space c)) (c :: r)) as E2. set (w := take_while (fun c => negb (is_space c)) (c :: r)) in *. set (t := drop_while (fun c => negb (is_space c)) (c :: r)) in *.
      assert (W : w <> []) by (unfold w; cbn [take_while]; rewrite C; discriminate).
      destruct (IH t) as (l & F). { assert (length s = (length a + (length w + length t))%nat) by (rewrite <- E, <- E2, !app_length; reflexivity). destruct w; [congruence|]. cbn [length] in *. lia. }
      exists (w :: l). rewrite <- E, <- E2. apply fd_word; auto.
      * intros x J. apply not_white. pose proof (take_while_all (fun c => negb (is_space c)) (c :: r)) as H. fold w in H. rewrite forallb_forall in H. now apply Bool.negb_true_iff, H.
      * unfold t. clear. induction (c :: r) as [|x s IHs]; [now left|]. cbn [drop_while]. destruct (is_space x) eqn:X; cbn [negb]; auto. right. exists x, s. split; auto. now apply C87_white.
Qed.
Theorem C87_words : forall s l, split_ws s = l <-> fields s l.
Proof.
  intros s l. split; [|apply fields_words]. intros <-. destruct (fields_some (length s) s (le_n _)) as (l & F). now rewrite (fields_words _ _ F).
Qed.
Lemma lined_iff : forall s ls, lined s ls <-> lines_of s ls.
Proof.
  assert (E : forall t, ending t <-> line_end t) by (intros t; unfold ending, line_end; split; intros [H|[H|(c & H & J)]]; auto; right; right; exists c; split; auto; now apply C87_line_ends).
  assert (B : forall b, (forall c, In c b -> ~ In c line_ends) <-> no_break b) by (intros b; unfold no_break; split; intros H c J; specialize (H c J); [apply Bool.not_true_iff_false; rewrite C87_line_ends; exact H|rewrite <- C87_line_ends; congruence]).
  intros s ls. split; intros H; induction H as [|b t r ls H1 H2 H3 H4 H5 H IH]; constructor; auto; try (now apply B); now apply E.
Qed.
Theorem C87_lines : forall s, exists ls, lined s ls /\ (forall ls', lined s ls' -> ls' = ls)
  /\ splitlines true s = map (fun l => fst l ++ snd l) ls /\ splitlines false s = map fst ls.
Proof.
  intros s. destruct (lines_of_exists s) as (ls & H). exists ls. split; [now apply lined_iff|]. split; [intros ls' H'; apply lined_iff in H'; eapply lines_of_unique; eauto|].
  exact (lines_of_splitlines s ls H).
Qed.
Theorem C87_startswith : forall p s, startswith p s = true <-> exists r, s = p ++ r.
Proof.
  induction p as [|x p IH]; intros s; cbn [startswith]; [split; [intros _; now exists s|auto]|]. destruct s as [|y s]; [split; [discriminate|intros (r & H); discriminate]|].
  rewrite andb_true_iff, IH, N.eqb_eq. split; [intros [-> (r & ->)]; now exists r|]. intros (r & H). injection H as -> ->. eauto.
Qed.
Theorem C87_endswith : forall p s, endswith p s = true <-> exists r, s = r ++ p.
Proof.
  intros p s. unfold endswith. rewrite C87_startswith. split; intros (r & H).
  - exists (rev r). rewrite <- (rev_involutive s), H, rev_app_distr. now rewrite rev_involutive.
  - exists (rev r). now rewrite H, rev_app_distr.
Qed.
Theorem C87_contains : forall p s, contains p s = true <-> exists a b, s = a ++ p ++ b.
Proof.
  intros p s. induction s as [|c s IH]; cbn [contains]; rewrite orb_true_iff, C87_startswith.
  - split; [intros [(r & H)|H]; [exists [], r; exact H|discriminate]|]. intros (a & b & H). left. destruct a; [now exists b|discriminate].
  - rewrite IH. split.
    + intros [(r & H)|(a & b & ->)]; [exists [], r; exact H|exists (c :: a), b; reflexivity].
    + intros (a & b & H). destruct a as [|x a]; [left; now exists b|]. injection H as -> ->. right. now exists a, b.
Qed.
Theorem C87_partition : forall c s h f t, partition c s = (h, f, t) <->
  if f then s = h ++ c :: t /\ ~ In c h else ~ In c s /\ h = s /\ t = [].
Proof.
  intros c s. induction s as [|x s IH]; intros h f t; cbn [partition].
  - destruct f; split; intros H; try discriminate; [destruct H as [H _]; destruct h; discriminate|injection H as <- <-; auto|destruct H as (_ & -> & ->); reflexivity].
  - destruct (N.eqb_spec x c) as [->|NE].
    + destruct f; split; intros H.
      * injection H as <- <-. auto.
      * destruct H as [H1 H2]. destruct h as [|y h]; [now injection H1 as ->|]. injection H1 as <- _. elim H2. now left.
      * discriminate.
      * destruct H as [H _]. elim H. now left.
    + destruct (partition c s) as [[h' f'] t'] eqn:E. destruct (IH h' f' t') as [I1 _]. specialize (I1 eq_refl). split.
      * intros H. injection H as <- <- <-. destruct f'; [destruct I1 as [-> I2]; split; auto; intros [J|J]; [congruence|auto]|]. destruct I1 as (I1 & -> & ->). split; auto. intros [J|J]; [congruence|auto].
      * intros H. destruct f.
        -- destruct H as [H1 H2]. destruct h as [|y h]; [injection H1 as -> _; congruence|]. injection H1 as <- H1. assert (X : (h', f', t') = (h, true, t)) by (apply IH; split; auto; intros J; apply H2; now right). now injection X as -> -> ->.
        -- destruct H as (H1 & -> & ->). assert (X : (h', f', t') = (s, false, [])) by (apply IH; split; auto; intros J; apply H1; now right). now injection X as -> -> ->.
Qed.
Theorem C87_rpartition : forall c s h f t, rpartition c s = (h, f, t) <->
  if f then s = h ++ c :: t /\ ~ In c t else ~ In c s /\ h = [] /\ t = s.
Proof.
  intros c s h f t. unfold rpartition. destruct (partition c (rev s)) as [[h' f'] t'] eqn:E. apply C87_partition in E. destruct f'.
  - destruct E as [E N]. assert (S : s = rev t' ++ c :: rev h') by (rewrite <- (rev_involutive s), E, rev_app_distr; cbn [rev]; rewrite <- app_assoc; reflexivity).
    assert (N' : ~ In c (rev h')) by (rewrite <- in_rev; exact N). split.
    + intros H. injection H as <- <- <-. auto.
    + intros H. destruct f.
      * destruct H as [H1 H2]. rewrite S in H1. clear - H1 H2 N'. f_equal; [f_equal|]; revert h H1; induction (rev t') as [|x u IH]; intros h H1; destruct h as [|y h]; cbn [app] in H1; auto.
        -- injection H1 as -> H1. elim N'. rewrite H1. apply in_or_app. right. now left.
        -- injection H1 as -> H1. elim H2. rewrite <- H1. apply in_or_app. right. now left.
        -- injection H1 as -> H1. f_equal. now apply IH.
        -- now injection H1.
        -- injection H1 as -> H1. elim N'. rewrite H1. apply in_or_app. right. now left.
        -- injection H1 as -> H1. elim H2. rewrite <- H1. apply in_or_app. right. now left.
        -- injection H1 as -> H1. now apply (IH h).
      * destruct H as [H _]. elim H. rewrite S. apply in_or_app. right. now left.
  - destruct E as (E & _ & _). split.
    + intros H. injection H as <- <- <-. split; auto. intros J. apply E. now apply in_rev in J.
    + intros H. destruct f; [|now destruct H as (_ & -> & ->)]. destruct H as [H1 _]. elim E. rewrite H1, <- in_rev. apply in_or_app. right. now left.
Qed.

(** ** Numbers *)
Lemma uint_value_acc : forall u acc, value_of (N.pos acc) (uint_str u) = N.pos (Pos.of_uint_acc u acc).
Proof. induction u as [|u IH|u IH|u IH|u IH|u IH|u IH|u IH|u IH|u IH|u IH]; intros acc; cbn [uint_str value_of Pos.of_uint_acc]; auto; rewrite <- IH; f_equal; lia. Qed.
Lemma uint_value : forall u, value_of 0 (uint_str u) = Pos.of_uint u.
Proof. induction u as [|u IH|u IH|u IH|u IH|u IH|u IH|u IH|u IH|u IH|u IH]; cbn [uint_str value_of Pos.of_uint]; auto; rewrite <- uint_value_acc; f_equal. Qed.
Lemma uint_chars : forall u c, In c (uint_str u) -> In c digit_chars.
Proof. induction u; intros c J; cbn [uint_str In] in J; [destruct J|..]; (destruct J as [<-|J]; [vm_compute; tauto|auto]). Qed.
Lemma chars_uint : forall s, (forall c, In c s -> In c digit_chars) -> exists u, uint_str u = s.
Proof.
  induction s as [|c s IH]; intros H; [now exists Decimal.Nil|]. destruct IH as (u & <-); [intros x J; apply H; now right|]. specialize (H c (or_introl eq_refl)).
  vm_compute in H. destruct H as [<-|[<-|[<-|[<-|[<-|[<-|[<-|[<-|[<-|[<-|[]]]]]]]]]]];
    [now exists (Decimal.D0 u)|now exists (Decimal.D1 u)|now exists (Decimal.D2 u)|now exists (Decimal.D3 u)|now exists (Decimal.D4 u)|now exists (Decimal.D5 u)|now exists (Decimal.D6 u)|now exists (Decimal.D7 u)|now exists (Decimal.D8 u)|now exists (Decimal.D9 u)].
Qed.
Lemma uint_inj : forall u v, uint_str u = uint_str v -> u = v.
Proof. induction u; destruct v; cbn [uint_str]; intros E; try discriminate E; auto; injection E as E; f_equal; auto. Qed.
(** Normal: no leading zeros. *)
Lemma normal_uint : forall u, u <> Decimal.Nil -> (forall v, u = Decimal.D0 v -> v = Decimal.Nil) -> Decimal.unorm u = u.
Proof. intros u N Z. destruct u; try reflexivity; [congruence|]. now rewrite (Z u eq_refl). Qed.
Lemma digits_uint : forall n, digits_of n (uint_str (N.to_uint n)).
Proof.
  intros n. assert (NU : Decimal.unorm (N.to_uint n) = N.to_uint n) by (rewrite <- DecimalN.Unsigned.to_of, DecimalN.Unsigned.of_to; reflexivity).
  split; [|split; [apply uint_chars|split]].
  - intros E. destruct (N.to_uint n); try discriminate E. discriminate NU.
  - rewrite uint_value. apply DecimalN.Unsigned.of_to.
  - intros r E. destruct (N.to_uint n) as [|u| | | | | | | | |]; try discriminate E. cbn [uint_str] in E. injection E as <-.
    assert (K : u = Decimal.Nil); [|now rewrite K]. unfold Decimal.unorm in NU. cbn [Decimal.nzhead] in NU. pose proof (DecimalFacts.nzhead_D0 (Decimal.D0 u)).
    destruct (Decimal.nzhead u) eqn:NZ; [now injection NU|injection NU as NU; exfalso|discriminate NU..].
    exact (DecimalFacts.nzhead_nonzero u _ NZ).
Qed.
Lemma digits_one : forall n s, digits_of n s -> s = uint_str (N.to_uint n).
Proof.
  intros n s (N & C & V & Z). destruct (chars_uint s C) as (u & <-). rewrite uint_value in V. f_equal. rewrite <- V.
  change (Pos.of_uint u) with (N.of_uint u). rewrite DecimalN.Unsigned.to_of. symmetry. apply normal_uint.
  - intros ->. now elim N.
  - intros v ->. specialize (Z (uint_str v) eq_refl). now destruct v.
Qed.
Theorem C87_number : forall z s, str_of_Z z = s <-> written_number z s.
Proof.
  intros z s. assert (D : forall n s, uint_str (N.to_uint n) = s <-> digits_of n s) by (intros n x; split; [intros <-; apply digits_uint|intros H; symmetry; now apply digits_one]).
  unfold written_number, str_of_Z. destruct z as [|p|p]; cbn [Z.to_int Z.ltb Z.compare Z.to_N Z.opp].
  - exact (D 0 s).
  - exact (D (N.pos p) s).
  - change (Pos.to_uint p) with (N.to_uint (N.pos p)). split.
    + intros <-. exists (uint_str (N.to_uint (N.pos p))). split; [reflexivity|]. now apply D.
    + intros (r & -> & H). apply D in H. now rewrite <- H.
Qed.

(** ** Values and dictionaries *)
Theorem C87_truth : forall v, truth v = false <-> falsy v.
Proof.
  intros v. unfold falsy. cbn [In]. split.
  - destruct v as [|[]|z|[|]|[|]|[|]|[|]]; cbn [truth]; try discriminate; auto 10. intros H. apply Bool.negb_false_iff, Z.eqb_eq in H. subst. auto.
  - intros H. repeat (destruct H as [<-|H]; [reflexivity|]). destruct H.
Qed.
Theorem C87_get : forall A k (d : dict A) v, dget k d = Some v <-> holds d k v.
Proof.
  intros A k d v. split.
  - induction d as [|[k' w] d IH]; cbn [dget]; [discriminate|]. destruct (seqb_spec k k') as [->|NE].
    + intros E. injection E as ->. exists [], d. auto.
    + intros H. destruct (IH H) as (a & b & -> & N). exists ((k', w) :: a), b. split; auto. intros [J|J]; [cbn [fst] in J; congruence|auto].
  - intros (a & b & -> & N). induction a as [|[k' w] a IH]; cbn [app dget]; [now rewrite seqb_refl|]. destruct (seqb_spec k k') as [->|NE]; [elim N; now left|]. apply IH. intros J. apply N. now right.
Qed.
Theorem C87_get_none : forall A k (d : dict A), dget k d = None <-> ~ In k (keys d).
Proof.
  intros A k d. induction d as [|[k' w] d IH]; cbn [dget keys map fst In]; [tauto|]. destruct (seqb_spec k k') as [->|NE]; [split; [discriminate|tauto]|]. fold (keys d). rewrite IH. intuition congruence.
Qed.
(** Storing replaces the value in its place, or comes last. *)
Theorem C87_set : forall A k v (d : dict A),
  (forall a w b, d = a ++ (k, w) :: b -> ~ In k (keys a) -> dset k v d = a ++ (k, v) :: b) /\ (~ In k (keys d) -> dset k v d = d ++ [(k, v)]).
Proof.
  intros A k v d. split.
  - intros a w b -> N. induction a as [|[k' w'] a IH]; cbn [app dset]; [now rewrite seqb_refl|]. destruct (seqb_spec k k') as [->|NE]; [elim N; now left|]. f_equal. apply IH. intros J. apply N. now right.
  - intros N. induction d as [|[k' w'] d IH]; [reflexivity|]. cbn [app dset]. destruct (seqb_spec k k') as [->|NE]; [elim N; now left|]. f_equal. apply IH. intros J. apply N. now right.
Qed.
(** Updating stores one item after the other. *)
Theorem C87_update : forall A (d e : dict A), dupdate d e = fold_left (fun d p => dset (fst p) (snd p) d) e d.
Proof. intros A d e. revert d. induction e as [|[k v] e IH]; intros d; [reflexivity|]. cbn [dupdate fold_left fst snd]. apply IH. Qed.
(** Deleting takes the item out. *)
Theorem C87_delete : forall A k (d : dict A),
  (forall a w b, d = a ++ (k, w) :: b -> ~ In k (keys a) -> ddel k d = a ++ b) /\ (~ In k (keys d) -> ddel k d = d).
Proof.
  intros A k d. split.
  - intros a w b -> N. induction a as [|[k' w'] a IH]; cbn [app ddel]; [now rewrite seqb_refl|]. destruct (seqb_spec k k') as [->|NE]; [elim N; now left|]. f_equal. apply IH. intros J. apply N. now right.
  - intros N. induction d as [|[k' w'] d IH]; [reflexivity|]. cbn [app ddel]. destruct (seqb_spec k k') as [->|NE]; [elim N; now left|]. f_equal. apply IH. intros J. apply N. now right.
Qed.

(** Python's [==]: numbers with truth values, dictionaries without regard to order
    (SettingsSpec). *)
Theorem C87_equal : forall a b, val_eqb a b = true <-> equal_values a b.
Proof. exact equal_is. Qed.

(** ** Cases *)
Local Existing Instance U0.
Example strip_case : stripped (9 :: 160 :: lit "a b" ++ [8233; 10]) (lit "a b") /\ ~ stripped (lit "a ") (lit "a ").
Proof. split; [apply C87_strip; vm_compute; reflexivity|]. intros H. apply C87_strip in H. vm_compute in H. discriminate. Qed.
Example split_case : split_at 59 (lit "1;;2") [lit "1"; []; lit "2"] /\ fields ([12288] ++ lit "a  b" ++ [133]) [lit "a"; lit "b"] /\ fields [] [].
Proof. split; [apply C87_split; vm_compute; reflexivity|]. split; apply C87_words; vm_compute; reflexivity. Qed.
Example lines_case : lined (lit "a" ++ [13; 10; 10] ++ lit "b" ++ [12]) [(lit "a", [13; 10]); ([], [10]); (lit "b", [12])].
Proof.
  destruct (C87_lines (lit "a" ++ [13; 10; 10] ++ lit "b" ++ [12])) as (ls & H & O & E1 & E2). vm_compute in E1, E2.
  assert (X : ls = [(lit "a", [13; 10]); ([], [10]); (lit "b", [12])]); [|now rewrite <- X].
  destruct ls as [|[b1 t1] [|[b2 t2] [|[b3 t3] [|]]]]; try discriminate E2. cbn [map fst snd] in E1, E2. injection E2 as <- <- <-. cbn [app] in E1. injection E1 as <- <- <-. reflexivity.
Qed.
Example number_case : written_number (-105) (lit "-105") /\ ~ written_number 7 (lit "07").
Proof. split; [apply C87_number; vm_compute; reflexivity|]. intros H. apply C87_number in H. vm_compute in H. discriminate. Qed.
Example case_case : upper (lit "Az-9z") = lit "AZ-9Z" /\ lower (lit "Az-9z") = lit "az-9z".
Proof. rewrite C87_upper, C87_lower; [split; vm_compute; reflexivity|..]; intros c J; vm_compute in J; repeat (destruct J as [<-|J]; [vm_compute; reflexivity|]); destruct J. Qed.

Print Assumptions C87_white.
Print Assumptions C87_line_ends.
Print Assumptions C87_word.
Print Assumptions C87_digit.
Print Assumptions C87_upper.
Print Assumptions C87_lower.
Print Assumptions C87_lstrip.
Print Assumptions C87_rstrip.
Print Assumptions C87_strip.
Print Assumptions C87_join.
Print Assumptions C87_split.
Print Assumptions C87_words.
Print Assumptions C87_lines.
Print Assumptions C87_startswith.
Print Assumptions C87_endswith.
Print Assumptions C87_contains.
Print Assumptions C87_partition.
Print Assumptions C87_rpartition.
Print Assumptions C87_number.
Print Assumptions C87_truth.
Print Assumptions C87_get.
Print Assumptions C87_get_none.
Print Assumptions C87_set.
Print Assumptions C87_update.
Print Assumptions C87_delete.
Print Assumptions C87_equal.
Close Scope N_scope.
