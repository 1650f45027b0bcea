(** Renditions: what complete control sequences make of them. *)
From Verif Require SgrFacts AnsiFacts.
From Verif Require WrapSpec.
From Verif Require Export TermRead.
Open Scope Z_scope.

Section T.
Context `{U : Uni}.
Import AnsiSpec.

(** ** What sequences do *)
Fixpoint nums (done : list N) (cur : option N) (ps : str) : list N :=
  match ps with
  | [] => done ++ [param cur]
  | c :: r => if is_digit_ascii c then nums done (Some (10 * param cur + (c - 48))%N) r else nums (done ++ [param cur]) None r
  end.
Definition after (l : list str) (s : style) : style := fold_left (fun s ps => sgr (nums [] None ps) s) l s.
Lemma after_app : forall l m s, after (l ++ m) s = after m (after l s).
Proof. intros. unfold after. apply fold_left_app. Qed.
Lemma terminal_nums : forall ps done cur s r, forallb par ps = true -> terminal (Csi done cur) s (ps ++ 109%N :: r) = terminal AnsiSpec.Text (sgr (nums done cur ps) s) r.
Proof.
  induction ps as [|c ps IH]; intros done cur s r H; [reflexivity|]. cbn [forallb] in H. apply andb_true_iff in H as [C H]. cbn [app terminal nums].
  destruct (is_digit_ascii c) eqn:D; [now apply IH|]. unfold par in C. rewrite D in C. cbn [orb] in C. rewrite C. now apply IH.
Qed.
Lemma par_esc : forall ps, forallb par ps = true -> forallb esc_param ps = true.
Proof.
  intros ps H. rewrite forallb_forall in *. intros c I. specialize (H c I). unfold par in H. unfold esc_param, is_digit. apply orb_true_iff in H as [H|H]; [|rewrite H; reflexivity].
  replace (c <? 128)%N with true; [rewrite H; apply orb_true_r|]. symmetry. apply N.ltb_lt. unfold is_digit_ascii in H. apply andb_true_iff in H as [_ H]. apply N.leb_le in H. lia.
Qed.
Lemma reads_display : forall x l, reads x l -> forall s, exists shown, display s x = (shown, after l s) /\ WrapSpec.styled x (map fst shown).
Proof.
  unfold display. intros x l H. induction H as [|c x l C H IH|ps x l P H IH]; intros s.
  - exists []. split; [reflexivity|constructor].
  - destruct (IH s) as (sh & E & ST). exists ((c, s) :: sh). cbn [terminal]. rewrite (proj2 (N.eqb_neq c 27) C), E. split; [reflexivity|]. cbn [map fst]. now constructor.
  - destruct (IH (sgr (nums [] None ps) s)) as (sh & E & ST). exists sh. cbn [terminal N.eqb]. change (27 =? 27)%N with true. change (91 =? 91)%N with true. cbn iota. rewrite terminal_nums by exact P. split; [exact E|]. constructor; [now apply par_esc|exact ST].
Qed.

(** ** No more than before *)
Definition no_more (a b : style) : Prop :=
  (st_bold a = true -> st_bold b = true) /\ (st_faint a = true -> st_faint b = true) /\ (st_italic a = true -> st_italic b = true)
  /\ (st_fraktur a = true -> st_fraktur b = true) /\ (st_underline a = true -> st_underline b = true)
  /\ (st_slow_blink a = true -> st_slow_blink b = true) /\ (st_rapid_blink a = true -> st_rapid_blink b = true)
  /\ (st_invert a = true -> st_invert b = true) /\ (st_conceal a = true -> st_conceal b = true) /\ (st_crossed_out a = true -> st_crossed_out b = true)
  /\ (st_framed a = true -> st_framed b = true) /\ (st_encircled a = true -> st_encircled b = true) /\ (st_overlined a = true -> st_overlined b = true)
  /\ (st_fg a = st_fg b \/ st_fg a = CDefault) /\ (st_bg a = st_bg b \/ st_bg a = CDefault).
Lemma no_more_refl : forall a, no_more a a. Proof. intros a. unfold no_more. repeat split; auto. Qed.
Lemma no_more_trans : forall a b c, no_more a b -> no_more b c -> no_more a c.
Proof.
  intros a b c (A1 & A2 & A3 & A4 & A5 & A6 & A7 & A8 & A9 & A10 & A11 & A12 & A13 & A14 & A15) (B1 & B2 & B3 & B4 & B5 & B6 & B7 & B8 & B9 & B10 & B11 & B12 & B13 & B14 & B15).
  assert (F : forall f g h : colour, f = g \/ f = CDefault -> g = h \/ g = CDefault -> f = h \/ f = CDefault) by (intros f g h [->|H] [->|K]; auto).
  exact (conj (fun H => B1 (A1 H)) (conj (fun H => B2 (A2 H)) (conj (fun H => B3 (A3 H)) (conj (fun H => B4 (A4 H)) (conj (fun H => B5 (A5 H)) (conj (fun H => B6 (A6 H)) (conj (fun H => B7 (A7 H))
    (conj (fun H => B8 (A8 H)) (conj (fun H => B9 (A9 H)) (conj (fun H => B10 (A10 H)) (conj (fun H => B11 (A11 H)) (conj (fun H => B12 (A12 H)) (conj (fun H => B13 (A13 H)) (conj (F _ _ _ A14 B14) (F _ _ _ A15 B15))))))))))))))).
Qed.
Lemma no_more_plain : forall a, no_more a plain -> a = plain.
Proof.
  intros [a1 a2 a3 a4 a5 a6 a7 a8 a9 a10 a11 a12 a13 f b] (A1 & A2 & A3 & A4 & A5 & A6 & A7 & A8 & A9 & A10 & A11 & A12 & A13 & A14 & A15).
  cbn in *. assert (K : forall x, (x = true -> false = true) -> x = false) by (intros [] H; [symmetry; apply H|]; reflexivity).
  assert (F : f = CDefault) by (destruct A14; assumption). assert (B : b = CDefault) by (destruct A15; assumption). clear A14 A15.
  rewrite (K _ A1), (K _ A2), (K _ A3), (K _ A4), (K _ A5), (K _ A6), (K _ A7), (K _ A8), (K _ A9), (K _ A10), (K _ A11), (K _ A12), (K _ A13), F, B. reflexivity.
Qed.
Definition tidy (l : list str) : Prop := forall s, no_more (after l s) s.
Lemma tidy_nil : tidy []. Proof. intros s. apply no_more_refl. Qed.
Lemma tidy_app : forall l m, tidy l -> tidy m -> tidy (l ++ m).
Proof. intros l m L M s. rewrite after_app. eapply no_more_trans; [apply M|apply L]. Qed.
Lemma tidy_concat : forall ll, Forall tidy ll -> tidy (concat ll).
Proof. intros ll H. induction H; [apply tidy_nil|now apply tidy_app]. Qed.

(** ** Brackets: what closes undoes what opens *)
Definition bracket (o c : list str) : Prop := forall s s', no_more s' (after o s) -> no_more (after c s') s.
Definition off_codes : list str := map lit ["22"; "23"; "24"; "25"; "27"; "28"; "29"; "54"; "55"; "39"; "49"]%string.
Lemma commute1 : forall a b s, In a off_codes -> In b off_codes -> after [a] (after [b] s) = after [b] (after [a] s).
Proof.
  intros a b [a1 a2 a3 a4 a5 a6 a7 a8 a9 a10 a11 a12 a13 f g] A B.
  assert (K : forall x, In x off_codes -> exists h, forall s, after [x] s = h s) by (intros x _; eexists; reflexivity). clear K.
  repeat (destruct A as [<-|A]; [repeat (destruct B as [<-|B]; [reflexivity|]); contradiction|]). contradiction.
Qed.
Lemma commute2 : forall b l s, In b off_codes -> Forall (fun a => In a off_codes) l -> after l (after [b] s) = after [b] (after l s).
Proof.
  intros b l s B H. revert s. induction H as [|a l A H IH]; intros s; auto. change (after (a :: l) (after [b] s)) with (after l (after [a] (after [b] s))). rewrite commute1 by auto. rewrite IH. reflexivity.
Qed.
Lemma commute : forall l m s, Forall (fun a => In a off_codes) l -> Forall (fun a => In a off_codes) m -> after m (after l s) = after l (after m s).
Proof.
  intros l m s L M. revert s. induction L as [|a l A L IH]; intros s; auto. change (after (a :: l) s) with (after l (after [a] s)). rewrite IH. rewrite commute2 by auto. reflexivity.
Qed.
Lemma bracket_app : forall o c o' c', Forall (fun a => In a off_codes) c -> Forall (fun a => In a off_codes) c' -> bracket o c -> bracket o' c' -> bracket (o ++ o') (c ++ c').
Proof.
  intros o c o' c' C C' B B' s s' H. rewrite after_app in H. rewrite after_app, commute by auto. apply B. apply B'. exact H.
Qed.
Lemma bracket_nil : bracket [] []. Proof. intros s s' H. exact H. Qed.
Definition good_effect (e : string * (string * string)) : Prop :=
  let '(_, (on, off)) := e in bracket [lit on] [lit off] /\ In (lit off) off_codes /\ forallb par (lit on) = true /\ forallb par (lit off) = true.
Lemma effects_good : Forall good_effect SgrSpec.effects.
Proof.
  assert (K : forall on off h k, (forall s, after [lit on] s = h s) -> (forall s, after [lit off] s = k s) -> (forall s s', no_more s' (h s) -> no_more (k s') s) -> bracket [lit on] [lit off]).
  { intros on off h k H1 H2 H s s' N. rewrite H2. apply H. now rewrite <- H1. }
  unfold SgrSpec.effects.
  assert (X : forall n m, (forall s s', no_more s' (sgr1 n s) -> no_more (sgr1 m s') s) -> forall on off, (forall s, after [lit on] s = sgr1 n s) -> (forall s, after [lit off] s = sgr1 m s) -> bracket [lit on] [lit off]) by (intros; eapply K; eauto).
  apply Forall_cons; [split; [apply (X 1 22)%N; try reflexivity; intros [] []; cbn; unfold no_more; cbn; intuition discriminate|split; [unfold off_codes; cbn [map In]; auto 15|split; reflexivity]]|].
  apply Forall_cons; [split; [apply (X 2 22)%N; try reflexivity; intros [] []; cbn; unfold no_more; cbn; intuition discriminate|split; [unfold off_codes; cbn [map In]; auto 15|split; reflexivity]]|].
  apply Forall_cons; [split; [apply (X 3 23)%N; try reflexivity; intros [] []; cbn; unfold no_more; cbn; intuition discriminate|split; [unfold off_codes; cbn [map In]; auto 15|split; reflexivity]]|].
  apply Forall_cons; [split; [apply (X 20 23)%N; try reflexivity; intros [] []; cbn; unfold no_more; cbn; intuition discriminate|split; [unfold off_codes; cbn [map In]; auto 15|split; reflexivity]]|].
  apply Forall_cons; [split; [apply (X 4 24)%N; try reflexivity; intros [] []; cbn; unfold no_more; cbn; intuition discriminate|split; [unfold off_codes; cbn [map In]; auto 15|split; reflexivity]]|].
  apply Forall_cons; [split; [apply (X 5 25)%N; try reflexivity; intros [] []; cbn; unfold no_more; cbn; intuition discriminate|split; [unfold off_codes; cbn [map In]; auto 15|split; reflexivity]]|].
  apply Forall_cons; [split; [apply (X 6 25)%N; try reflexivity; intros [] []; cbn; unfold no_more; cbn; intuition discriminate|split; [unfold off_codes; cbn [map In]; auto 15|split; reflexivity]]|].
  apply Forall_cons; [split; [apply (X 7 27)%N; try reflexivity; intros [] []; cbn; unfold no_more; cbn; intuition discriminate|split; [unfold off_codes; cbn [map In]; auto 15|split; reflexivity]]|].
  apply Forall_cons; [split; [apply (X 8 28)%N; try reflexivity; intros [] []; cbn; unfold no_more; cbn; intuition discriminate|split; [unfold off_codes; cbn [map In]; auto 15|split; reflexivity]]|].
  apply Forall_cons; [split; [apply (X 9 29)%N; try reflexivity; intros [] []; cbn; unfold no_more; cbn; intuition discriminate|split; [unfold off_codes; cbn [map In]; auto 15|split; reflexivity]]|].
  apply Forall_cons; [split; [apply (X 51 54)%N; try reflexivity; intros [] []; cbn; unfold no_more; cbn; intuition discriminate|split; [unfold off_codes; cbn [map In]; auto 15|split; reflexivity]]|].
  apply Forall_cons; [split; [apply (X 52 54)%N; try reflexivity; intros [] []; cbn; unfold no_more; cbn; intuition discriminate|split; [unfold off_codes; cbn [map In]; auto 15|split; reflexivity]]|].
  apply Forall_cons; [split; [apply (X 53 55)%N; try reflexivity; intros [] []; cbn; unfold no_more; cbn; intuition discriminate|split; [unfold off_codes; cbn [map In]; auto 15|split; reflexivity]]|].
  apply Forall_nil.
Qed.
End T.
Close Scope Z_scope.
