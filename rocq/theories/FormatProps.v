(** C84: what a template makes of its arguments, for every template string. *)
From Verif Require Import Fixture BaseFacts StrFacts FormatFacts FormatMain.
From Verif Require Export FormatSpec.
Open Scope N_scope.

Section F.
Context `{U : Uni}.

(** Every template has exactly one outcome, and the specification says which. *)
Theorem C84_result : forall args kws t out, format t args kws = Ok out <-> formats args kws t out.
Proof. exact format_ok. Qed.
Theorem C84_exception : forall args kws t ex, format t args kws = Err ex <-> misformats args kws t ex.
Proof. exact format_err. Qed.
Theorem C84_or : forall args kws t, (exists out, formats args kws t out) \/ exists ex, misformats args kws t ex.
Proof. exact formats_or. Qed.
Theorem C84_one : forall args kws t,
  (forall out out', formats args kws t out -> formats args kws t out' -> out = out')
  /\ (forall ex ex', misformats args kws t ex -> misformats args kws t ex' -> ex = ex')
  /\ forall out ex, formats args kws t out -> misformats args kws t ex -> False.
Proof.
  intros args kws t. split; [|split].
  - intros out out' H H'. apply format_ok in H, H'. congruence.
  - intros ex ex' H H'. apply format_err in H, H'. congruence.
  - intros out ex H H'. apply format_ok in H. apply format_err in H'. congruence.
Qed.
(** Text without braces stands as it is, before, between and after the places. *)
Definition braceless (x : str) : Prop := forall c, In c x -> ~ one_of "{}" c.
Lemma given_text : forall args kws k m x t out m', braceless x -> given args kws (S k) m t out m' -> given args kws (S k) m (x ++ t) (x ++ out) m'.
Proof.
  intros args kws k m x t out m' B H. induction x as [|c x IH]; auto. cbn [app]. apply gi_char; [apply B; now left|]. apply IH. intros y J. apply B. now right.
Qed.
Theorem C84_text : forall args kws x, braceless x -> formats args kws x x.
Proof. intros args kws x B. exists FUnset. rewrite <- (app_nil_r x) at 1. rewrite <- (app_nil_r x) at 2. apply given_text; auto. constructor. Qed.
(** The text that is put in is never read as a template, whatever it contains. *)
Theorem C84_verbatim : forall a b x, braceless a -> braceless b ->
  formats [FStr x] [] (a ++ lit "{}" ++ b) (a ++ x ++ b).
Proof.
  intros a b x A B. exists (FAuto 1). apply given_text; auto.
  change (lit "{}" ++ b) with (place_text (Place [] None None) ++ b). eapply gi_place with (m1 := FAuto 1).
  - split; [constructor|exact I].
  - eapply sa_flat with (a := FStr x) (b := FStr x); cbn [pl_name pl_conv spec_of pl_spec].
    + exists [], [], (FStr x). split; [split; [reflexivity|split; [intros c K; destruct K|now left]]|]. split; [now constructor|constructor].
    + constructor.
    + intros [].
    + apply (pr_plain (FStr x)).
  - rewrite <- (app_nil_r b) at 1. rewrite <- (app_nil_r b) at 2. apply given_text; auto. constructor.
Qed.
(** A doubled brace is one brace of the text. *)
Theorem C84_braces : forall args kws c t out, one_of "{}" c -> formats args kws t out -> formats args kws (c :: c :: t) (c :: out).
Proof. intros args kws c t out B (m & H). exists m. now apply gi_brace. Qed.
(** A brace that stays alone is an error, wherever it is. *)
Theorem C84_alone : forall args kws x t ex, braceless x -> misformats args kws t ex -> misformats args kws (x ++ t) ex.
Proof.
  intros args kws x t ex B H. unfold misformats in *. induction x as [|c x IH]; auto. cbn [app]. apply fl_char; [apply B; now left|]. apply IH. intros y J. apply B. now right.
Qed.
(** Aligning to a number of columns: [{:<n}], [{:>n}] and [{:^n}] put blanks
    right of the text, left of it, or on both sides with one more on the right
    if they do not come out even, and never cut it. *)
Lemma ascii_decimal : forall c d, c < 128 -> uni_decimal c = Some d -> 48 <= c <= 57.
Proof.
  intros c d L D. unfold uni_decimal, dec_digit, is_digit_ascii in D. apply N.ltb_lt in L. rewrite L in D.
  destruct ((48 <=? c) && (c <=? 57)) eqn:E; [|discriminate]. apply andb_prop in E as [A B]. apply N.leb_le in A, B. auto.
Qed.
Lemma numeral_decimal : forall w n, numeral w n -> w <> [] /\ forall c, In c w -> is_decimal c.
Proof.
  intros w n H. induction H as [c d D|s n c d H [IH1 IH] D].
  - split; [discriminate|]. intros y [<-|[]]. now exists d.
  - split; [destruct s; discriminate|]. intros y J. apply in_app_or in J as [J|[<-|[]]]; auto. now exists d.
Qed.
Lemma not_decimal : forall c, one_of "<>=^ +-z#{}" c -> ~ is_decimal c.
Proof.
  intros c J (d & D). assert (L : c < 128 /\ ~ 48 <= c <= 57).
  { unfold one_of in J. change (lit "<>=^ +-z#{}") with [60;62;61;94;32;43;45;122;35;123;125] in J. cbn [In] in J. lia. }
  destruct L as [L1 L2]. exact (L2 (ascii_decimal _ _ L1 D)).
Qed.
Ltac sub K := unfold alignment, one_of in *; vm_compute in K |- *; tauto.
Ltac sup := unfold one_of; vm_compute; tauto.
Lemma aligned_made : forall a w n x out, one_of "<>^" a -> numeral w n -> n <= max_size -> begins_not (eq 48) w ->
  columns 32 a (Some n) x out -> formats [FStr x] [] (lit "{:" ++ (a :: w) ++ lit "}") out.
Proof.
  intros a w n x out HA NW LE Z C. destruct (numeral_decimal _ _ NW) as [NN DG].
  assert (AL : alignment a /\ a <> 61 /\ ~ one_of "{}" a /\ a <> 123).
  { unfold alignment, one_of in *. change (lit "<>^") with [60;62;94] in HA. change (lit "<>=^") with [60;62;61;94]. change (lit "{}") with [123;125]. cbn [In] in *. lia. }
  destruct AL as (AL & A1 & A2 & A3).
  assert (ND : forall c, one_of "<>=^ +-z#{}" c -> ~ In c w) by (intros c J K; exact (not_decimal c J (DG c K))).
  assert (BN : forall P : N -> Prop, (forall c, P c -> one_of "<>=^ +-z#{}" c) -> begins_not P w).
  { intros P HP. destruct w as [|c w]; [exact I|]. cbn. intros K. apply (ND c (HP c K)). now left. }
  exists (FAuto 1). rewrite <- (app_nil_r out).
  replace (lit "{:" ++ (a :: w) ++ lit "}") with (place_text (Place [] None (Some (a :: w))) ++ []).
  2:{ rewrite app_nil_r. reflexivity. }
  eapply gi_place with (m1 := FAuto 1); [| |constructor].
  - split; [constructor|]. cbn [pl_spec]. constructor; auto. clear - ND. induction w as [|c w IH]; constructor.
    + intros K. apply (ND c); [|now left]. sub K.
    + apply IH. intros y J K. apply (ND y J). now right.
  - eapply sa_flat with (a := FStr x) (b := FStr x); cbn [pl_name pl_conv spec_of pl_spec].
    + exists [], [], (FStr x). split; [split; [reflexivity|split; [intros c K; destruct K|now left]]|]. split; [now constructor|constructor].
    + constructor.
    + intros [K|K]; [now apply A3|]. apply (ND 123); auto. sup.
    + eapply pr_text with (l := Layout None (Some a) None false false false (Some n) None None None); [discriminate| | |].
      * exists w, w, w, w, w, [], [], []. cbn [la_fill la_align la_sign la_z la_alt la_zero la_width la_group la_precision la_type].
        split; [apply al_bare; auto; apply BN; intros c K; sub K|].
        split; [split; auto; apply BN; intros c K; sub K|].
        split; [split; auto; apply BN; intros c <-; sup|].
        split; [split; auto; apply BN; intros c <-; sup|].
        split; [split; auto|].
        split; [exists w; split; [split; auto|]; split; [now rewrite app_nil_r|exact I]|].
        split; [split; [exact I|reflexivity]|]. split; [split; [exact I|reflexivity]|reflexivity].
      * repeat split; auto. cbn [la_align]. congruence.
      * exact C.
Qed.
Theorem C84_aligned : forall a w n x out, one_of "<>^" a -> numeral w n -> n <= max_size -> begins_not (eq 48) w ->
  (formats [FStr x] [] (lit "{:" ++ (a :: w) ++ lit "}") out
   <-> exists l r, out = repeat 32 l ++ x ++ repeat 32 r /\ (l + r = N.to_nat n - length x)%nat
        /\ (a = 60 /\ l = O \/ a = 62 /\ r = O \/ a = 94 /\ (l = r \/ r = S l))).
Proof.
  intros a w n x out HA NW LE Z. split.
  2:{ intros H. now apply (aligned_made a w n). }
  intros F. assert (E : exists l r, (l + r = N.to_nat n - length x)%nat /\ (a = 60 /\ l = O \/ a = 62 /\ r = O \/ a = 94 /\ (l = r \/ r = S l))).
  { set (k := (N.to_nat n - length x)%nat). unfold one_of in HA. change (lit "<>^") with [60;62;94] in HA. cbn [In] in HA. destruct HA as [<-|[<-|[<-|[]]]].
    - exists 0%nat, k. split; auto.
    - exists k, 0%nat. split; [lia|]. auto.
    - exists (Nat.div2 k), (k - Nat.div2 k)%nat. pose proof (Nat.div2_odd k). destruct (Nat.odd k); cbn [Nat.b2n] in *; split; lia. }
  destruct E as (l & r & E1 & E2). exists l, r. split; auto.
  assert (F' : formats [FStr x] [] (lit "{:" ++ (a :: w) ++ lit "}") (repeat 32 l ++ x ++ repeat 32 r)).
  { apply (aligned_made a w n); auto. exists l, r. auto. }
  destruct (C84_one [FStr x] [] (lit "{:" ++ (a :: w) ++ lit "}")) as (O1 & _). eapply O1; eauto.
Qed.
(** A name that nothing is given for is missed. *)
Theorem C84_unknown : forall args kws x name t, braceless x -> name <> [] ->
  (forall c, In c name -> ~ one_of "{}[].:!" c /\ ~ is_decimal c) -> dget name kws = None ->
  misformats args kws (x ++ lit "{" ++ name ++ lit "}" ++ t) EKey.
Proof.
  intros args kws x name t B NE NC D. apply C84_alone; auto.
  assert (E : lit "{" ++ name ++ lit "}" ++ t = place_text (Place name None None) ++ t).
  { unfold place_text. cbn [pl_name pl_conv pl_spec]. cbn [app]. now rewrite <- !app_assoc. }
  rewrite E. clear E. apply fl_place.
  - split; [|exact I]. cbn [pl_name]. clear - NC. induction name as [|c name IH]; constructor.
    + destruct (NC c (or_introl eq_refl)) as [K _]. intros J. apply K. sub J.
    + apply IH. intros y J. apply NC. now right.
  - apply fa_name. cbn [pl_name]. exists name, []. split.
    + split; [now rewrite app_nil_r|]. split; [|now left]. intros c J K. apply (proj1 (NC c J)). sub K.
    + left. apply up_name; auto. assert (ND : forall n, ~ numeral name n).
      { intros n H. destruct (numeral_decimal _ _ H) as [_ A]. destruct name as [|c name]; [congruence|]. exact (proj2 (NC c (or_introl eq_refl)) (A c (or_introl eq_refl))). }
      split; auto. intros (p & q & n & E & H & _). destruct (numeral_decimal _ _ H) as [PN A]. destruct p as [|c p]; [congruence|]. subst name.
      exact (proj2 (NC c (or_introl eq_refl)) (A c (or_introl eq_refl))).
Qed.
End F.
Print Assumptions C84_result.
Print Assumptions C84_exception.
Print Assumptions C84_or.
Print Assumptions C84_one.
Print Assumptions C84_text.
Print Assumptions C84_verbatim.
Print Assumptions C84_braces.
Print Assumptions C84_alone.
Print Assumptions C84_aligned.
Print Assumptions C84_unknown.

(** ** Cases *)
Local Existing Instance U0.
Ltac fits := apply format_ok; vm_compute; reflexivity.
Ltac misfits := apply format_err; vm_compute; reflexivity.
Example aligned_case : formats [FStr (lit "abc")] [] (lit "|{:^8}|") (lit "|  abc   |").
Proof. fits. Qed.
Example filled_case : formats [FStr (lit "abc"); FInt (-7)] [] (lit "{1:*=+6}/{0:.2}/{{{0[2]}}}") (lit "-****7/ab/{c}").
Proof. fits. Qed.
Example nested_case : formats [FStr (lit "abc"); FInt 6] [] (lit "{:>{}}") (lit "   abc").
Proof. fits. Qed.
Example number_case : formats [] [(lit "n", FInt 255)] (lit "{n:#x} {n:08b} {n!s:>5} {n:+}") (lit "0xff 11111111   255 +255").
Proof. fits. Qed.
Example none_case : formats [] [(lit "href", FNone)] (lit "<{href}>") (lit "<None>").
Proof. fits. Qed.
Example verbatim_case : formats [FStr (lit "{0} {")] [] (lit "*{}*") (lit "*{0} {*").
Proof. fits. Qed.
Example misfit_cases :
  misformats [FStr (lit "abc")] [] (lit "{} {}") EIndex
  /\ misformats [FStr (lit "abc")] [] (lit "{} {0}") EValue
  /\ misformats [FStr (lit "abc")] [] (lit "{content}") EKey
  /\ misformats [FStr (lit "abc")] [] (lit "a { b") EValue
  /\ misformats [FStr (lit "abc")] [] (lit "a } b") EValue
  /\ misformats [FStr (lit "abc")] [] (lit "{:d}") EValue
  /\ misformats [FStr (lit "abc")] [] (lit "{:+}") EValue
  /\ misformats [FStr (lit "abc")] [] (lit "{[a]}") EType
  /\ misformats [FStr (lit "abc")] [] (lit "{[9]}") EIndex
  /\ misformats [FNone] [] (lit "{:>8}") EType
  /\ misformats [FStr (lit "abc")] [] (lit "{!x}") EValue
  /\ misformats [FStr (lit "abc")] [] (lit "{0:{0:{0}}}") EValue
  /\ misformats [FStr (lit "abc")] [] (lit "{.upper}") EUnsupported.
Proof. repeat split; misfits. Qed.
Close Scope N_scope.
