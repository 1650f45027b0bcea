(** The control sequences of a span: the model meets the specification. *)
From Verif Require Import BaseFacts StrFacts.
From Verif Require Export AnsiFacts SgrSpec.
Open Scope Z_scope.

Section F.
Context `{U : Uni}.

Lemma bind_Err : forall {A B} (r : res A) (f : A -> res B) e, bind r f = Err e -> r = Err e \/ exists a, r = Ok a /\ f a = Err e.
Proof. intros A B [a|x] f e H; [right; eauto|left; cbn [bind] in H; injection H as ->; reflexivity]. Qed.

(** ** Hexadecimal numbers *)
Lemma hex_iff : forall c v, hex_digit c = Some v <-> hex c v.
Proof.
  intros c v. unfold hex_digit, hex, is_digit_ascii. destruct (N.leb_spec 48 c), (N.leb_spec c 57), (N.leb_spec 97 c), (N.leb_spec c 102), (N.leb_spec 65 c), (N.leb_spec c 70); cbn [andb];
    (split; [intros E; try discriminate; injection E as <-; lia|intros E; try (f_equal; lia); try lia]).
Qed.
Lemma digit_iff : forall c v, int16_digit c = Some v <-> a_digit c v.
Proof.
  intros c v. unfold int16_digit, a_digit. destruct (N.ltb_spec c 128) as [L|L].
  - rewrite hex_iff. split; [auto|]. intros [H|[H _]]; [auto|lia].
  - destruct (is_space c).
    + split; [discriminate|]. intros [H|(_ & H & _)]; [unfold hex in H; lia|discriminate].
    + split; [auto|]. intros [H|(_ & _ & H)]; [unfold hex in H; lia|auto].
Qed.
Lemma blank_iff : forall c, int_space c = true <-> a_blank c.
Proof.
  intros c. unfold int_space, a_blank. destruct (N.ltb_spec c 128) as [L|L].
  - cbn [In]. destruct (N.leb_spec 9 c), (N.leb_spec c 13), (N.eqb_spec c 32); cbn [andb orb]; split; intros HX; auto; try discriminate; try lia.
  - split; [auto|]. intros [H|[_ H]]; [cbn [In] in H; lia|auto].
Qed.
Lemma digit_black : forall c v, a_digit c v -> int_space c = false.
Proof.
  intros c v [H|(L & E & _)].
  - exact (proj1 (hex_facts c v H)).
  - unfold int_space. destruct (N.ltb_spec c 128); [lia|exact E].
Qed.
Lemma digit_unsigned : forall c v, a_digit c v -> c <> 43%N /\ c <> 45%N.
Proof. intros c v [H|(L & _)]; [destruct (hex_facts c v H) as (_ & A & B & _); auto|lia]. Qed.
Lemma digits_iff : forall ds acc n, digits_val 16 acc int16_digit ds = Some n
  <-> exists vs, Forall2 a_digit ds vs /\ n = fold_left (fun n v => 16 * n + v)%N vs acc.
Proof.
  induction ds as [|c r IH]; intros acc n; cbn [digits_val].
  - split.
    + intros E. injection E as <-. exists []. split; [constructor|reflexivity].
    + intros (vs & F & ->). inversion F; subst. reflexivity.
  - destruct (int16_digit c) as [d|] eqn:E.
    + rewrite IH. split.
      * intros (vs & F & ->). exists (d :: vs). split; [constructor; auto; now apply digit_iff|]. cbn [fold_left]. f_equal. lia.
      * intros (vs & F & ->). inversion F as [|? v ? vs' A F']; subst. apply digit_iff in A. rewrite E in A. injection A as <-. exists vs'. split; auto. cbn [fold_left]. f_equal. lia.
    + split; [discriminate|]. intros (vs & F & _). inversion F as [|? v ? vs' A F']; subst. apply digit_iff in A. congruence.
Qed.
Definition core (s : str) : str := rev (drop_while int_space (rev (drop_while int_space s))).
Lemma drop_split : forall s, exists a, s = a ++ drop_while int_space s /\ Forall a_blank a /\ match drop_while int_space s with c :: _ => int_space c = false | [] => True end.
Proof.
  induction s as [|c s IH]; [exists []; cbn [drop_while app]; auto|]. destruct IH as (a & E & B & H). cbn [drop_while]. destruct (int_space c) eqn:IS.
  - exists (c :: a). split; [cbn [app]; now f_equal|]. split; [constructor; auto; now apply blank_iff|exact H].
  - exists []. auto.
Qed.
Lemma core_split : forall s, exists a b, s = a ++ core s ++ b /\ Forall a_blank a /\ Forall a_blank b.
Proof.
  intros s. destruct (drop_split s) as (a & E & A & _). destruct (drop_split (rev (drop_while int_space s))) as (b & E' & B & _).
  exists a, (rev b). split; [|split; auto; now apply Forall_rev]. rewrite E at 1. f_equal. unfold core.
  apply (f_equal (@rev N)) in E'. rewrite rev_involutive, rev_app_distr in E'. exact E'.
Qed.
Lemma drop_blank : forall a x, Forall a_blank a -> match x with c :: _ => int_space c = false | [] => True end -> drop_while int_space (a ++ x) = x.
Proof.
  induction a as [|c a IH]; intros x F H; cbn [app].
  - destruct x as [|c x]; [reflexivity|]. cbn [drop_while]. now rewrite H.
  - inversion F; subst. cbn [drop_while]. replace (int_space c) with true by (symmetry; now apply blank_iff). auto.
Qed.
Lemma core_is : forall a x b, Forall a_blank a -> Forall a_blank b -> x <> [] ->
  match x with c :: _ => int_space c = false | [] => True end -> match rev x with c :: _ => int_space c = false | [] => True end ->
  core (a ++ x ++ b) = x.
Proof.
  intros a x b A B N H1 H2. unfold core. rewrite drop_blank; auto.
  - rewrite rev_app_distr, drop_blank; auto; [apply rev_involutive|now apply Forall_rev].
  - destruct x; [contradiction|exact H1].
Qed.
Definition go16 (neg : bool) (d : str) : res Z :=
  match d with
  | [] => Err EValue
  | _ => match digits_val 16 0 int16_digit d with
         | Some n => Ok (if neg then - Z.of_N n else Z.of_N n)
         | None => Err EValue
         end
  end.
Lemma int16_eq : forall s, int16 s = match core s with 43%N :: d => go16 false d | 45%N :: d => go16 true d | d => go16 false d end.
Proof. reflexivity. Qed.
Lemma int16_iff : forall s z, int16 s = Ok z <-> hex_number s z.
Proof.
  intros s z. rewrite int16_eq. set (go := go16).
  assert (GO : forall neg d, go neg d = Ok z <-> d <> [] /\ exists vs, Forall2 a_digit d vs
      /\ z = (if neg then - Z.of_N (fold_left (fun n v => 16 * n + v)%N vs 0%N) else Z.of_N (fold_left (fun n v => 16 * n + v)%N vs 0%N))).
  { intros neg d. unfold go, go16. destruct d as [|c d]; [split; [discriminate|intros [N _]; contradiction]|].
    destruct (digits_val 16 0 int16_digit (c :: d)) as [n|] eqn:DV.
    - split.
      + intros E. injection E as <-. split; [discriminate|]. apply digits_iff in DV as (vs & F & ->). exists vs. split; auto.
      + intros (_ & vs & F & ->). do 1 f_equal. assert (DV' : digits_val 16 0 int16_digit (c :: d) = Some (fold_left (fun n v => 16 * n + v)%N vs 0%N)) by (apply digits_iff; eauto).
        rewrite DV in DV'. injection DV' as ->. reflexivity.
    - split; [discriminate|]. intros (_ & vs & F & _). assert (DV' : digits_val 16 0 int16_digit (c :: d) = Some (fold_left (fun n v => 16 * n + v)%N vs 0%N)) by (apply digits_iff; eauto). congruence. }
  assert (CASES : (match core s with 43%N :: d => go false d | 45%N :: d => go true d | d => go false d end) = Ok z
     <-> exists sign d, core s = sign ++ d /\ (sign = [] \/ sign = lit "+" \/ sign = lit "-") /\ (sign = lit "-" -> go true d = Ok z) /\ (sign <> lit "-" -> go false d = Ok z)).
  { split.
    - destruct (core s) as [|c d] eqn:EC; intros H.
      + exists [], []. split; [reflexivity|]. split; [auto|]. split; [discriminate|auto].
      + destruct (N.eq_dec c 43) as [->|N1]; [exists (lit "+"), d; split; [reflexivity|]; split; [auto|]; split; [discriminate|auto]|].
        destruct (N.eq_dec c 45) as [->|N2]; [exists (lit "-"), d; split; [reflexivity|]; split; [auto|]; split; [auto|congruence]|].
        exists [], (c :: d). split; [reflexivity|]. split; [auto|]. split; [discriminate|]. intros _.
        destruct c as [|p]; [exact H|]. do 6 (destruct p as [p|p|]; try exact H); congruence.
    - intros (sign & d & EC & SG & H1 & H2). rewrite EC. destruct SG as [->|[->| ->]].
      + specialize (H2 ltac:(discriminate)). cbn [app]. destruct d as [|c d]; [exact H2|].
        pose proof H2 as H3. apply GO in H3 as (_ & vs & F & _). inversion F as [|? v ? vs' A F']; subst. destruct (digit_unsigned c v A) as [N1 N2].
        destruct c as [|p]; [exact H2|]. do 6 (destruct p as [p|p|]; try exact H2); congruence.
      + exact (H2 ltac:(discriminate)).
      + exact (H1 eq_refl). }
  rewrite CASES. clear CASES. split.
  - intros (sign & d & EC & SG & H1 & H2). destruct (core_split s) as (a & b & E & A & B). rewrite EC, <- app_assoc in E.
    assert (G : exists neg, go neg d = Ok z /\ (neg = true <-> sign = lit "-")).
    { destruct SG as [->|[->| ->]]; [exists false|exists false|exists true]; (split; [first [apply H2; discriminate|apply H1; reflexivity]|split; intros X; congruence || discriminate || auto]). }
    destruct G as (neg & G & NG). apply GO in G as (N & vs & F & EZ). exists a, sign, d, vs, b. repeat split; auto. cbv zeta.
    destruct neg; [right; split; [now apply NG|exact EZ]|left; split; [|exact EZ]]. destruct SG as [?|[?|X]]; auto. apply NG in X. discriminate.
  - intros (a & sign & ds & vs & b & E & A & B & N & F & Z0). cbv zeta in Z0. exists sign, ds.
    assert (SG : sign = [] \/ sign = lit "+" \/ sign = lit "-") by tauto.
    assert (HD : match ds with c :: _ => int_space c = false | [] => True end) by (destruct F as [|c v ? ? DV _]; [exact I|eapply digit_black; eauto]).
    assert (LA : match rev ds with c :: _ => int_space c = false | [] => True end).
    { destruct (rev ds) as [|c q] eqn:ER; auto. assert (IN : In c ds) by (apply in_rev; rewrite ER; now left).
      clear - F IN. induction F as [|x v ? ? DV F' IH]; [contradiction|]. destruct IN as [<-|IN]; [eapply digit_black; eauto|auto]. }
    split.
    { rewrite E. assert (sign ++ ds ++ b = (sign ++ ds) ++ b) as -> by apply app_assoc. apply core_is; auto.
      - destruct sign; [exact N|discriminate].
      - destruct SG as [->|[->| ->]]; [exact HD|reflexivity|reflexivity].
      - rewrite rev_app_distr. destruct (rev ds) as [|c q] eqn:ER; [apply (f_equal (@rev BinNums.N)) in ER; rewrite rev_involutive in ER; contradiction|exact LA]. }
    split; [exact SG|]. split; intros S0; apply GO; split; auto; exists vs; split; auto; destruct Z0 as [[S1 ->]|[S1 ->]]; auto; subst; try contradiction; destruct S1; subst; discriminate.
Qed.
Lemma int16_err : forall s e, int16 s = Err e -> e = EValue.
Proof.
  intros s e. rewrite int16_eq. set (go := go16).
  assert (GO : forall neg d, go neg d = Err e -> e = EValue).
  { intros neg d. unfold go, go16. destruct d; [congruence|]. destruct (digits_val _ _ _ _); congruence. }
  intros H. destruct (core s) as [|c d]; [eapply GO; exact H|]. destruct c as [|p]; [eapply GO; exact H|].
  do 6 (destruct p as [p|p|]; try (eapply GO; exact H)).
Qed.

(** ** HTML colours *)
Lemma drop_hashes : forall x, exists k, x = repeat 35%N k ++ drop_while (fun c => (c =? 35)%N) x
  /\ forall rest, drop_while (fun c => (c =? 35)%N) x <> 35%N :: rest.
Proof.
  induction x as [|c x IH]; [exists 0%nat; split; [reflexivity|discriminate]|]. destruct IH as (k & E & H). cbn [drop_while]. destruct (N.eqb_spec c 35) as [->|N].
  - exists (S k). split; [cbn [repeat app]; now f_equal|exact H].
  - exists 0%nat. split; [reflexivity|congruence].
Qed.
Lemma hashes_off : forall k body, (forall rest, body <> 35%N :: rest) -> drop_while (fun c => (c =? 35)%N) (repeat 35%N k ++ body) = body.
Proof.
  intros k body H. induction k as [|k IH]; cbn [repeat app]; [|exact IH]. destruct body as [|c r]; [reflexivity|]. cbn [drop_while].
  destruct (N.eqb_spec c 35) as [->|N]; [now elim (H r)|reflexivity].
Qed.
Lemma html_iff : forall x r g b, parse_html_colour x = Ok (r, g, b) <-> html_colour x r g b.
Proof.
  intros x r g b. unfold parse_html_colour, html_colour. cbv zeta. split.
  - intros H. apply bind_Ok in H as (r' & H1 & H). apply bind_Ok in H as (g' & H2 & H). apply bind_Ok in H as (b' & H3 & H). injection H as <- <- <-.
    destruct (drop_hashes x) as (k & E & N). exists k, (drop_while (fun c => (c =? 35)%N) x). split; [exact E|]. split; [exact N|].
    apply int16_iff in H1, H2, H3. auto.
  - intros (k & body & -> & N & H1 & H2 & H3). rewrite hashes_off by exact N. apply int16_iff in H1, H2, H3. etransitivity; [exact (f_equal (fun q => bind q _) H1)|]. etransitivity; [exact (f_equal (fun q => bind q _) H2)|]. etransitivity; [exact (f_equal (fun q => bind q _) H3)|]. reflexivity.
Qed.
Lemma html_err : forall x e, parse_html_colour x = Err e -> e = EValue /\ forall r g b, ~ html_colour x r g b.
Proof.
  intros x e H. split.
  - unfold parse_html_colour in H. cbv zeta in H. apply bind_Err in H as [H|(r & _ & H)]; [eapply int16_err; eauto|]. apply bind_Err in H as [H|(g & _ & H)]; [eapply int16_err; eauto|].
    apply bind_Err in H as [H|(b & _ & H)]; [eapply int16_err; eauto|discriminate].
  - intros r g b C. apply html_iff in C. congruence.
Qed.

(** ** Colours *)
Lemma said_iff : forall v x, val_str v = Ok x <-> said v x.
Proof.
  intros v x. split.
  - destruct v as [|[]| | | | |]; cbn [val_str]; intros E; try discriminate; injection E as <-; constructor.
  - intros []; reflexivity.
Qed.
Fixpoint vsize (v : val) : nat :=
  match v with
  | VTuple l => S ((fix go l := match l with [] => 0 | x :: r => S (vsize x + go r) end) l)%nat
  | _ => 0%nat
  end.
Lemma unhashable_iff : forall n v, (vsize v < n)%nat -> (hashable v = false <-> unhashable v).
Proof.
  induction n as [|n IH]; intros v L; [lia|]. destruct v as [| | | |l|l|d]; cbn [hashable]; try (split; [discriminate|intros H; inversion H]; fail); try (split; [constructor|reflexivity]; fail).
  cbn [vsize] in L. assert (G : forall x, In x l -> (vsize x < n)%nat).
  { clear IH. assert (L' : ((fix go l := match l with [] => 0 | x :: r => S (vsize x + go r) end) l < n)%nat) by lia. clear L. revert L'. generalize n. induction l as [|y l IHl]; intros m L' x INX; [contradiction|]; destruct INX as [->|INX]; [lia|]. apply IHl; auto. lia. }
  split.
  - intros H. assert (X : exists x, In x l /\ hashable x = false).
    { clear - H. induction l as [|y l IHl]; [discriminate|]. cbn [forallb] in H. destruct (hashable y) eqn:E; [destruct (IHl H) as (x & I & X); exists x; split; [now right|exact X]|exists y; split; [now left|exact E]]. }
    destruct X as (x & I & X). eapply uh_tuple; [exact I|]. apply IH; auto.
  - intros H. inversion H as [| |l0 x I X]; subst. apply IH in X; auto. destruct (forallb hashable l) eqn:E; auto. rewrite forallb_forall in E. rewrite E in X by exact I. discriminate.
Qed.
Lemma hashable_iff : forall v, hashable v = false <-> unhashable v.
Proof. intros v. eapply unhashable_iff. eauto. Qed.
Lemma dget_In : forall {A} (d : dict A) k, (exists v, dget k d = Some v) <-> In k (map fst d).
Proof.
  intros A d k. induction d as [|[k' v'] d IH]; cbn [dget map fst In].
  - split; [intros (v & E); discriminate|contradiction].
  - destruct (seqb_spec k k') as [->|N].
    + split; [auto|]. intros _. eauto.
    + rewrite IH. split; [auto|]. intros [->|I]; [contradiction|exact I].
Qed.
Lemma names_are : map fst ansi_colours = map lit colour_names.
Proof. reflexivity. Qed.
Lemma named_code : forall k name bg, nth_error colour_names k = Some name ->
  exists n, dget (lit name) ansi_colours = Some n /\ n + (if bg : bool then 10 else 0) = Z.of_nat k + (if Nat.ltb k 8 then 30 else 82) + (if bg then 10 else 0).
Proof.
  intros k name bg H. assert (K : (k < length colour_names)%nat) by (apply nth_error_Some; rewrite H; discriminate). cbn [length colour_names] in K.
  do 16 (destruct k as [|k]; [injection H as <-; eexists; split; [vm_compute; reflexivity|destruct bg; reflexivity]|]). lia.
Qed.
Lemma code_iff : forall v bg c, colour_sequence v bg = Ok c <-> colour_code bg v c.
Proof.
  intros v bg c. unfold colour_sequence. cbv zeta. change (if bg then lit "48" else lit "38") with (layer bg).
  destruct (hashable v) eqn:HV; cbn [negb].
  2:{ split; [discriminate|]. intros H. apply hashable_iff in HV. inversion H; subst; try (inversion HV; fail). contradiction. }
  split.
  - intros H. destruct v as [|b|z|s|l|l|d]; try discriminate.
    + apply bind_Ok in H as (n & E & H). injection H as <-. destruct b; injection E as <-; [apply (cc_bool bg true)|apply (cc_bool bg false)].
    + apply bind_Ok in H as (n & E & H). injection H as <-. injection E as <-. constructor.
    + destruct (dget s ansi_colours) as [n|] eqn:E.
      * injection H as <-. assert (I : In s (map lit colour_names)) by (rewrite <- names_are; apply dget_In; eauto).
        apply in_map_iff in I as (name & <- & I). apply In_nth_error in I as (k & K). destruct (named_code k name bg K) as (n' & E' & EQ). rewrite E in E'. injection E' as <-. rewrite EQ. now apply cc_name.
      * apply bind_Ok in H as (((r & g) & b) & HP & H). injection H as <-. apply cc_html; [|now apply html_iff].
        rewrite <- names_are. intros C. apply dget_In in C as (n & C). congruence.
    + destruct l as [|r [|g [|b rest]]]; try discriminate. apply bind_Ok in H as (x & X & H). apply bind_Ok in H as (y & Y & H). apply bind_Ok in H as (w & W & H). injection H as <-.
      apply said_iff in X, Y, W. apply cc_triple; auto. intros C. apply hashable_iff in C. congruence.
  - intros [k name K|x r g b N H|z|b|r g b rest x y w NH X Y W].
    + destruct (named_code k name bg K) as (n & E & EQ). rewrite E, EQ. reflexivity.
    + destruct (dget x ansi_colours) as [n|] eqn:E; [elim N; rewrite <- names_are; apply dget_In; eauto|]. apply html_iff in H. rewrite H. reflexivity.
    + reflexivity.
    + destruct b; reflexivity.
    + apply said_iff in X, Y, W. rewrite X. cbn [bind]. rewrite Y. cbn [bind]. rewrite W. reflexivity.
Qed.
Lemma code_err : forall v bg e, truth v = true -> (colour_sequence v bg = Err e <-> no_colour v e).
Proof.
  intros v bg e T. unfold colour_sequence. cbv zeta.
  destruct (hashable v) eqn:HV; cbn [negb].
  2:{ apply hashable_iff in HV. split.
      - intros E. injection E as <-. now constructor.
      - intros NC; inversion NC; subst; try reflexivity; try (inversion HV; fail); contradiction. }
  assert (NH : ~ unhashable v) by (intros C; apply hashable_iff in C; congruence).
  assert (US : forall w x, val_str w = Err x -> hashable w = true -> x = EUnsupported /\ exists t, w = VTuple t).
  { intros w x E HW. destruct w as [|[]| | |l|l|d]; try discriminate. injection E as <-. eauto. }
  split.
  - intros H. destruct v as [|b|z|s|l|l|d]; try discriminate.
    + destruct b; discriminate.
    + destruct (dget s ansi_colours) as [n|] eqn:E; [discriminate|].
      apply bind_Err in H as [H|(((r & g) & b) & _ & H)]; [|discriminate]. apply html_err in H as (-> & H). apply nc_html; auto.
      rewrite <- names_are. intros C. apply dget_In in C as (n & C). congruence.
    + destruct l as [|r [|g [|b rest]]]; try (injection H as <-; apply nc_short; [exact NH|cbn [length]; lia]).
      assert (HS : hashable r = true /\ hashable g = true /\ hashable b = true).
      { cbn [hashable forallb] in HV. repeat (apply andb_prop in HV as [? HV]). auto. }
      destruct HS as (H1 & H2 & H3).
      apply bind_Err in H as [H|(x & _ & H)]; [apply US in H as (-> & t & ->); auto; eapply nc_open; [exact NH|left; reflexivity]|].
      apply bind_Err in H as [H|(y & _ & H)]; [apply US in H as (-> & t & ->); auto; eapply nc_open; [exact NH|right; left; reflexivity]|].
      apply bind_Err in H as [H|(w & _ & H)]; [apply US in H as (-> & t & ->); auto; eapply nc_open; [exact NH|right; right; left; reflexivity]|]. discriminate.
  - intros H. destruct H as [v UH|x N H|l _ L|r g b rest t _ I].
    + contradiction.
    + destruct (dget x ansi_colours) as [n|] eqn:E; [elim N; rewrite <- names_are; apply dget_In; eauto|].
      destruct (parse_html_colour x) as [((r & g) & b)|e] eqn:P; [apply html_iff in P; now elim (H r g b)|]. apply html_err in P as (-> & _). reflexivity.
    + destruct l as [|r [|g [|b rest]]]; try reflexivity. cbn [length] in L. lia.
    + assert (HS : hashable r = true /\ hashable g = true /\ hashable b = true).
      { cbn [hashable forallb] in HV. repeat (apply andb_prop in HV as [? HV]). auto. }
      destruct HS as (H1 & H2 & H3).
      destruct (val_str r) as [x|x] eqn:X; [|apply US in X as (-> & _); auto]. cbn [bind].
      destruct (val_str g) as [y|y] eqn:Y; [|apply US in Y as (-> & _); auto]. cbn [bind].
      destruct (val_str b) as [w|w] eqn:W; [|apply US in W as (-> & _); auto]. cbn [bind].
      destruct I as [->|[->|[->|[]]]]; discriminate.
Qed.

(** ** Spans *)
Lemma control_is : forall c, control c = ansi_seq c. Proof. reflexivity. Qed.
Definition coded : list (str * (Z * Z)) -> list (string * (string * string)) -> Prop :=
  Forall2 (fun a b => fst a = lit (fst b) /\ str_of_Z (fst (snd a)) = lit (fst (snd b)) /\ str_of_Z (snd (snd a)) = lit (snd (snd b))).
Lemma effects_coded : coded ansi_effects effects.
Proof. unfold coded, ansi_effects, effects. cbn [map]. repeat (constructor; [vm_compute; auto|]). constructor. Qed.
Lemma effects_iff : forall s norm l l', coded l l' -> forall en dis,
  effect_seqs s norm l = Ok (en, dis) <-> exists offs, effect_codes s l' en offs /\ dis = (if norm then [] else offs).
Proof.
  intros s norm l l' C. induction C as [|[n [on off]] [n' [on' off']] l l' (E1 & E2 & E3) C IH]; intros en dis.
  - cbn [effect_seqs]. split.
    + intros E. injection E as <- <-. exists []. split; [constructor|now destruct norm].
    + intros (offs & H & ->). inversion H; subst. now destruct norm.
  - cbn [fst snd] in E1, E2, E3. subst n. cbn [effect_seqs]. unfold sitem. destruct (dget (lit n') s) as [v|] eqn:G; cbn [bind].
    + split.
      * intros H. apply bind_Ok in H as ((en0 & dis0) & H0 & H). apply IH in H0 as (offs & H0 & ->). destruct (truth v) eqn:T; injection H as <- <-.
        -- exists (control (lit off') :: offs). rewrite E2, E3. split; [eapply ec_on; eauto|now destruct norm].
        -- exists offs. split; [eapply ec_off; eauto|reflexivity].
      * intros (offs & H & ->). inversion H as [|? ? ? v' ? ons offs0 G' T' H'|? ? ? v' ? ons offs0 G' T' H']; subst; rewrite G in G'; injection G' as <-; rewrite T'.
        -- rewrite (proj2 (IH ons (if norm then [] else offs0)) ltac:(eauto)). cbn [bind]. rewrite E2, E3. now destruct norm.
        -- rewrite (proj2 (IH en (if norm then [] else offs)) ltac:(eauto)). reflexivity.
    + split; [discriminate|]. intros (offs & H & _). inversion H; subst; congruence.
Qed.
Lemma effects_err : forall s norm l l', coded l l' -> forall e,
  effect_seqs s norm l = Err e <-> e = EKey /\ ~ (forall x, In x l' -> dget (lit (fst x)) s <> None).
Proof.
  intros s norm l l' C. induction C as [|[n [on off]] [n' [on' off']] l l' (E1 & E2 & E3) C IH]; intros e.
  - cbn [effect_seqs]. split; [discriminate|]. intros [_ H]. elim H. intros x [].
  - cbn [fst snd] in E1, E2, E3. subst n. cbn [effect_seqs]. unfold sitem. destruct (dget (lit n') s) as [v|] eqn:G; cbn [bind].
    + assert (Q : (let* (en, dis) := effect_seqs s norm l in (if truth v then Ok (ansi_seq (str_of_Z on) :: en, if norm then dis else ansi_seq (str_of_Z off) :: dis) else Ok (en, dis))) = Err e
                   <-> effect_seqs s norm l = Err e).
      { destruct (effect_seqs s norm l) as [[en dis]|e0]; cbn [bind]; [destruct (truth v); split; discriminate|split; intros X; injection X as ->; reflexivity]. }
      rewrite Q, IH. split; intros [-> H]; (split; [reflexivity|]); intros K; apply H.
      * intros x I. apply K. now right.
      * intros x [<-|I]; [cbn [fst]; congruence|auto].
    + split.
      * intros E. injection E as <-. split; auto. intros K. apply (K (n', (on', off'))); [now left|exact G].
      * intros [-> _]. reflexivity.
Qed.
Lemma colour_iff : forall v bg norm en dis, colour_seqs v bg norm = Ok (en, dis) <-> exists off, colour_on bg v en off /\ dis = (if norm then [] else off).
Proof.
  intros v bg norm en dis. unfold colour_seqs, colour_on. destruct (truth v) eqn:T.
  - split.
    + intros H. apply bind_Ok in H as (c & E & H). injection H as <- <-. apply code_iff in E. exists [control (lit (if bg then "49" else "39"))]. split; [right; split; auto; exists c; auto|reflexivity].
    + intros (off & [[C _]|(_ & c & E & -> & ->)] & ->); [discriminate|]. apply code_iff in E. rewrite E. cbn [bind]. now destruct norm.
  - split.
    + intros H. injection H as <- <-. exists []. split; [left; auto|now destruct norm].
    + intros (off & [(_ & -> & ->)|(C & _)] & ->); [now destruct norm|discriminate].
Qed.
Lemma colour_err : forall v bg norm e, colour_seqs v bg norm = Err e <-> truth v = true /\ no_colour v e.
Proof.
  intros v bg norm e. unfold colour_seqs. destruct (truth v) eqn:T; [|split; [discriminate|intros [C _]; discriminate]].
  rewrite <- (code_err v bg e T). destruct (colour_sequence v bg); cbn [bind]; split; try discriminate; try (intros [_ X]; discriminate).
  - intros X. injection X as ->. auto.
  - intros [_ X]. injection X as ->. reflexivity.
Qed.
Theorem ansi_iff : forall s x out, ansi_render s x = Ok out <-> ansi_shown s x out.
Proof.
  intros s x out. unfold ansi_render, ansi_shown, sattr. split.
  - intros H. destruct (dget (lit "normalise") s) as [norm|]; [|discriminate]. cbn [bind] in H. apply bind_Ok in H as ((en & dis) & H1 & H). apply (effects_iff _ _ _ _ effects_coded) in H1 as (offs & H1 & ->).
    destruct (dget (lit "font") s) as [font|]; [|discriminate]. cbn [bind] in H. destruct font; try discriminate. cbn [bind] in H.
    destruct (dget (lit "foreground_colour") s) as [fg|]; [|discriminate]. cbn [bind] in H. apply bind_Ok in H as ((f & f0) & H2 & H). apply colour_iff in H2 as (f' & H2 & ->).
    destruct (dget (lit "background_colour") s) as [bg|]; [|discriminate]. cbn [bind] in H. apply bind_Ok in H as ((b & b0) & H3 & H). apply colour_iff in H3 as (b' & H3 & ->).
    injection H as <-. exists norm, en, offs, fg, f, f', bg, b, b'. repeat (split; [auto; fail|]). rewrite !concat_app, <- !app_assoc. repeat f_equal. destruct (truth norm); [reflexivity|].
    cbn [concat]. now rewrite app_nil_r.
  - intros (norm & ons & offs & fg & f & f' & bg & b & b' & -> & H1 & -> & -> & H2 & -> & H3 & ->). cbn [bind].
    rewrite (proj2 (effects_iff s (truth norm) _ _ effects_coded ons (if truth norm then [] else offs)) ltac:(eauto)). cbn [bind].
    rewrite (proj2 (colour_iff fg false (truth norm) f (if truth norm then [] else f')) ltac:(eauto)). cbn [bind].
    rewrite (proj2 (colour_iff bg true (truth norm) b (if truth norm then [] else b')) ltac:(eauto)). cbn [bind].
    f_equal. rewrite !concat_app, <- !app_assoc. repeat f_equal. destruct (truth norm); [reflexivity|]. cbn [concat]. now rewrite app_nil_r.
Qed.
Theorem ansi_err : forall s x e, ansi_render s x = Err e <-> ansi_trips s e.
Proof.
  intros s x e. unfold ansi_render, sattr. split.
  - intros H. destruct (dget (lit "normalise") s) as [norm|] eqn:GN; [|injection H as <-; now constructor]. cbn [bind] in H. assert (NN : dget (lit "normalise") s <> None) by congruence.
    apply bind_Err in H as [H|((en & dis) & H1 & H)].
    { apply (effects_err _ _ _ _ effects_coded) in H as (-> & H). apply at_effect; auto. }
    assert (ES : effects_set s).
    { intros y I C. assert (X : effect_seqs s (truth norm) ansi_effects = Err EKey); [|congruence]. apply (effects_err _ _ _ _ effects_coded). split; auto. intros K. now apply (K y I). }
    destruct (dget (lit "font") s) as [font|] eqn:GF; [|injection H as <-; now apply at_font_gone]. cbn [bind] in H.
    assert (FN : font = VNone \/ font <> VNone) by (destruct font; (now left) || (right; discriminate)). destruct FN as [-> |FN].
    2:{ assert (E : e = EName) by (destruct font; try congruence; injection H; congruence). subst. eapply at_font; eauto. }
    cbn [bind] in H. destruct (dget (lit "foreground_colour") s) as [fg|] eqn:GG; [|injection H as <-; now apply at_fg_gone]. cbn [bind] in H.
    apply bind_Err in H as [H|((f & f0) & H2 & H)].
    { apply colour_err in H as (T & H). eapply at_fg; eauto. }
    apply colour_iff in H2 as (f' & H2 & _).
    destruct (dget (lit "background_colour") s) as [bg|] eqn:GB; [|injection H as <-; eapply at_bg_gone; eauto]. cbn [bind] in H.
    apply bind_Err in H as [H|((b & b0) & H3 & H)]; [|discriminate].
    apply colour_err in H as (T & H). eapply at_bg; eauto.
  - assert (ED : forall norm, effects_set s -> exists en dis, effect_seqs s norm ansi_effects = Ok (en, dis)).
    { intros norm ES. destruct (effect_seqs s norm ansi_effects) as [[en dis]|x0] eqn:E; eauto. apply (effects_err _ _ _ _ effects_coded) in E as (_ & E). contradiction. }
    intros H. destruct H as [GN|GN NE|GN ES GF|v GN ES GF FN|GN ES GF GG|v e GN ES GF GG T NC|v f f' GN ES GF GG CO GB|v f f' w e GN ES GF GG CO GB T NC].
    + now rewrite GN.
    + destruct (dget (lit "normalise") s) as [norm|]; [|congruence]. cbn [bind]. rewrite (proj2 (effects_err s (truth norm) _ _ effects_coded EKey)); [reflexivity|auto].
    + destruct (dget (lit "normalise") s) as [norm|]; [|congruence]. cbn [bind]. destruct (ED (truth norm) ES) as (en & dis & ->). cbn [bind]. now rewrite GF.
    + destruct (dget (lit "normalise") s) as [norm|]; [|congruence]. cbn [bind]. destruct (ED (truth norm) ES) as (en & dis & ->). cbn [bind]. rewrite GF. cbn [bind]. destruct v; try congruence; reflexivity.
    + destruct (dget (lit "normalise") s) as [norm|]; [|congruence]. cbn [bind]. destruct (ED (truth norm) ES) as (en & dis & ->). cbn [bind]. rewrite GF. cbn [bind]. now rewrite GG.
    + destruct (dget (lit "normalise") s) as [norm|]; [|congruence]. cbn [bind]. destruct (ED (truth norm) ES) as (en & dis & ->). cbn [bind]. rewrite GF. cbn [bind]. rewrite GG. cbn [bind].
      now rewrite (proj2 (colour_err v false (truth norm) e)) by auto.
    + destruct (dget (lit "normalise") s) as [norm|]; [|congruence]. cbn [bind]. destruct (ED (truth norm) ES) as (en & dis & ->). cbn [bind]. rewrite GF. cbn [bind]. rewrite GG. cbn [bind].
      rewrite (proj2 (colour_iff v false (truth norm) f (if truth norm then [] else f')) ltac:(eauto)). cbn [bind]. now rewrite GB.
    + destruct (dget (lit "normalise") s) as [norm|]; [|congruence]. cbn [bind]. destruct (ED (truth norm) ES) as (en & dis & ->). cbn [bind]. rewrite GF. cbn [bind]. rewrite GG. cbn [bind].
      rewrite (proj2 (colour_iff v false (truth norm) f (if truth norm then [] else f')) ltac:(eauto)). cbn [bind]. rewrite GB. cbn [bind].
      now rewrite (proj2 (colour_err w true (truth norm) e)) by auto.
Qed.
End F.
Close Scope Z_scope.
