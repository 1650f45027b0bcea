(** Justification: what it gives and when it fails. *)
From Verif Require Import BaseFacts StrFacts WrapFacts LayoutFacts LayoutLines.
From Verif Require Export JustFacts SetSpec.
Open Scope Z_scope.

Section S.
Context `{U : Uni}.

(** ** Gaps *)
Lemma even_normal : forall n sum gs, even_widths (S n) sum gs ->
  exists k a, (a < S n)%nat /\ gs = repeat (k + 1) a ++ repeat k (S n - a) /\ sum = k * Z.of_nat (S n) + Z.of_nat a.
Proof.
  intros n sum gs (L & SUM & k & a & b & ->). rewrite app_length, !repeat_length in L.
  change (total (repeat (k + 1) a ++ repeat k b) = sum) in SUM. rewrite total_app, !total_repeat in SUM.
  destruct b as [|b].
  - exists (k + 1), 0%nat. split; [lia|]. split; [|lia]. cbn [repeat app]. rewrite app_nil_r. f_equal. lia.
  - exists k, a. split; [lia|]. split; [|lia]. f_equal. f_equal. lia.
Qed.
Lemma even_fun : forall n sum gs gs', even_widths (S n) sum gs -> even_widths (S n) sum gs' -> gs = gs'.
Proof.
  intros n sum gs gs' H H'. apply even_normal in H as (k & a & A & -> & E). apply even_normal in H' as (k' & a' & A' & -> & E').
  destruct (Z.div_mod_unique (Z.of_nat (S n)) k k' (Z.of_nat a) (Z.of_nat a')) as [K AA]; try lia.
  apply Nat2Z.inj in AA. now subst.
Qed.
Lemma even_div : forall n p, even_widths (S n) (Z.of_nat (S n) + p)
  (repeat (p / Z.of_nat (S n) + 2) (Z.to_nat (p mod Z.of_nat (S n))) ++ repeat (p / Z.of_nat (S n) + 1) (S n - Z.to_nat (p mod Z.of_nat (S n)))).
Proof.
  intros n p. set (g := Z.of_nat (S n)). assert (GP : 0 < g) by lia.
  pose proof (Z.div_mod p g ltac:(lia)) as DM. pose proof (Z.mod_pos_bound p g GP) as MB.
  set (k := p / g) in *. set (r := p mod g) in *.
  split; [rewrite app_length, !repeat_length; lia|]. split.
  - change (total (repeat (k + 2) (Z.to_nat r) ++ repeat (k + 1) (S n - Z.to_nat r)) = g + p).
    rewrite total_app, !total_repeat. replace (Z.of_nat (S n - Z.to_nat r)) with (g - r) by lia. rewrite Z2Nat.id by lia. nia.
  - exists (k + 1), (Z.to_nat r), (S n - Z.to_nat r)%nat. f_equal. f_equal. lia.
Qed.

(** ** One line *)
Lemma full_line_spread : forall w l, spread_to w l (full_line w l).
Proof.
  intros w l. unfold full_line. cbv zeta. change (rstrip (lstrip l)) with (strip l).
  destruct (Z.eqb_spec (w - len l) 0) as [P|P]; [apply st_fits; lia|].
  set (words := split_on 32%N (strip l)).
  pose proof (join_split_on 32%N (strip l)) as J. fold words in J.
  pose proof (split_on_nochar 32%N (strip l)) as NC. fold words in NC.
  assert (WN : words <> []) by (destruct (split_on_cons 32%N (strip l)) as (x & ls & E); unfold words; rewrite E; discriminate).
  destruct (Z.eqb_spec (Z.of_nat (length words) - 1) 0) as [G|G].
  - apply st_one. rewrite <- J. destruct words as [|x [|y r]]; [congruence| |cbn [length] in G; lia]. inversion NC; subst. auto.
  - assert (L2 : exists n, length words = S (S n)).
    { destruct words as [|x [|y r]]; [congruence|exfalso; apply G; reflexivity|]. exists (length r). reflexivity. }
    destruct L2 as (n & LW). replace (Z.of_nat (length words) - 1) with (Z.of_nat (S n)) by lia.
    set (p := w - len l) in *. pose proof (even_div n p) as EV. cbv zeta in EV.
    set (g := Z.of_nat (S n)) in *. assert (GP : 0 < g) by lia.
    pose proof (Z.mod_pos_bound p g GP) as MB. set (k := p / g) in *. set (r := p mod g) in *.
    match goal with |- spread_to w l ?o => assert (E : o = spaces (len l - len (lstrip l)) ++ interleave words (repeat (k + 2) (Z.to_nat r) ++ repeat (k + 1) (S n - Z.to_nat r))) end.
    { destruct (Z.eqb_spec r 0) as [R|R].
      - rewrite R. cbn [Z.to_nat repeat app]. rewrite join_interleave, LW. replace (S (S n) - 1)%nat with (S n - 0)%nat by lia. reflexivity.
      - f_equal. rewrite !join_interleave. rewrite firstn_length, skipn_length. rewrite interleave_app.
        + rewrite firstn_skipn. f_equal.
          assert (RK : repeat (k + 2) (Z.to_nat r) = repeat (k + 2) (Z.to_nat r - 1) ++ [k + 2]).
          { replace (Z.to_nat r) with (Z.to_nat r - 1 + 1)%nat at 1 by lia. now rewrite repeat_app. }
          rewrite RK, <- app_assoc. cbn [app]. rewrite LW.
          replace (Nat.min (Z.to_nat r) (S (S n)) - 1)%nat with (Z.to_nat r - 1)%nat by lia.
          replace (S (S n) - Z.to_nat r - 1)%nat with (S n - Z.to_nat r)%nat by lia. reflexivity.
        + intros C. apply (f_equal (@length _)) in C. rewrite skipn_length in C. simpl in C. lia.
        + rewrite firstn_length, repeat_length. lia. }
    rewrite E. eapply st_gaps with (n := n); auto. lia.
Qed.
Lemma two_words_gap : forall ws n, length ws = S (S n) -> In 32%N (join (lit " ") ws).
Proof.
  intros [|x [|y r]] n H; cbn [length] in H; try lia. rewrite join_cons2. apply in_or_app. right. left. reflexivity.
Qed.
Lemma spread_fun : forall w l a b, spread_to w l a -> spread_to w l b -> a = b.
Proof.
  intros w l a b [F|F|ws n gs N J NC LW EV] [F'|F'|ws' n' gs' N' J' NC' LW' EV']; auto; try congruence.
  - exfalso. apply F. rewrite J'. eapply two_words_gap; eauto.
  - exfalso. apply F'. rewrite J. eapply two_words_gap; eauto.
  - assert (ws = ws') as <-.
    { rewrite J in J'. apply (f_equal (split_on 32%N)) in J'. change (lit " ") with [32%N] in J'.
      rewrite !split_on_join in J'; auto; [destruct ws'; [discriminate LW'|discriminate]|destruct ws; [discriminate LW|discriminate]]. }
    assert (n = n') as <- by lia. now rewrite (even_fun _ _ _ _ EV EV').
Qed.
Lemma center_centred : forall w x, centred w x (center x w).
Proof.
  intros w x. unfold center, centred. pose proof (len_nonneg x) as P. destruct (Z.eqb_spec w 0) as [->|NZ].
  { left. split; [lia|reflexivity]. }
  unfold center_pad. destruct (len x >=? w) eqn:E.
  - left. split; [lia|reflexivity].
  - right. cbv zeta. assert (len x < w) by (rewrite Z.geb_leb in E; apply Z.leb_gt in E; lia).
    assert (D : w - len x = 2 * ((w - len x) / 2) + (w - len x) mod 2) by (apply Z.div_mod; lia).
    assert (M : (w - len x) mod 2 = if Z.odd (w - len x) then 1 else 0) by apply Zmod_odd.
    set (q := (w - len x) / 2) in *. eexists _, _. split; [reflexivity|].
    destruct (Z.odd (w - len x)), (Z.odd w); cbn [andb] in *; rewrite M in D; repeat split; lia.
Qed.
Lemma centred_fun : forall w x o1 o2, centred w x o1 -> centred w x o2 -> o1 = o2.
Proof.
  intros w x o1 o2 [[A1 ->]|(a1 & b1 & -> & A1 & A2 & A3 & A4)] [[B1 ->]|(a2 & b2 & -> & B2 & B3 & B4 & B5)]; auto.
  - assert (a2 = 0) by lia. assert (b2 = 0) by lia. subst. now rewrite app_nil_r.
  - assert (a1 = 0) by lia. assert (b1 = 0) by lia. subst. now rewrite app_nil_r.
  - assert (E : a1 = a2) by (destruct (Z.odd w); lia). assert (b1 = b2) by lia. now subst.
Qed.

(** ** Lines *)
Lemma Forall2_fun : forall (R : str -> str -> Prop), (forall x a b, R x a -> R x b -> a = b) ->
  forall l a b, Forall2 R l a -> Forall2 R l b -> a = b.
Proof.
  intros R H l a b F. revert b. induction F as [|x y l a RX F IH]; intros b G; inversion G; subst; auto.
  f_equal; eauto.
Qed.
Lemma Forall2_mapped : forall (R : str -> str -> Prop) f l, (forall x, R x (f x)) -> Forall2 R l (map f l).
Proof. induction l; cbn [map]; constructor; auto. Qed.
Lemma abl_fun : forall (R : str -> str -> Prop), (forall x a b, R x a -> R x b -> a = b) ->
  forall l a b, all_but_last R l a -> all_but_last R l b -> a = b.
Proof.
  intros R H l a b F. revert b. induction F as [|x|x y l a RX N F IH]; intros b G; inversion G; subst; auto; try congruence.
  f_equal; eauto.
Qed.
Lemma layout_width : forall cfg w text ls, in_columns cfg w text ls -> 0 < w.
Proof. intros cfg w text ls (W & _). exact W. Qed.

(** ** The layout that does not end *)
Lemma fuel_goes_on : forall cfg n rl ps, wrap_loop cfg n rl ps = Err EFuel -> goes_on cfg n (rev rl) ps.
Proof.
  intros cfg. induction n as [|n IH]; intros rl ps H; destruct ps as [|c r]; cbn [wrap_loop] in H; try discriminate.
  - constructor. discriminate.
  - pose proof (step_spec cfg rl (c :: r)) as SS. destruct (wrap_step cfg rl (c :: r)) as [[rl' ch] stop].
    destruct SS as (on & A & [(-> & -> & ->)|[(NO & WL & ER & ->)|(NO & WL & AB & ->)]]).
    + eapply go_nothing; [discriminate|exact A|auto].
    + eapply go_line; [discriminate|exact A|auto|auto|]. rewrite <- ER. auto.
    + discriminate.
Qed.
Lemma goes_on_fuel : forall cfg n done ps, goes_on cfg n done ps -> wrap_loop cfg n (rev done) ps = Err EFuel.
Proof.
  induction 1 as [done ps NE|n done ps rest NE A G IH|n done ps on rest NE A NO WL G IH].
  - destruct ps; [contradiction|reflexivity].
  - destruct ps as [|c r]; [contradiction|]. cbn [wrap_loop]. pose proof (step_spec cfg (rev done) (c :: r)) as SS.
    destruct (wrap_step cfg (rev done) (c :: r)) as [[rl' ch] stop]. rewrite rev_involutive in SS. destruct SS as (on & A' & SS).
    destruct (a_line_one _ _ _ _ _ _ _ A A') as [<- <-]. destruct SS as [(_ & -> & ->)|[(NO & _)|(NO & _)]]; [exact IH|contradiction|contradiction].
  - destruct ps as [|c r]; [contradiction|]. cbn [wrap_loop]. pose proof (step_spec cfg (rev done) (c :: r)) as SS.
    destruct (wrap_step cfg (rev done) (c :: r)) as [[rl' ch] stop]. rewrite rev_involutive in SS. destruct SS as (on' & A' & SS).
    destruct (a_line_one _ _ _ _ _ _ _ A A') as [<- <-]. destruct SS as [(Z & _)|[(_ & _ & ER & ->)|(_ & NW & _)]]; [contradiction| |contradiction].
    apply (f_equal (@rev str)) in ER. rewrite rev_involutive in ER. rewrite ER. exact IH.
Qed.
Lemma refused_is : forall cfg, rejected cfg <-> refused cfg.
Proof.
  intros cfg. unfold refused. pose proof (not_rejected cfg) as N. destruct (rejected_dec cfg) as [R|R].
  - split; auto. intros _. destruct (Z_lt_le_dec 0 (w_width cfg)) as [W|W]; [|now left]. right. intros RO. apply (proj2 N); auto.
  - split; [contradiction|]. apply N in R as [W R]. intros [C|C]; [lia|contradiction].
Qed.
Lemma wrap_fails : forall cfg text e, wrap cfg text = Err e <-> (e = EValue /\ refused cfg) \/ (e = EFuel /\ endless cfg text).
Proof.
  intros cfg text e. destruct (rejected_dec cfg) as [R|R].
  - assert (W : wrap cfg text = Err EValue) by (unfold wrap, wrap_chunks; now apply wrap_chunks_rejected).
    rewrite W. split.
    + intros E. injection E as <-. left. split; auto. now apply refused_is.
    + intros [[-> _]|[_ (C & D & _)]]; auto. exfalso. apply (proj2 (not_rejected cfg)); auto.
  - split.
    + intros W. right. assert (e = EFuel) as ->.
      { unfold wrap, wrap_chunks in W. rewrite wrap_chunks_accepted in W by auto. eapply wrap_loop_err; eauto. }
      split; auto. destruct (proj1 (not_rejected cfg) R) as [W0 RO]. split; auto. split; auto.
      destruct (proj2 (chunks_spec cfg text (text_chunks cfg text)) eq_refl) as (t & ps & T & CU & Q). exists (text_chunks cfg text).
      split; [exists t, ps; auto|]. intros n. apply (fuel_goes_on cfg n []).
      pose proof (wrap_budget cfg text W n) as B. rewrite wrap_chunks_accepted in B by auto. exact B.
    + intros [[_ C]|[-> (W0 & RO & qs & (t & ps & T & CU & Q) & G)]]; [exfalso; apply R; now apply refused_is|].
      assert (qs = text_chunks cfg text) as -> by (apply chunks_spec; exists t, ps; auto).
      unfold wrap, wrap_chunks. rewrite wrap_chunks_accepted by auto. exact (goes_on_fuel cfg _ [] _ (G _)).
Qed.

(** ** Texts *)
Lemma layout_wrap : forall cfg w text ls, in_columns cfg w text ls <-> wrap (set_width cfg w) text = Ok ls.
Proof. intros. symmetry. apply wrap_layout. Qed.
Definition justifications : list string := ["none"; "full"; "center"; "left"; "right"]%string.
Ltac by_name j := repeat match goal with |- context [seqb j ?x] => destruct (seqb_spec j x) as [E|]; [subst j|] end.
Theorem justify_set : forall j cfg w text out, justify j cfg w text = Ok out <-> set_text cfg w text j out.
Proof.
  intros j cfg w text out. split.
  - unfold justify. by_name j; intros H.
    + injection H as <-. constructor.
    + apply bind_Ok in H as (ls & W & H). injection H as <-. eapply set_full; [apply layout_wrap; exact W|].
      apply full_lines_abl. intros. apply full_line_spread.
    + apply bind_Ok in H as (ls & W & H). injection H as <-. eapply set_center; [apply layout_wrap; exact W|].
      apply Forall2_mapped. intros. apply center_centred.
    + apply bind_Ok in H as (ls & W & H). injection H as <-. eapply set_left. apply layout_wrap; exact W.
    + apply bind_Ok in H as (ls & W & H). injection H as <-. assert (IC : in_columns cfg w text ls) by (apply layout_wrap; exact W).
      eapply set_right; [exact IC|]. apply layout_width in IC. apply Forall2_mapped. intros x. unfold at_right, right.
      destruct (Z.eqb_spec w 0); [lia|reflexivity].
    + discriminate.
  - intros [|ls L|ls ls' L F|ls ls' L F|ls ls' L F].
    + reflexivity.
    + apply layout_wrap in L. change (justify (lit "left") cfg w text) with (left_justify cfg w text). unfold left_justify. rewrite L. reflexivity.
    + pose proof (layout_width _ _ _ _ L) as P. apply layout_wrap in L. change (justify (lit "right") cfg w text) with (right_justify cfg w text). unfold right_justify. rewrite L. cbn [bind].
      do 2 f_equal. eapply (Forall2_fun (at_right w)); [|apply Forall2_mapped|exact F]; [unfold at_right; congruence|].
      intros x. unfold at_right, right. destruct (Z.eqb_spec w 0); [lia|reflexivity].
    + apply layout_wrap in L. change (justify (lit "center") cfg w text) with (center_justify cfg w text). unfold center_justify. rewrite L. cbn [bind].
      do 2 f_equal. eapply (Forall2_fun (centred w)); [apply centred_fun|apply Forall2_mapped|exact F]. intros. apply center_centred.
    + apply layout_wrap in L. change (justify (lit "full") cfg w text) with (full_justify cfg w text). unfold full_justify. rewrite L. cbn [bind].
      do 2 f_equal. eapply (abl_fun (spread_to w)); [apply spread_fun|apply full_lines_abl|exact F]. intros. apply full_line_spread.
Qed.
Lemma bind_wrap_Err : forall cfg w text (f : list str -> str) e,
  (let* ls := wrap (set_width cfg w) text in Ok (f ls)) = Err e <-> wrap (set_width cfg w) text = Err e.
Proof. intros. destruct (wrap (set_width cfg w) text); cbn [bind]; split; intros H; try discriminate; injection H as ->; reflexivity. Qed.
Theorem justify_unset : forall j cfg w text e, justify j cfg w text = Err e <-> unset cfg w text j e.
Proof.
  intros j cfg w text e. split.
  - unfold justify. by_name j; intros H; try discriminate.
    5:{ injection H as <-. apply un_name. cbn [map In]. intuition congruence. }
    all: unfold full_justify, center_justify, left_justify, right_justify in H; apply bind_wrap_Err in H; apply wrap_fails in H as [[-> H]|[-> H]];
      [apply un_refused|apply un_endless]; auto; cbn [map In]; tauto.
  - intros [N|N R|N R].
    + unfold justify. cbn [map In] in N. by_name j; auto; exfalso; tauto.
    + assert (W : wrap (set_width cfg w) text = Err EValue) by (apply wrap_fails; left; split; auto).
      cbn [map In] in N. destruct N as [<-|[<-|[<-|[<-|[]]]]].
      * change (full_justify cfg w text = Err EValue). unfold full_justify. now rewrite W.
      * change (center_justify cfg w text = Err EValue). unfold center_justify. now rewrite W.
      * change (left_justify cfg w text = Err EValue). unfold left_justify. now rewrite W.
      * change (right_justify cfg w text = Err EValue). unfold right_justify. now rewrite W.
    + assert (W : wrap (set_width cfg w) text = Err EFuel) by (apply wrap_fails; right; split; auto).
      cbn [map In] in N. destruct N as [<-|[<-|[<-|[<-|[]]]]].
      * change (full_justify cfg w text = Err EFuel). unfold full_justify. now rewrite W.
      * change (center_justify cfg w text = Err EFuel). unfold center_justify. now rewrite W.
      * change (left_justify cfg w text = Err EFuel). unfold left_justify. now rewrite W.
      * change (right_justify cfg w text = Err EFuel). unfold right_justify. now rewrite W.
Qed.
End S.
Close Scope Z_scope.
