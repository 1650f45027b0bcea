(** When the layout of a text never comes to an end. *)
From Verif Require Import BaseFacts StrFacts LayoutFacts LayoutLines.
From Verif Require Export SetFacts WrapStop.
Open Scope Z_scope.

Section H.
Context `{U : Uni}.
Notation bl := Textwrap.blank.

Lemma vsum_columns : forall ps, vsum ps = columns ps.
Proof. induction ps as [|p ps IH]; [reflexivity|]. rewrite vsum_cons, IH. reflexivity. Qed.
Lemma pair_eta : forall {A B C} (q : A * B) (x : C), (let '(a, b) := q in (a, b, x)) = (fst q, snd q, x).
Proof. intros A B C [] x. reflexivity. Qed.
Lemma short_line : forall cfg rl c ch, w_blw cfg = true -> avail cfg rl < 0 -> drop_first cfg rl (c :: ch) = c :: ch ->
  line_of cfg rl (c :: ch) = (fst (drop_last cfg [firstn 1 c] (vsum [firstn 1 c])), snd (drop_last cfg [firstn 1 c] (vsum [firstn 1 c])), skipn 1 c :: ch).
Proof.
  intros cfg rl c ch B A D. unfold line_of. rewrite D. cbn [fill]. pose proof (vlen_nonneg c) as V.
  replace (0 + vlen c <=? avail cfg rl) with false by (symmetry; lia). unfold long_part.
  replace (vlen c >? avail cfg rl) with true by (symmetry; lia).
  destruct (handle_long_cut cfg c ch [] 0 (avail cfg rl) B) as (e & HE & E1 & E2). rewrite HE.
  replace (avail cfg rl <? 1) with true in * by (symmetry; lia). assert (e = 1) by lia. subst e.
  exact (pair_eta _ _).
Qed.

(** ** It does not end *)
Lemma blank_start : forall cfg ch, w_blw cfg = true -> w_drop cfg = true -> avail cfg [] < 0 ->
  forall fuel c, blank_piece c -> wrap_loop cfg fuel [] (c :: ch) = Err EFuel.
Proof.
  intros cfg ch B D A. induction fuel as [|fuel IH]; intros c BL; [reflexivity|]. cbn [wrap_loop].
  rewrite wrap_step_eq, short_line by auto. unfold drop_last. rewrite D. cbn [andb].
  assert (B1 : bl (firstn 1 c) = true) by (apply blank_is; intros x I; apply BL; destruct c; [contradiction|destruct I as [<-|[]]; now left]).
  rewrite B1. cbn [fst snd]. apply IH. intros x I. apply BL. destruct c; [contradiction|now right].
Qed.
Lemma no_room : forall cfg, w_blw cfg = true -> w_drop cfg = false -> w_max_lines cfg = None -> len (w_subs cfg) > w_width cfg ->
  forall fuel l rl c ch, wrap_loop cfg fuel (l :: rl) (c :: ch) = Err EFuel.
Proof.
  intros cfg B D M A. induction fuel as [|fuel IH]; intros l rl c ch; [reflexivity|]. cbn [wrap_loop].
  rewrite wrap_step_eq, short_line; [|auto|unfold avail, indent_of; lia|unfold drop_first; now rewrite D].
  unfold drop_last. rewrite D. cbn [andb fst snd]. rewrite M. apply IH.
Qed.
Lemma first_line : forall cfg c ch rcur4 cur4 chunks3, line_of cfg [] (c :: ch) = (rcur4, cur4, chunks3) ->
  w_blw cfg = true -> len (w_init cfg) + columns (c :: ch) > w_width cfg -> chunks3 <> [].
Proof.
  intros cfg c ch rcur4 cur4 chunks3 H B W. unfold line_of in H. change (drop_first cfg [] (c :: ch)) with (c :: ch) in H.
  destruct (fill (avail cfg []) 0 [] (c :: ch)) as [[rcur cur] chunks2] eqn:F.
  destruct (fill_spec _ _ _ _ _ _ _ F) as (taken & E2 & E3 & E4 & E5 & E6).
  assert (C2 : chunks2 <> []).
  { intros ->. rewrite app_nil_r in E2. subst taken. rewrite vsum_columns in E4. unfold avail, indent_of in *.
    destruct (Z_lt_ge_dec (w_width cfg - len (w_init cfg)) 0) as [L|L]; [|lia].
    cbn [fill] in F. pose proof (vlen_nonneg c). replace (0 + vlen c <=? w_width cfg - len (w_init cfg)) with false in F by (symmetry; lia). discriminate. }
  destruct chunks2 as [|c2 ch2]; [contradiction|]. unfold long_part in H. destruct (vlen c2 >? avail cfg []).
  - destruct (handle_long_cut cfg c2 ch2 rcur cur (avail cfg []) B) as (e & HE & _). rewrite HE in H. destruct (drop_last cfg _ _). injection H as <- <- <-. discriminate.
  - destruct (drop_last cfg _ _). injection H as <- <- <-. discriminate.
Qed.
Lemma caught_hangs : forall cfg ps, caught cfg ps -> forall fuel, wrap_loop cfg fuel [] ps = Err EFuel.
Proof.
  intros cfg ps (B & [(D & A & p & r & -> & BL)|(D & A & M & N & W)]) fuel.
  - apply blank_start; auto. unfold avail, indent_of. lia.
  - destruct ps as [|c ch]; [contradiction|]. destruct fuel as [|fuel]; [reflexivity|]. cbn [wrap_loop]. rewrite wrap_step_eq.
    destruct (line_of cfg [] (c :: ch)) as [[rcur4 cur4] chunks3] eqn:LO. pose proof (first_line _ _ _ _ _ _ LO B W) as C3.
    pose proof (line_of_nonempty _ _ _ _ _ _ _ D LO) as R4. destruct rcur4 as [|c4 r4]; [contradiction|]. cbv zeta. rewrite M.
    destruct chunks3 as [|c3 ch3]; [contradiction|]. apply no_room; auto.
Qed.

(** ** It ends *)
Lemma runs : forall cfg, w_drop cfg = true \/ len (w_subs cfg) <= w_width cfg ->
  forall fuel rl chunks, rl <> [] \/ len (w_init cfg) <= w_width cfg -> (weight chunks < fuel)%nat -> exists lines, wrap_loop cfg fuel rl chunks = Ok lines.
Proof.
  intros cfg HG. induction fuel as [|fuel IH]; intros rl chunks HR W; [lia|]. destruct chunks as [|c ch]; [cbn [wrap_loop]; eauto|]. cbn [wrap_loop].
  rewrite wrap_step_eq. destruct (line_of cfg rl (c :: ch)) as [[rcur4 cur4] chunks3] eqn:LO.
  assert (P : (weight chunks3 < weight (c :: ch))%nat).
  { destruct (line_of_stuck _ _ _ _ _ _ _ LO) as [P|(B & A & _ & D)]; auto. exfalso. unfold avail, indent_of in A.
    destruct rl as [|l rl]; [destruct HR as [HR|HR]; [contradiction|lia]|]. destruct HG as [HG|HG]; [specialize (D HG); discriminate|lia]. }
  destruct rcur4 as [|c4 r4]; cbv zeta; [apply IH; auto; lia|].
  destruct (match w_max_lines cfg with None => _ | Some _ => _ end); [apply IH; [left; discriminate|lia]|].
  destruct (trunc _ _ _ _ _); [eauto|]. destruct rl as [|last rl]; [eauto|]. destruct (_ <=? _); eauto.
Qed.
Lemma black_start : forall cfg, w_blw cfg = true -> w_drop cfg = true -> avail cfg [] < 0 ->
  forall c ch, ~ blank_piece c -> exists fuel lines, wrap_loop cfg fuel [] (c :: ch) = Ok lines.
Proof.
  intros cfg B D A. induction c as [|x c IH]; intros ch BL; [elim BL; intros y []|].
  assert (E : forall f, wrap_loop cfg (S f) [] ((x :: c) :: ch) = let '(rl', ch', stop) := wrap_step cfg [] ((x :: c) :: ch) in if stop then Ok (rev rl') else wrap_loop cfg f rl' ch') by reflexivity.
  remember (x :: c) as p eqn:EP. rewrite wrap_step_eq, short_line in E by auto. unfold drop_last in E. rewrite D in E. replace (firstn 1 p) with [x] in E by now subst. replace (skipn 1 p) with c in E by now subst.
  cbn [andb] in E. destruct (bl [x]) eqn:BX; cbn [fst snd] in E.
  - assert (BC : ~ blank_piece c). { intros C. apply BL. subst p. intros y [<-|I]; [apply blank_is in BX; apply BX; now left|auto]. }
    destruct (IH ch BC) as (fuel & lines & H). exists (S fuel), lines. now rewrite E.
  - exists (S (S (weight (c :: ch)))). rewrite E. cbv zeta. destruct (match w_max_lines cfg with None => _ | Some _ => _ end).
    + apply runs; auto. left. discriminate.
    + destruct (trunc _ _ _ _ _); eauto.
Qed.
Lemma free_returns : forall cfg ps, ~ rejected cfg -> Forall (fun c : str => c <> []) ps -> ~ caught cfg ps -> exists fuel lines, wrap_loop cfg fuel [] ps = Ok lines.
Proof.
  intros cfg ps R F NC. destruct ps as [|c ch]; [exists 0%nat, []; reflexivity|].
  destruct (w_blw cfg) eqn:B; [|exists (S (weight (c :: ch))); apply wrap_loop_terminates; auto].
  destruct (w_drop cfg) eqn:D.
  - destruct (Z_le_gt_dec (len (w_init cfg)) (w_width cfg)) as [L|L]; [exists (S (weight (c :: ch))); apply runs; auto|].
    apply black_start; auto; [unfold avail, indent_of; lia|]. intros BL. apply NC. split; auto. left. repeat split; auto. eauto.
  - inversion F as [|? ? CN F']; subst.
    assert (FS : exists fuel, wrap_loop cfg (S fuel) [] (c :: ch) = wrap_loop cfg (S fuel) [] (c :: ch) /\ (weight (c :: ch) <= fuel)%nat) by (exists (weight (c :: ch)); auto).
    destruct FS as (fuel & _ & FW). exists (S fuel). cbn [wrap_loop]. rewrite wrap_step_eq. destruct (line_of cfg [] (c :: ch)) as [[rcur4 cur4] chunks3] eqn:LO.
    pose proof (line_of_nonempty _ _ _ _ _ _ _ D LO) as R4. destruct rcur4 as [|c4 r4]; [contradiction|]. cbv zeta.
    assert (P : (weight chunks3 < weight (c :: ch))%nat) by (destruct (line_of_stuck _ _ _ _ _ _ _ LO) as [P|(_ & _ & C & _)]; auto; contradiction).
    set (ok := match w_max_lines cfg with None => true | Some _ => _ end). destruct ok eqn:OK.
    2:{ destruct (trunc _ _ _ _ _); eauto. }
    destruct (Z_le_gt_dec (len (w_subs cfg)) (w_width cfg)) as [L|L]; [apply runs; [auto|left; discriminate|lia]|].
    assert (C3 : chunks3 = []).
    { unfold ok in OK. destruct (w_max_lines cfg) as [m|] eqn:M.
      - assert (m <= 1).
        { destruct (Z_le_gt_dec m 1) as [|G]; auto. exfalso. apply R. right. exists m. split; auto. replace (m >? 1) with true by (symmetry; lia).
          pose proof (len_nonneg (lstrip (w_placeholder cfg))). lia. }
        apply orb_true_iff in OK as [OK|OK]; [change (Z.of_nat (length (@nil str))) with 0 in OK; lia|]. rewrite D in OK. destruct chunks3 as [|a [|b z]]; auto; discriminate.
      - assert (W : len (w_init cfg) + columns (c :: ch) <= w_width cfg).
        { destruct (Z_le_gt_dec (len (w_init cfg) + columns (c :: ch)) (w_width cfg)) as [|G]; auto. exfalso. apply NC. split; auto. right. repeat split; auto. discriminate. }
        clear OK ok. unfold line_of in LO. change (drop_first cfg [] (c :: ch)) with (c :: ch) in LO.
        destruct (fill (avail cfg []) 0 [] (c :: ch)) as [[rcur cur] chunks2] eqn:FI. destruct (fill_spec _ _ _ _ _ _ _ FI) as (taken & E2 & E3 & E4 & E5 & E6).
        assert (C2 : chunks2 = []).
        { destruct chunks2 as [|c2 ch2]; auto. exfalso. rewrite <- vsum_columns, E2, vsum_app, vsum_cons in W. pose proof (vsum_nonneg ch2). unfold avail, indent_of in *. lia. }
        subst chunks2. cbn [long_part] in LO. destruct (drop_last cfg rcur cur). injection LO as _ _ <-. reflexivity. }
    subst chunks3. destruct fuel; cbn [wrap_loop]; eauto.
Qed.

Theorem wrap_hangs : forall cfg text, wrap cfg text = Err EFuel <-> ~ refused cfg /\ exists qs, text_pieces cfg text qs /\ caught cfg qs.
Proof.
  intros cfg text. assert (PC : text_pieces cfg text (text_chunks cfg text)) by (destruct (proj2 (chunks_spec cfg text (text_chunks cfg text)) eq_refl) as (t & ps & T & CU & Q); exists t, ps; auto).
  assert (PU : forall qs, text_pieces cfg text qs -> qs = text_chunks cfg text) by (intros qs (t & ps & T & CU & Q); apply chunks_spec; exists t, ps; auto).
  split.
  - intros W. assert (R : ~ rejected cfg).
    { intros R. unfold wrap, wrap_chunks in W. rewrite wrap_chunks_rejected in W by exact R. discriminate. }
    split; [intros C; apply R; now apply refused_is|]. exists (text_chunks cfg text). split; auto.
    destruct (w_blw cfg) eqn:B.
    2:{ exfalso. destruct (wrap_loop_terminates cfg (or_introl B) (wrap_fuel (text_chunks cfg text)) [] (text_chunks cfg text)) as (lines & L); [rewrite wrap_fuel_weight; lia|].
        unfold wrap, wrap_chunks in W. rewrite wrap_chunks_accepted in W by exact R. congruence. }
    assert (DC : caught cfg (text_chunks cfg text) \/ ~ caught cfg (text_chunks cfg text)).
    { unfold caught. destruct (w_drop cfg) eqn:D.
      - destruct (Z_le_gt_dec (len (w_init cfg)) (w_width cfg)) as [L|L]; [right; intros (_ & [(_ & C & _)|(C & _)]); [lia|discriminate]|].
        destruct (text_chunks cfg text) as [|c ch]; [right; intros (_ & [(_ & _ & p & r & C & _)|(C & _)]); discriminate|].
        destruct (bl c) eqn:BC; [left; split; auto; left; repeat split; auto; exists c, ch; split; auto; now apply blank_is|].
        right. intros (_ & [(_ & _ & p & r & C & BP)|(C & _)]); [|discriminate]. injection C as <- <-. apply blank_is in BP. congruence.
      - destruct (Z_le_gt_dec (len (w_subs cfg)) (w_width cfg)) as [L|L]; [right; intros (_ & [(C & _)|(_ & C & _)]); [discriminate|lia]|].
        destruct (w_max_lines cfg) as [m|]; [right; intros (_ & [(C & _)|(_ & _ & C & _)]); discriminate|].
        destruct (text_chunks cfg text) as [|c ch]; [right; intros (_ & [(C & _)|(_ & _ & _ & C & _)]); [discriminate|contradiction]|].
        destruct (Z_le_gt_dec (len (w_init cfg) + columns (c :: ch)) (w_width cfg)) as [L2|L2]; [right; intros (_ & [(C & _)|(_ & _ & _ & _ & C)]); [discriminate|lia]|].
        left. split; auto. right. repeat split; auto. discriminate. }
    destruct DC as [DC|DC]; auto. exfalso. destruct (free_returns cfg _ R (text_chunks_full cfg text) DC) as (fuel & lines & L).
    rewrite <- (wrap_chunks_accepted cfg fuel) in L by exact R. apply wrap_budget_ok in L. congruence.
  - intros (NR & qs & P & C). apply PU in P. subst qs. assert (R : ~ rejected cfg) by (intros R; apply NR; now apply refused_is).
    unfold wrap, wrap_chunks. rewrite wrap_chunks_accepted by exact R. now apply caught_hangs.
Qed.
Theorem endless_iff : forall cfg text, endless cfg text <-> 0 < w_width cfg /\ room_for_limit cfg /\ exists qs, text_pieces cfg text qs /\ caught cfg qs.
Proof.
  intros cfg text. assert (E : endless cfg text <-> wrap cfg text = Err EFuel).
  { rewrite wrap_fails. split; [auto|]. intros [[C _]|[_ H]]; [discriminate|exact H]. }
  rewrite E, wrap_hangs. split.
  - intros (R & H). assert (NR : ~ rejected cfg) by (intros C; apply R; now apply refused_is). apply not_rejected in NR as [W RO]. auto.
  - intros (W & RO & H). split; auto. intros C. apply refused_is in C. revert C. apply not_rejected. auto.
Qed.
End H.
Close Scope Z_scope.
