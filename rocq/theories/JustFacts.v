(** Facts about justification (C25-C27). *)
From Verif Require Export WrapStop JustSpec.
Open Scope Z_scope.

Section L.
Context `{U : Uni}.
Notation bl := Textwrap.blank.

Lemma len_spaces : forall n, 0 <= n -> len (spaces n) = n.
Proof. intros. unfold len, spaces. rewrite repeat_length. lia. Qed.
Lemma join_interleave : forall k ws, join (spaces k) ws = interleave ws (repeat k (length ws - 1)).
Proof.
  induction ws as [|w [|x r] IH]; auto. rewrite join_cons2, IH.
  replace (length (w :: x :: r) - 1)%nat with (S (length (x :: r) - 1)) by (simpl; lia). reflexivity.
Qed.
Lemma interleave_app : forall gs1 ws1 g ws2 gs2, ws2 <> [] -> length ws1 = S (length gs1) ->
  interleave ws1 gs1 ++ spaces g ++ interleave ws2 gs2 = interleave (ws1 ++ ws2) (gs1 ++ g :: gs2).
Proof.
  induction gs1 as [|h gs1 IH]; intros ws1 g ws2 gs2 HN HL.
  - destruct ws1 as [|w [|y r]]; simpl in HL; try lia. reflexivity.
  - destruct ws1 as [|w r]; simpl in HL; [lia|]. cbn [interleave app].
    rewrite <- !app_assoc. rewrite IH by (auto; lia). reflexivity.
Qed.
Definition total (l : list Z) : Z := fold_right Z.add 0 l.
Lemma total_app : forall a b, total (a ++ b) = total a + total b.
Proof. induction a; simpl; intros; auto. rewrite IHa. lia. Qed.
Lemma total_repeat : forall k n, total (repeat k n) = k * Z.of_nat n.
Proof. induction n; [simpl; lia|]. cbn [repeat total fold_right]. fold (total (repeat k n)). rewrite IHn. lia. Qed.
Lemma len_interleave : forall ws gs, length ws = S (length gs) -> Forall (fun g => 0 <= g) gs ->
  len (interleave ws gs) = len (concat ws) + total gs.
Proof.
  induction ws as [|w r IH]; intros gs HL HG; [simpl in HL; lia|]. destruct gs as [|g gs].
  - destruct r; simpl in HL; [|lia]. simpl. rewrite app_nil_r. lia.
  - inversion HG; subst. cbn [interleave concat total fold_right]. rewrite !len_app, len_spaces, IH; auto.
    unfold total. lia.
Qed.
Lemma len_join1 : forall ws, ws <> [] -> len (join [32%N] ws) = len (concat ws) + Z.of_nat (length ws) - 1.
Proof.
  induction ws as [|w [|x r] IH]; intros; [congruence| |].
  - simpl. rewrite app_nil_r. lia.
  - rewrite join_cons2, !len_app, IH by discriminate. cbn [concat length]. rewrite !len_app.
    change (len [32%N]) with 1. lia.
Qed.

Lemma full_line_spec : forall width line, len line <= width ->
  (full_line width line = line /\ (len line = width \/ ~ has_gap line))
  \/ (len line < width /\ has_gap line /\ exists ws gs,
        strip line = join (lit " ") ws /\ Forall (fun w : str => ~ In 32%N w) ws
        /\ length ws = S (length gs) /\ even_gaps gs
        /\ full_line width line = spaces (len line - len (lstrip line)) ++ interleave ws gs
        /\ total gs = Z.of_nat (length gs) + (width - len line)).
Proof.
  intros width line HL. unfold full_line. cbv zeta.
  destruct (Z.eqb_spec (width - len line) 0) as [P|P]; [left; split; auto; left; lia|].
  change (rstrip (lstrip line)) with (strip line).
  set (words := split_on 32%N (strip line)).
  pose proof (join_split_on 32%N (strip line)) as J. fold words in J.
  pose proof (split_on_nochar 32%N (strip line)) as NC. fold words in NC.
  assert (WN : words <> []) by (destruct (split_on_cons 32%N (strip line)) as (l & ls & E); unfold words; rewrite E; discriminate).
  destruct (Z.eqb_spec (Z.of_nat (length words) - 1) 0) as [G|G].
  - left. split; auto. right. intros HG. unfold has_gap in HG. rewrite <- J in HG.
    destruct words as [|w [|x r]]; [congruence| |cbn [length] in G; lia]. simpl in HG. inversion NC; subst. auto.
  - right. split; [lia|].
    assert (L2 : (2 <= length words)%nat) by (destruct words as [|w [|x r]]; [congruence|exfalso; apply G; reflexivity|cbn [length]; lia]).
    split.
    { unfold has_gap. rewrite <- J. destruct words as [|w [|x r]]; [cbn [length] in L2; lia|cbn [length] in L2; lia|].
      rewrite join_cons2. apply in_or_app. right. left. reflexivity. }
    set (gaps := Z.of_nat (length words) - 1) in *. set (p := width - len line) in *.
    assert (GP : 0 < gaps) by lia. assert (PP : 0 < p) by lia.
    pose proof (Z.div_mod p gaps ltac:(lia)) as DM.
    pose proof (Z.mod_pos_bound p gaps GP) as MB.
    assert (NP : 0 <= p / gaps) by (apply Z.div_pos; lia).
    exists words. destruct (Z.eqb_spec (p mod gaps) 0) as [R|R].
    + exists (repeat (p / gaps + 1) (length words - 1)).
      assert (LG : length words = S (length (repeat (p / gaps + 1) (length words - 1)))) by (rewrite repeat_length; lia).
      split; [symmetry; exact J|]. split; [exact NC|]. split; [exact LG|]. split.
      { exists (p / gaps + 1), 0%nat, (length words - 1)%nat. split; [lia|]. reflexivity. }
      split; [now rewrite join_interleave|].
      rewrite total_repeat, repeat_length. unfold gaps in *. nia.
    + set (r := p mod gaps) in *. set (n := p / gaps) in *. set (k := Z.to_nat r).
      assert (K1 : (1 <= k < length words - 1)%nat) by lia.
      set (gs := repeat (n + 1 + 1) k ++ repeat (n + 1) (length words - 1 - k)).
      assert (LG : length words = S (length gs)) by (unfold gs; rewrite app_length, !repeat_length; lia).
      exists gs. split; [symmetry; exact J|]. split; [exact NC|]. split; [exact LG|]. split.
      { exists (n + 1), k, (length words - 1 - k)%nat. split; [lia|reflexivity]. }
      split.
      * f_equal. replace (n + 2) with (n + 1 + 1) by lia. rewrite !join_interleave.
        rewrite firstn_length, skipn_length. rewrite interleave_app.
        -- rewrite firstn_skipn. f_equal. unfold gs.
           assert (RK : repeat (n + 1 + 1) k = repeat (n + 1 + 1) (k - 1) ++ [n + 1 + 1]).
           { replace k with (k - 1 + 1)%nat at 1 by lia. now rewrite repeat_app. }
           rewrite RK, <- app_assoc. cbn [app].
           replace (Nat.min k (length words) - 1)%nat with (k - 1)%nat by lia.
           replace (length words - k - 1)%nat with (length words - 1 - k)%nat by lia. reflexivity.
        -- intros C. apply (f_equal (@length _)) in C. rewrite skipn_length in C. simpl in C. lia.
        -- rewrite firstn_length, repeat_length. lia.
      * unfold gs. rewrite total_app, !total_repeat, app_length, !repeat_length. unfold gaps in *. nia.
Qed.

Lemma even_nonneg : forall gs, even_gaps gs -> Forall (fun g => 1 <= g) gs.
Proof.
  intros gs (k & a & b & HK & ->). apply Forall_app. split; apply Forall_forall; intros x Hx; apply repeat_spec in Hx; lia.
Qed.

Lemma rstrip_lstrip_len : forall line, len line = len (lstrip line) + (len line - len (lstrip line)).
Proof. intros. lia. Qed.
Lemma rstrip_id_lstrip : forall line, rstrip line = line -> strip line = lstrip line.
Proof.
  intros line H. unfold strip. destruct (lstrip_spec line) as (a & E & HA & _).
  destruct (rstrip_spec line) as (b & _ & _ & [N|(x & c & E2 & HC)]).
  - rewrite H in N. subst. reflexivity.
  - rewrite H in E2. destruct (lstrip line) as [|y t] eqn:EL; auto.
    assert (exists x', y :: t = x' ++ [c]).
    { rewrite E2 in E. assert (NE : y :: t <> []) by discriminate.
      destruct (exists_last NE) as (x' & d & ED). rewrite ED in E. rewrite app_assoc in E.
      apply app_inj_tail in E as [_ ->]. exists x'. exact ED. }
    destruct H0 as [x' ->]. now apply rstrip_app_nonspace.
Qed.
Lemma lstrip_len_le : forall line, len (lstrip line) <= len line.
Proof.
  intros. destruct (lstrip_spec line) as (a & E & _). rewrite E at 2. rewrite len_app.
  unfold len at 2. lia.
Qed.
Lemma full_line_width : forall width line, len line <= width -> len line = width \/ rstrip line = line ->
  has_gap line -> len (full_line width line) = width.
Proof.
  intros width line HL HR HG. destruct (full_line_spec width line HL) as [[E [C|C]]|(L & _ & ws & gs & J & NC & LW & EG & E & T)].
  - rewrite E. auto.
  - tauto.
  - rewrite E, len_app, len_spaces by (pose proof (lstrip_len_le line); lia).
    apply even_nonneg in EG.
    rewrite len_interleave; auto; [|eapply Forall_impl; [|exact EG]; intros; simpl in *; lia].
    destruct HR as [HR|HR]; [lia|]. rewrite (rstrip_id_lstrip _ HR) in J.
    assert (JL : len (lstrip line) = len (concat ws) + Z.of_nat (length ws) - 1).
    { rewrite J. apply len_join1. destruct ws; [simpl in LW; lia|discriminate]. }
    lia.
Qed.

Lemma full_lines_abl : forall (R : str -> str -> Prop) width lines, (forall l, In l lines -> R l (full_line width l)) ->
  all_but_last R lines (full_lines width lines).
Proof.
  induction lines as [|l [|x r] IH]; intros H; try constructor; auto.
  - apply H. now left.
  - discriminate.
  - apply IH. intros y Hy. apply H. now right.
Qed.

(** ** Wrapped lines are full or end in a word *)
Lemma set_width_same : forall cfg w, w_width (set_width cfg w) = w. Proof. reflexivity. Qed.

Definition solid (c : str) : Prop := all_space c = true \/ (forall x, In x c -> is_space x = false).
Fixpoint noadj (l : list str) : Prop :=
  match l with
  | a :: ((b :: _) as t) => (bl a = false \/ bl b = false) /\ noadj t
  | _ => True
  end.
Lemma noadj_tl : forall a l, noadj (a :: l) -> noadj l.
Proof. intros a [|b l] H; [exact I|apply H]. Qed.
Lemma noadj_app_r : forall a b, noadj (a ++ b) -> noadj b.
Proof. induction a as [|x a IH]; intros b H; auto. apply IH. now apply noadj_tl with x. Qed.
Lemma noadj_mid : forall a x y b, noadj (a ++ x :: y :: b) -> bl x = false \/ bl y = false.
Proof. intros. apply noadj_app_r in H. apply H. Qed.

Definition ends_word (s : str) : Prop := exists x c, s = x ++ [c] /\ is_space c = false.
Lemma solid_ends : forall c, solid c -> bl c = false -> ends_word c.
Proof.
  intros c [H|H] B.
  - apply blank_all_space in H. congruence.
  - assert (N : c <> []) by (intros ->; discriminate).
    destruct (exists_last N) as (x & d & ->). exists x, d. split; auto. apply H. apply in_or_app. right. now left.
Qed.
Lemma ends_rstrip : forall s, ends_word s -> rstrip s = s.
Proof. intros s (x & c & -> & H). now apply rstrip_app_nonspace. Qed.
Lemma ends_app : forall a b, ends_word b -> ends_word (a ++ b).
Proof. intros a b (x & c & -> & H). exists (a ++ x), c. now rewrite app_assoc. Qed.
Lemma solid_slices : forall e c, solid c -> solid (slice_to e c) /\ solid (slice_from e c).
Proof.
  intros e c [H|H].
  - rewrite <- (slice_app e c), all_space_app in H. apply andb_true_iff in H as [H1 H2]. split; left; auto.
  - split; right; intros x Hx; apply H; rewrite <- (slice_app e c); apply in_or_app; auto.
Qed.

Definition wend (cfg : wcfg) (l : list str) : Prop := Forall solid l /\ noadj l.

Lemma line_of_ends : forall cfg rl chunks c4 r4 cur4 chunks3,
  w_drop cfg = true -> w_blw cfg = true -> 1 <= avail cfg rl -> wend cfg chunks ->
  line_of cfg rl chunks = (c4 :: r4, cur4, chunks3) ->
  wend cfg chunks3 /\ (vsum (c4 :: r4) = avail cfg rl \/ ends_word (concat (rev (c4 :: r4)))).
Proof.
  intros cfg rl chunks c4 r4 cur4 chunks3 D B HA [HS HN] H.
  assert (LAST : forall c r, solid c -> bl c = false -> ends_word (concat (rev (c :: r)))).
  { intros c r S1 S2. cbn [rev]. rewrite concat_app. apply ends_app. simpl. rewrite app_nil_r. now apply solid_ends. }
  unfold line_of in H.
  destruct (drop_first_spec cfg rl chunks) as (pre & E1 & D1).
  destruct (fill (avail cfg rl) 0 [] (drop_first cfg rl chunks)) as [[rcur cur] chunks2] eqn:F.
  destruct (fill_spec _ _ _ _ _ _ _ F) as (taken & E2 & E3 & E4 & E5 & E6).
  rewrite app_nil_r in E3. simpl in E4. specialize (E5 ltac:(lia)).
  rewrite E1, E2 in HS, HN. apply Forall_app in HS as [_ HS]. apply noadj_app_r in HN.
  pose proof HS as HS0. apply Forall_app in HS0 as [HS1 HS2].
  pose proof (noadj_app_r _ _ HN) as HN2.
  destruct (long_part cfg (avail cfg rl) rcur cur chunks2) as [[ch3 rcur3] cur3] eqn:LP.
  destruct (drop_last cfg rcur3 cur3) as [r4' c4'] eqn:DL. injection H as -> -> ->.
  (* no cut *)
  assert (NC : rcur3 = rcur -> vsum (c4 :: r4) = avail cfg rl \/ ends_word (concat (rev (c4 :: r4)))).
  { intros ->. right. unfold drop_last in DL. destruct rcur as [|c rc]; [discriminate|]. rewrite D in DL. cbn [andb] in DL.
    assert (TK : taken = rev rc ++ [c]) by (rewrite <- (rev_involutive taken), <- E3; reflexivity).
    rewrite TK in HS1. apply Forall_app in HS1 as [S1 S2]. inversion S2; subst.
    destruct (bl c) eqn:BC; injection DL as -> <-.
    - cbn [rev] in HN. rewrite <- !app_assoc in HN. cbn [app] in HN.
      apply noadj_mid in HN as [HN|HN]; [|congruence]. apply LAST; auto.
      cbn [rev] in S1. apply Forall_app in S1 as [_ S1]. now inversion S1.
    - apply LAST; auto. }
  unfold long_part in LP. destruct chunks2 as [|c2 ch2].
  - injection LP as <- <- <-. split; [split; auto|]. now apply NC.
  - destruct (vlen c2 >? avail cfg rl) eqn:LG.
    + destruct (handle_long_cut cfg c2 ch2 rcur cur (avail cfg rl) B) as (e & HE & He1 & He2).
      rewrite HE in LP. injection LP as <- <- <-.
      inversion HS2 as [|? ? SC2 SCH]; subst.
      destruct (solid_slices e c2 SC2) as [SA SB].
      assert (W3 : wend cfg (slice_from e c2 :: ch2)).
      { split; [constructor; auto|]. destruct ch2 as [|c5 ch2]; [exact I|]. cbn [noadj] in HN2 |- *.
        destruct HN2 as [[HN2|HN2] HN3]; split; auto. left.
        (* c2 is a word: so is what is left of it, unless nothing is left *)
        destruct SC2 as [S|S]; [apply blank_all_space in S; congruence|].
        destruct (bl (slice_from e c2)) eqn:BS; auto. apply blank_all_space in BS.
        exfalso. assert (SL : 0 < len (slice_from e c2)).
        { rewrite len_slice_from. pose proof (vlen_le_len c2). destruct (avail cfg rl <? 1) eqn:AV; [lia|].
          pose proof (vsum_nonneg taken). lia. }
        destruct (slice_from e c2) as [|x t] eqn:ES; [unfold len in SL; simpl in SL; lia|].
        simpl in BS. apply andb_true_iff in BS as [BS _]. rewrite S in BS; [discriminate|].
        rewrite <- (slice_app e c2), ES. apply in_or_app. right. now left. }
      split; [exact W3|]. unfold drop_last in DL. rewrite D in DL. cbn [andb] in DL.
      destruct (bl (slice_to e c2)) eqn:BS.
      * injection DL as DL _.
        destruct (Z_le_gt_dec (avail cfg rl - vsum taken) 0) as [Z|Z].
        -- left. rewrite <- DL, vsum_rev. lia.
        -- right. assert (1 <= e) by (apply He2; destruct (avail cfg rl <? 1) eqn:AV; lia).
           assert (BC2 : bl c2 = true).
           { destruct SC2 as [S|S]; [now apply blank_all_space|]. exfalso.
             assert (0 < len (slice_to e c2)) by (rewrite len_slice_to; pose proof (vlen_le_len c2); lia).
             apply blank_all_space in BS. destruct (slice_to e c2) as [|x t] eqn:ES; [unfold len in *; simpl in *; lia|].
             simpl in BS. apply andb_true_iff in BS as [BS _]. rewrite S in BS; [discriminate|].
             rewrite <- (slice_app e c2), ES. apply in_or_app. left. now left. }
           assert (TK : taken = rev r4 ++ [c4]) by (rewrite <- (rev_involutive taken), DL; reflexivity).
           rewrite TK in HN, HS1. rewrite <- app_assoc in HN. cbn [app] in HN.
           apply noadj_mid in HN as [HN|HN]; [|congruence]. apply LAST; auto.
           apply Forall_app in HS1 as [_ S1]. now inversion S1.
      * injection DL as <- <- _. right. apply LAST; auto.
    + injection LP as <- <- <-. split; [split; auto|]. now apply NC.
Qed.

Lemma wrap_loop_ends : forall cfg, w_max_lines cfg = None -> w_drop cfg = true -> w_blw cfg = true ->
  len (w_init cfg) < w_width cfg -> len (w_subs cfg) < w_width cfg ->
  no_esc (w_init cfg) -> no_esc (w_subs cfg) ->
  let good := fun l : str => len l = w_width cfg \/ ends_word l in
  forall fuel rl chunks lines, Forall good rl -> wend cfg chunks -> Forall no_esc chunks ->
  wrap_loop cfg fuel rl chunks = Ok lines -> Forall good lines.
Proof.
  intros cfg HM D B LI LS NI NS good. induction fuel as [|fuel IH]; intros rl chunks lines HG HW HE H.
  - destruct chunks; simpl in H; inversion H. now apply Forall_rev.
  - destruct chunks as [|c ch]; [simpl in H; inversion H; now apply Forall_rev|].
    cbn [wrap_loop] in H. rewrite wrap_step_eq in H.
    destruct (line_of cfg rl (c :: ch)) as [[rcur4 cur4] chunks3] eqn:LO.
    assert (HA : 1 <= avail cfg rl) by (unfold avail, indent_of; destruct rl; lia).
    destruct (line_of_spec _ _ _ _ _ _ LO) as (pre & post & E & _ & _ & _).
    assert (NE : no_esc (concat (c :: ch))).
    { intros C. apply in_concat in C as (x & X1 & X2). rewrite Forall_forall in HE. exact (HE x X1 X2). }
    rewrite E in NE.
    assert (NE3 : Forall no_esc chunks3).
    { apply Forall_forall. intros x Hx C. apply NE. rewrite !in_app_iff. right. right. right.
      apply in_concat. eauto. }
    destruct rcur4 as [|c4 r4].
    + assert (W3 : wend cfg chunks3).
      { (* the suffix argument *)
        destruct HW as [HS HN]. unfold line_of in LO.
        destruct (drop_first_spec cfg rl (c :: ch)) as (pre' & E1 & D1).
        destruct (fill (avail cfg rl) 0 [] (drop_first cfg rl (c :: ch))) as [[rcur cur] chunks2] eqn:F.
        destruct (fill_spec _ _ _ _ _ _ _ F) as (taken & E2 & E3 & E4 & E5 & E6).
        rewrite app_nil_r in E3. simpl in E4. specialize (E5 ltac:(lia)).
        rewrite E1, E2 in HS, HN. apply Forall_app in HS as [_ HS]. apply noadj_app_r in HN.
        apply Forall_app in HS as [HS1 HS2]. pose proof (noadj_app_r _ _ HN) as HN2.
        destruct (long_part cfg (avail cfg rl) rcur cur chunks2) as [[ch3 rcur3] cur3] eqn:LP.
        destruct (drop_last cfg rcur3 cur3) as [r4' c4'] eqn:DL. injection LO as -> -> ->.
        unfold long_part in LP. destruct chunks2 as [|c2 ch2]; [injection LP as <- <- <-; split; auto|].
        destruct (vlen c2 >? avail cfg rl) eqn:LG; [|injection LP as <- <- <-; split; auto].
        destruct (handle_long_cut cfg c2 ch2 rcur cur (avail cfg rl) B) as (e & HE' & He1 & He2).
        rewrite HE' in LP. injection LP as <- <- <-.
        unfold drop_last in DL. rewrite D in DL. cbn [andb] in DL.
        destruct (bl (slice_to e c2)) eqn:BS; [|discriminate].
        inversion HS2 as [|? ? SC2 SCH]; subst. destruct (solid_slices e c2 SC2) as [SA SB].
        split; [constructor; auto|]. destruct ch2 as [|c5 ch2]; [exact I|]. cbn [noadj] in HN2 |- *.
        destruct HN2 as [[HN2|HN2] HN3]; split; auto. exfalso.
        injection DL as DL _. assert (taken = []) by (apply (f_equal (@rev _)) in DL; rewrite rev_involutive in DL; auto). subst taken.
        change (vsum []) with 0 in *.
        assert (1 <= e) by (apply He2; destruct (avail cfg rl <? 1) eqn:AV; lia).
        destruct SC2 as [S|S]; [apply blank_all_space in S; congruence|].
        assert (0 < len (slice_to e c2)) by (rewrite len_slice_to; pose proof (vlen_le_len c2); lia).
        apply blank_all_space in BS. destruct (slice_to e c2) as [|x t] eqn:ES; [unfold len in *; simpl in *; lia|].
        simpl in BS. apply andb_true_iff in BS as [BS _]. rewrite S in BS; [discriminate|].
        rewrite <- (slice_app e c2), ES. apply in_or_app. left. now left. }
      eapply IH; eauto.
    + destruct (line_of_ends _ _ _ _ _ _ _ D B HA HW LO) as [W3 G].
      cbv zeta in H. rewrite HM in H. cbn iota in H. eapply IH; [| | |exact H]; auto.
      constructor; auto. destruct G as [G|G].
      * left. rewrite len_app.
        assert (V : len (concat (rev (c4 :: r4))) = vsum (c4 :: r4)).
        { rewrite <- (vsum_rev (c4 :: r4)).
          assert (NE4 : Forall no_esc (rev (c4 :: r4))).
          { apply Forall_forall. intros x Hx C. apply NE. rewrite !in_app_iff. right. left. apply in_concat. eauto. }
          clear - NE4. induction (rev (c4 :: r4)) as [|x l IH]; auto. inversion NE4; subst.
          cbn [concat]. rewrite len_app, vsum_cons, IH, (vlen_no_esc x) by auto. lia. }
        rewrite V, G. unfold avail. lia.
      * right. now apply ends_app.
Qed.

(** ** The chunks of a text whose white space is ASCII *)
Definition proper (cl : str -> str -> nat) : Prop := forall pre c r,
  if tw_space c then cl pre (c :: r) = run_len tw_space (c :: r)
  else (1 <= cl pre (c :: r) <= run_len (fun x => negb (tw_space x)) (c :: r))%nat.
Lemma word_len_bound : forall s pre, match s with c :: _ => tw_space c = false | [] => True end -> s <> [] ->
  (1 <= word_len pre s <= run_len (fun x => negb (tw_space x)) s)%nat.
Proof.
  induction s as [|c r IH]; intros pre HS HN; [congruence|]. cbn [word_len run_len]. rewrite HS. cbn [negb].
  destruct (hyphen_break (c :: pre) r) eqn:HB.
  - destruct r as [|h r]; [discriminate|]. unfold hyphen_break in HB.
    destruct (N.eqb_spec h hyphen) as [-> |]; [|discriminate]. cbn [run_len]. change (tw_space hyphen) with false. cbn [negb]. lia.
  - destruct r as [|d r]; [simpl; lia|]. destruct (tw_space d) eqn:ED.
    + cbn [run_len]. rewrite ED. simpl. lia.
    + destruct (wpunct c && Nat.ltb 0 (emdash (d :: r))); [lia|].
      specialize (IH (c :: pre) eq_refl ltac:(discriminate)). lia.
Qed.
Lemma hyphens_run : forall s, (hyphens s <= run_len (fun x => negb (tw_space x)) s)%nat.
Proof.
  induction s as [|c s IH]; auto. cbn [hyphens run_len]. destruct (N.eqb_spec c hyphen) as [-> |]; [|lia].
  change (tw_space hyphen) with false. cbn [negb]. lia.
Qed.
Lemma proper_chunk : proper chunk_len.
Proof.
  intros pre c r. unfold chunk_len. destruct (tw_space c) eqn:E; auto.
  destruct (match pre with [] => false | p :: _ => wpunct p end && Nat.ltb 0 (emdash (c :: r))) eqn:EM.
  - apply andb_true_iff in EM as [_ EM]. apply Nat.ltb_lt in EM. split; [lia|].
    pose proof (hyphens_run (c :: r)). unfold emdash in *. cbv zeta in *.
    destruct (Nat.leb 2 (hyphens (c :: r))); [|lia]. destruct (skipn (hyphens (c :: r)) (c :: r)); [lia|].
    destruct (is_word n); lia.
  - apply word_len_bound; auto. discriminate.
Qed.
Lemma proper_simple : proper chunk_len_simple.
Proof.
  intros pre c r. unfold chunk_len_simple. destruct (tw_space c) eqn:E; auto. split; [|lia].
  cbn [run_len]. rewrite E. simpl. lia.
Qed.
Lemma run_len_firstn : forall p s n, (n <= run_len p s)%nat -> forallb p (firstn n s) = true.
Proof.
  induction s as [|c s IH]; intros n H; [now rewrite firstn_nil|].
  destruct n; auto. cbn [run_len] in H. cbn [firstn forallb]. destruct (p c); [|lia]. simpl. apply IH. lia.
Qed.
Lemma run_len_next : forall p s, match skipn (run_len p s) s with c :: _ => p c = false | [] => True end.
Proof. induction s as [|c s IH]; simpl; auto. destruct (p c) eqn:E; simpl; auto. Qed.
Lemma run_len_le : forall p s, (run_len p s <= length s)%nat.
Proof. induction s as [|c s IH]; simpl; auto. destruct (p c); lia. Qed.

Definition kind (c : str) : Prop := c <> [] /\ (forallb tw_space c = true \/ forallb (fun x => negb (tw_space x)) c = true).
Fixpoint alt (l : list str) : Prop :=
  match l with
  | a :: ((b :: _) as t) => (forallb tw_space a = false \/ forallb tw_space b = false) /\ alt t
  | _ => True
  end.
Lemma split_kinds : forall cl, proper cl -> forall n s pre, (length s <= n)%nat ->
  Forall kind (split_go cl 0 pre s) /\ alt (split_go cl 0 pre s)
  /\ match s, split_go cl 0 pre s with
     | c :: _, l :: _ => forallb tw_space l = tw_space c
     | _, _ => True
     end.
Proof.
  intros cl HP. induction n; intros s pre HL.
  - destruct s; [|simpl in HL; lia]. simpl. auto.
  - destruct s as [|c r]; [simpl; auto|].
    pose proof (HP pre c r) as HC.
    set (k := cl pre (c :: r)) in *.
    assert (K : (1 <= k <= length (c :: r))%nat).
    { destruct (tw_space c) eqn:E.
      - rewrite HC. pose proof (run_len_le tw_space (c :: r)). cbn [run_len] in *. rewrite E in *. lia.
      - pose proof (run_len_le (fun x => negb (tw_space x)) (c :: r)). lia. }
    pose proof (firstn_skipn k (c :: r)) as FS.
    set (a := firstn k (c :: r)) in *. set (b := skipn k (c :: r)) in *.
    assert (LA : length a = k) by (unfold a; rewrite firstn_length; lia).
    assert (AN : a <> []) by (intros C; rewrite C in LA; simpl in LA; lia).
    assert (AC : exists a', a = c :: a') by (unfold a; destruct k; [lia|]; cbn [firstn]; eauto).
    destruct AC as [a' AC].
    assert (SP : split_go cl 0 pre (c :: r) = a :: split_go cl 0 (rev a ++ pre) b).
    { rewrite <- FS. assert (EK : cl pre (a ++ b) = length a) by (rewrite FS, LA; reflexivity).
      clear - AN EK. destruct a as [|x a]; [congruence|].
      assert (T : forall a k pre b, length a = S k -> split_go cl (S k) pre (a ++ b) = a :: split_go cl 0 (rev a ++ pre) b).
      { induction a0 as [|x0 a0 IH]; simpl; intros k0 pre0 b0 H; [lia|].
        destruct a0 as [|y a0]; simpl in H.
        - inversion H; subst. reflexivity.
        - destruct k0 as [|k0]; [lia|]. rewrite (IH k0 (x0 :: pre0) b0) by (simpl; lia). rewrite <- app_assoc. reflexivity. }
      rewrite <- (T (x :: a) (length a) pre b) by reflexivity. cbn [app] in *. cbn [split_go]. rewrite EK. reflexivity. }
    rewrite SP.
    destruct (IHn b (rev a ++ pre)) as (I1 & I2 & I3).
    { unfold b. rewrite skipn_length. cbn [length] in *. lia. }
    assert (KA : forallb tw_space a = tw_space c /\ kind a).
    { destruct (tw_space c) eqn:E.
      - assert (FA : forallb tw_space a = true) by (unfold a; apply run_len_firstn; lia).
        split; auto. split; auto.
      - assert (FA : forallb (fun x => negb (tw_space x)) a = true) by (unfold a; apply run_len_firstn; lia).
        split; [|split; auto]. rewrite AC. simpl. now rewrite E. }
    destruct KA as [KA1 KA2]. split; [constructor; auto|]. split; auto.
    assert (RN : tw_space c = true -> match b with y :: _ => tw_space y = false | [] => True end).
    { intros E. rewrite E in HC. unfold b. rewrite HC. apply run_len_next. }
    clear HC SP FS. clearbody b. 
    destruct b as [|y b']; [simpl; auto|].
    destruct (split_go cl 0 (rev a ++ pre) (y :: b')) as [|d t] eqn:SB; [exact I|]. cbn [alt]. split; auto.
    rewrite I3, KA1. destruct (tw_space c) eqn:E; [right; auto|left; auto].
Qed.

Lemma blank_kind : forall c, kind c -> (forall x, In x c -> is_space x = true -> tw_space x = true) ->
  solid c /\ bl c = forallb tw_space c.
Proof.
  intros c [CN [K|K]] H.
  - rewrite K. assert (S : all_space c = true).
    { apply forallb_forall. intros x Hx. apply tw_space_is_space. rewrite forallb_forall in K. auto. }
    split; [left; auto|]. now apply blank_all_space.
  - assert (S : forall x, In x c -> is_space x = false).
    { intros x Hx. rewrite forallb_forall in K. specialize (K x Hx). destruct (is_space x) eqn:E; auto.
      rewrite H in K; auto. }
    split; [right; auto|]. destruct c as [|x c]; [congruence|].
    assert (B : bl (x :: c) = false).
    { destruct (bl (x :: c)) eqn:B; auto. apply blank_all_space in B. simpl in B. rewrite S in B by (left; auto). discriminate. }
    rewrite B. simpl in *. destruct (tw_space x); [discriminate|reflexivity].
Qed.

Lemma rel_wend : forall cfg l m, Forall2 (fun a b => a = b \/ (a = lit " " /\ b = lit "  ")) l m -> wend cfg l -> wend cfg m.
Proof.
  intros cfg l m H [HS HN]. split.
  - clear HN. induction H; auto. inversion HS; subst. constructor; auto. destruct H as [<- |[_ ->]]; auto. left. reflexivity.
  - clear HS. induction H as [|a b l m H HF IH]; auto. specialize (IH (noadj_tl _ _ HN)).
    inversion HF as [|a2 b2 l2 m2 H' HF']; subst; [exact I|]. cbn [noadj] in *. split; auto.
    destruct HN as [[HN|HN] _].
    + left. destruct H as [<- |[-> _]]; auto. discriminate.
    + right. destruct H' as [<- |[-> _]]; auto. discriminate.
Qed.
Lemma fix_se_rel' : forall n l, (length l <= n)%nat ->
  Forall2 (fun a b => a = b \/ (a = lit " " /\ b = lit "  ")) l (fix_se l).
Proof.
  induction n; intros l L.
  - destruct l; [constructor|simpl in L; lia].
  - destruct l as [|a [|b r]]; try (repeat constructor; auto; fail). 
    cbn [fix_se]. simpl length in L. destruct (seqb b (lit " ") && sent_end a) eqn:E.
    + apply andb_true_iff in E as [E _]. apply seqb_eq in E. constructor; auto. constructor; auto.
      apply IHn. lia.
    + constructor; auto. apply (IHn (b :: r)). simpl. lia.
Qed.

Definition ascii_space (s : str) : Prop := forall x, In x s -> is_space x = true -> tw_space x = true.
Lemma text_chunks_wend : forall cfg s, ascii_space s -> wend cfg (text_chunks cfg s).
Proof.
  intros cfg s HA. unfold text_chunks, split_chunks. cbv zeta.
  set (l := split_go _ 0 [] (munge cfg s)).
  assert (W : wend cfg l).
  { assert (HP : proper (if w_boh_true cfg then chunk_len else chunk_len_simple))
      by (destruct (w_boh_true cfg); [apply proper_chunk|apply proper_simple]).
    destruct (split_kinds _ HP (length (munge cfg s)) (munge cfg s) [] (le_n _)) as (K & A & _). fold l in K, A.
    assert (CH : forall c, In c l -> forall x, In x c -> is_space x = true -> tw_space x = true).
    { intros c Hc x Hx. pose proof (munge_chars (fun y => is_space y = true -> tw_space y = true) cfg s) as M.
      assert (F : Forall (fun y => is_space y = true -> tw_space y = true) (munge cfg s)).
      { apply M; [reflexivity|]. apply Forall_forall. exact HA. }
      rewrite Forall_forall in F. apply F. rewrite <- (split_go_concat (if w_boh_true cfg then chunk_len else chunk_len_simple) (munge cfg s) 0 []).
      apply in_concat. exists c. auto. }
    assert (BK : Forall (fun c : str => solid c /\ bl c = forallb tw_space c) l).
    { apply Forall_forall. intros c Hc. rewrite Forall_forall in K. apply blank_kind; auto. apply CH; auto. }
    split.
    - eapply Forall_impl; [|exact BK]. intros a [H _]. exact H.
    - clear - A BK. induction l as [|a l IH]; auto. destruct l as [|b l]; [exact I|].
      inversion BK as [|? ? [_ B1] BK']; subst. inversion BK' as [|? ? [_ B2] _]; subst.
      destruct A as [A1 A2]. split; [now rewrite B1, B2|]. apply IH; auto. }
  destruct (w_fixse cfg); auto. eapply rel_wend; [|exact W]. eapply fix_se_rel'; eauto.
Qed.

Lemma plain_len : forall cfg text lines, w_max_lines cfg = None ->
  w_blw cfg = true -> len (w_init cfg) < w_width cfg -> len (w_subs cfg) < w_width cfg ->
  no_esc text -> no_esc (w_init cfg) -> no_esc (w_subs cfg) ->
  wrap cfg text = Ok lines -> forall l, In l lines -> len l <= w_width cfg.
Proof.
  intros cfg text lines M B HI HS N1 N2 N3 H l Hl. rewrite <- (vlen_no_esc l).
  - pose proof (wrap_chunks_width cfg _ _ B HI HS H) as W. rewrite Forall_forall in W. exact (W l Hl).
  - apply wrap_Ok_accepted in H as [_ H].
    assert (F : Forall (Forall (fun c : N => c <> 27%N)) lines).
    { eapply wrap_loop_chars; [..|exact H]; try (now apply no_esc_Forall); auto.
      - congruence.
      - apply text_chunks_chars; [discriminate|now apply no_esc_Forall]. }
    rewrite Forall_forall in F. apply no_esc_Forall. auto.
Qed.
Lemma wrap_ends : forall cfg text lines, w_max_lines cfg = None -> w_drop cfg = true ->
  w_blw cfg = true -> len (w_init cfg) < w_width cfg -> len (w_subs cfg) < w_width cfg ->
  no_esc text -> no_esc (w_init cfg) -> no_esc (w_subs cfg) -> ascii_space text ->
  wrap cfg text = Ok lines -> forall l, In l lines -> len l = w_width cfg \/ rstrip l = l.
Proof.
  intros cfg text lines M D B HI HS N1 N2 N3 A H l Hl. apply wrap_Ok_accepted in H as [_ H].
  assert (F : Forall (fun l : str => len l = w_width cfg \/ ends_word l) lines).
  { eapply (wrap_loop_ends cfg M D B HI HS N2 N3); [constructor| | |exact H].
    - now apply text_chunks_wend.
    - pose proof (text_chunks_chars (fun c => c <> 27%N) cfg text ltac:(discriminate) ltac:(now apply no_esc_Forall)) as C.
      apply Forall_forall. intros c Hc. apply no_esc_Forall. rewrite Forall_forall in C |- *.
      intros x Hx. apply C. apply in_concat. eauto. }
  rewrite Forall_forall in F. destruct (F l Hl); auto. right. now apply ends_rstrip.
Qed.
Lemma split_ws_spaces : forall g s, split_ws (spaces g ++ s) = split_ws s.
Proof.
  intros. apply split_ws_app_all_l. unfold spaces. induction (Z.to_nat g); auto.
Qed.
Lemma split_ws_interleave : forall ws gs, length ws = S (length gs) -> Forall (fun g => 1 <= g) gs ->
  split_ws (interleave ws gs) = flat_map split_ws ws.
Proof.
  induction ws as [|w r IH]; intros gs L G; [simpl in L; lia|]. destruct gs as [|g gs].
  - destruct r; [|simpl in L; lia]. simpl. now rewrite app_nil_r.
  - inversion G; subst. cbn [interleave flat_map]. rewrite <- (IH gs) by (auto; simpl in L; lia).
    replace (spaces g) with (32%N :: spaces (g - 1)).
    + cbn [app]. rewrite split_ws_app_space by reflexivity. now rewrite split_ws_spaces.
    + unfold spaces. replace (Z.to_nat g) with (S (Z.to_nat (g - 1))) by lia. reflexivity.
Qed.
Lemma full_line_words : forall width line, len line <= width -> split_ws (full_line width line) = split_ws line.
Proof.
  intros width line HL. destruct (full_line_spec width line HL) as [[E _]|(_ & _ & ws & gs & J & _ & LW & EG & E & _)].
  - now rewrite E.
  - rewrite E, split_ws_spaces, split_ws_interleave by (auto; now apply even_nonneg).
    rewrite <- split_ws_join, <- J. apply split_ws_strip.
Qed.
Lemma all_but_last_length : forall R l l', all_but_last R l l' -> length l' = length l.
Proof. induction 1; simpl; auto. Qed.
End L.
