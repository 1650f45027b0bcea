(** The iteration budget of the model is exact: when it runs out the loop never
    stops (C23). *)
From Verif Require Export WrapWidth.
Open Scope Z_scope.

Section L.
Context `{U : Uni}.
Notation bl := Textwrap.blank.

Lemma line_of_stuck : forall cfg rl c ch rcur4 cur4 chunks3,
  line_of cfg rl (c :: ch) = (rcur4, cur4, chunks3) ->
  (weight chunks3 < weight (c :: ch))%nat
  \/ (w_blw cfg = true /\ avail cfg rl < 0 /\ c = [] /\ (w_drop cfg = true -> rl = [])).
Proof.
  intros cfg rl c ch rcur4 cur4 chunks3 H.
  destruct (w_blw cfg) eqn:B; [|left; eapply line_of_progress; eauto].
  destruct (Z_lt_ge_dec (avail cfg rl) 0) as [A|A]; [|left; eapply line_of_progress; eauto; lia].
  assert (CN : c = [] \/ c <> []) by (destruct c; [left|right]; congruence).
  destruct CN as [-> |CN].
  - destruct (w_drop cfg) eqn:D; [|right; repeat split; auto; congruence].
    destruct rl as [|l rl]; [right; auto|]. left.
    unfold line_of in H. cbn [drop_first] in H. rewrite D in H. cbn in H.
    destruct ch as [|c2 ch].
    + cbn in H. inversion H. simpl. lia.
    + destruct (fill (avail cfg (l :: rl)) 0 [] (c2 :: ch)) as [[rcur cur] chunks2] eqn:F.
      destruct (fill_spec _ _ _ _ _ _ _ F) as (taken & E2 & E3 & E4 & E5 & E6).
      destruct (long_part cfg (avail cfg (l :: rl)) rcur cur chunks2) as [[ch3 rcur3] cur3] eqn:LP.
      destruct (drop_last cfg rcur3 cur3) as [r4 c4]. injection H as -> -> ->.
      rewrite E2. change (weight ([] :: taken ++ chunks2)) with (S (weight (taken ++ chunks2))). rewrite weight_app.
      assert (weight chunks3 <= weight chunks2)%nat; [|lia].
      unfold long_part in LP. destruct chunks2 as [|c3 ch3]; [injection LP as <- <- <-; auto|].
      destruct (vlen c3 >? avail cfg (l :: rl)); [|injection LP as <- <- <-; auto].
      destruct (handle_long_cut cfg c3 ch3 rcur cur (avail cfg (l :: rl)) B) as (e & HE & _).
      rewrite HE in LP. injection LP as <- <- <-. simpl. unfold slice_from. rewrite skipn_length. lia.
  - left. unfold line_of in H.
    destruct (drop_first_spec cfg rl (c :: ch)) as (pre & E1 & D1).
    destruct (fill (avail cfg rl) 0 [] (drop_first cfg rl (c :: ch))) as [[rcur cur] chunks2] eqn:F.
    destruct (fill_spec _ _ _ _ _ _ _ F) as (taken & E2 & E3 & E4 & E5 & E6).
    destruct (long_part cfg (avail cfg rl) rcur cur chunks2) as [[ch3 rcur3] cur3] eqn:LP.
    destruct (drop_last cfg rcur3 cur3) as [r4 c4]. injection H as -> -> ->.
    assert (W : weight (c :: ch) = (weight pre + weight taken + weight chunks2)%nat).
    { rewrite E1, E2, !weight_app. lia. }
    assert (WL : (weight chunks3 <= weight chunks2)%nat /\
      (pre = [] -> taken = [] -> weight chunks3 < weight chunks2)%nat).
    { unfold long_part in LP. destruct chunks2 as [|c3 ch3].
      - injection LP as <- <- <-. split; auto. intros -> ->. cbn [app] in *. rewrite E2 in E1. discriminate.
      - destruct (vlen c3 >? avail cfg rl) eqn:V.
        + destruct (handle_long_cut cfg c3 ch3 rcur cur (avail cfg rl) B) as (e & HE & He1 & He2).
          rewrite HE in LP. injection LP as <- <- <-. simpl weight. unfold slice_from. rewrite skipn_length.
          split; [lia|]. intros -> ->. cbn [app] in *. rewrite E2 in E1. injection E1 as <- <-.
          replace (avail cfg rl <? 1) with true in He2 by (symmetry; lia). specialize (He2 (Z.le_refl 1)). destruct c; [congruence|]. cbn [length]. lia.
        + pose proof (vlen_nonneg c3). lia. }
    destruct WL as [WL1 WL2].
    destruct pre as [|p pre]; [|simpl in *; lia]. destruct taken as [|t tk]; [|simpl in *; lia].
    specialize (WL2 eq_refl eq_refl). lia.
Qed.

Lemma stuck_line : forall cfg rl ch, w_blw cfg = true -> avail cfg rl < 0 -> (w_drop cfg = true -> rl = []) ->
  line_of cfg rl ([] :: ch) = (if w_drop cfg then [] else [[]], 0, [] :: ch).
Proof.
  intros cfg rl ch B A D. unfold line_of.
  replace (drop_first cfg rl ([] :: ch)) with (([] : str) :: ch).
  2:{ unfold drop_first. destruct rl; auto. destruct (w_drop cfg); auto. specialize (D eq_refl). discriminate. }
  cbn [fill]. change (vlen []) with 0. replace (0 + 0 <=? avail cfg rl) with false by (symmetry; lia).
  unfold long_part. change (vlen []) with 0. replace (0 >? avail cfg rl) with true by (symmetry; lia).
  destruct (handle_long_cut cfg [] ch [] 0 (avail cfg rl) B) as (e & HE & _). rewrite HE.
  unfold slice_from, slice_to. rewrite skipn_nil, firstn_nil. unfold drop_last.
  destruct (w_drop cfg); reflexivity.
Qed.

Definition inv (cfg : wcfg) (rl chunks : list str) : Prop :=
  (w_drop cfg = false -> rl = [] -> Forall (fun c : str => c <> []) chunks)
  /\ match w_max_lines cfg with
     | Some m => m <= 1 -> rl = [] \/ spent cfg chunks
     | None => True
     end.

Lemma stuck_forever : forall cfg ch, ~ rejected cfg -> w_blw cfg = true ->
  forall fuel rl, avail cfg rl < 0 -> (w_drop cfg = true -> rl = []) -> inv cfg rl ([] :: ch) ->
  wrap_loop cfg fuel rl ([] :: ch) = Err EFuel.
Proof.
  intros cfg ch HR B. induction fuel as [|fuel IH]; intros rl A D [I1 I2]; auto.
  cbn [wrap_loop]. rewrite wrap_step_eq, stuck_line by auto.
  destruct (w_drop cfg) eqn:DR.
  - apply IH; auto. split; auto. intros; congruence.
  - cbv zeta.
    assert (RN : rl <> []).
    { intros ->. specialize (I1 eq_refl eq_refl). inversion I1. congruence. }
    assert (HM : w_max_lines cfg = None).
    { destruct (w_max_lines cfg) as [m|] eqn:M; auto. exfalso. destruct (Z_le_gt_dec m 1) as [L|L].
      - destruct (I2 L) as [C|[C|(c & _ & C & _)]]; congruence.
      - apply HR. right. exists m. split; auto. replace (m >? 1) with true by (symmetry; lia).
        unfold avail, indent_of in A. destruct rl; [congruence|]. pose proof (len_nonneg (lstrip (w_placeholder cfg))). lia. }
    rewrite HM. apply IH.
    + unfold avail, indent_of in *. destruct rl; [congruence|]. exact A.
    + congruence.
    + split; [intros _ C; discriminate|]. rewrite HM. exact I.
Qed.

Lemma line_of_nonempty : forall cfg rl c ch rcur4 cur4 chunks3, w_drop cfg = false ->
  line_of cfg rl (c :: ch) = (rcur4, cur4, chunks3) -> rcur4 <> [].
Proof.
  intros cfg rl c ch rcur4 cur4 chunks3 D H. unfold line_of in H.
  replace (drop_first cfg rl (c :: ch)) with (c :: ch) in H
    by (unfold drop_first; rewrite D; destruct rl; reflexivity).
  cbn [fill] in H. destruct (0 + vlen c <=? avail cfg rl) eqn:L.
  - destruct (fill (avail cfg rl) (0 + vlen c) [c] ch) as [[rcur cur] chunks2] eqn:F.
    destruct (fill_spec _ _ _ _ _ _ _ F) as (taken & E2 & E3 & _).
    destruct (long_part cfg (avail cfg rl) rcur cur chunks2) as [[ch3 rcur3] cur3] eqn:LP.
    assert (RN : rcur <> []) by (rewrite E3; destruct (rev taken); discriminate).
    assert (R3 : rcur3 <> []).
    { unfold long_part in LP. destruct chunks2 as [|c2 ch2]; [injection LP as <- <- <-; auto|].
      destruct (vlen c2 >? avail cfg rl); [|injection LP as <- <- <-; auto].
      unfold handle_long_word in LP. destruct (w_blw cfg); [injection LP as <- <- <-; discriminate|].
      destruct rcur; [congruence|]. injection LP as <- <- <-. discriminate. }
    unfold drop_last in H. rewrite D in H. destruct rcur3; [congruence|]. inversion H; subst. discriminate.
  - unfold long_part in H. replace (vlen c >? avail cfg rl) with true in H by (symmetry; lia).
    unfold handle_long_word in H. destruct (w_blw cfg); unfold drop_last in H; rewrite D in H;
      cbn [andb] in H; injection H as <- <- <-; discriminate.
Qed.

Lemma budget_exact : forall cfg, ~ rejected cfg ->
  forall fuel rl chunks, (weight chunks < fuel)%nat -> inv cfg rl chunks ->
  wrap_loop cfg fuel rl chunks = Err EFuel -> forall f', wrap_loop cfg f' rl chunks = Err EFuel.
Proof.
  intros cfg HR. induction fuel as [|fuel IH]; intros rl chunks HW HI H f'; [lia|].
  destruct chunks as [|c ch]; [discriminate|].
  destruct (line_of cfg rl (c :: ch)) as [[rcur4 cur4] chunks3] eqn:LO.
  destruct (line_of_stuck _ _ _ _ _ _ _ LO) as [DEC|(B & A & -> & D)].
  2:{ now apply stuck_forever. }
  destruct f' as [|f']; auto.
  cbn [wrap_loop] in *. rewrite wrap_step_eq, LO in *.
  assert (NS : rcur4 <> [] -> rl <> [] -> forall m, w_max_lines cfg = Some m -> 1 < m).
  { intros N1 N2 m HM. destruct HI as [_ HI]. rewrite HM in HI. destruct (Z_le_gt_dec m 1); [|lia].
    destruct (HI l) as [C|C]; [congruence|]. destruct rl; [congruence|].
    rewrite (spent_line cfg s rl (c :: ch) C) in LO. inversion LO. congruence. }
  destruct rcur4 as [|c4 r4]; cbv zeta in *.
  - apply IH; auto; [lia|]. destruct HI as [I1 I2]. split.
    + intros D. exfalso. now apply (line_of_nonempty cfg rl c ch _ _ _ D LO).
    + destruct (w_max_lines cfg) as [m|]; auto. intros L. destruct (I2 L) as [C|C]; auto. destruct rl; auto.
      rewrite (spent_line cfg s rl (c :: ch) C) in LO. inversion LO. right. left. reflexivity.
  - specialize (NS ltac:(discriminate)).
    set (ok := match w_max_lines cfg with None => true | Some _ => _ end) in *.
    destruct ok eqn:OK.
    + apply IH; auto; [lia|]. split; [intros _ C; discriminate|].
      destruct (w_max_lines cfg) as [m|] eqn:HM; auto. intros L. right.
      destruct rl as [|l rl]; [|specialize (NS ltac:(discriminate) m eq_refl); lia].
      unfold ok in OK. apply orb_true_iff in OK as [OK|OK]; [change (Z.of_nat (length (@nil str))) with 0 in OK; lia|].
      apply andb_true_iff in OK as [OK _]. destruct chunks3 as [|x [|y z]].
      * left. auto.
      * right. apply andb_true_iff in OK as [O1 O2]. eauto.
      * discriminate.
    + destruct (trunc _ _ _ _ _); [discriminate|]. destruct rl as [|last rl]; [discriminate|].
      destruct (vlen (rstrip last) + len (w_placeholder cfg) <=? w_width cfg); discriminate.
Qed.

Lemma fix_se_full : forall n l, (length l <= n)%nat -> Forall (fun c : str => c <> []) l -> Forall (fun c : str => c <> []) (fix_se l).
Proof.
  induction n; intros l L H.
  - destruct l; [constructor|simpl in L; lia].
  - destruct l as [|a [|b r]]; auto. cbn [fix_se]. simpl length in L. inversion H as [|? ? H1 H2]; subst.
    destruct (seqb b (lit " ") && sent_end a).
    + inversion H2; subst. constructor; auto. constructor; [discriminate|]. apply IHn; auto. lia.
    + constructor; auto. apply (IHn (b :: r)); auto. simpl. lia.
Qed.
Lemma text_chunks_full : forall cfg s, Forall (fun c : str => c <> []) (text_chunks cfg s).
Proof.
  intros. unfold text_chunks. cbv zeta. destruct (w_fixse cfg).
  - eapply fix_se_full; eauto. apply split_go_nonempty.
  - apply split_go_nonempty.
Qed.

Lemma wrap_budget : forall cfg text, wrap cfg text = Err EFuel ->
  forall fuel, wrap_chunks_fuel fuel cfg (text_chunks cfg text) = Err EFuel.
Proof.
  intros cfg text H fuel. unfold wrap, wrap_chunks in H. rewrite wrap_fuel_weight in H.
  destruct (rejected_dec cfg) as [R|R].
  - rewrite wrap_chunks_rejected in H by auto. discriminate.
  - rewrite wrap_chunks_accepted in * by auto. eapply budget_exact; [auto| |split|exact H].
    + lia. + intros _ _. apply text_chunks_full. + destruct (w_max_lines cfg); auto.
Qed.
Lemma wrap_loop_err : forall cfg f rl chunks e, wrap_loop cfg f rl chunks = Err e -> e = EFuel.
Proof.
  induction f as [|f IH]; intros rl [|c ch] e H; cbn [wrap_loop] in H; try congruence.
  destruct (wrap_step cfg rl (c :: ch)) as [[rl' ch'] []]; [congruence|eauto].
Qed.
Lemma wrap_budget_ok : forall cfg text lines fuel, wrap_chunks_fuel fuel cfg (text_chunks cfg text) = Ok lines ->
  wrap cfg text = Ok lines.
Proof.
  intros cfg text lines fuel H. destruct (wrap cfg text) as [l|e] eqn:W.
  - unfold wrap, wrap_chunks in W. apply wrap_Ok_accepted in W as [R W]. apply wrap_Ok_accepted in H as [_ H].
    set (f := Nat.max fuel (wrap_fuel (text_chunks cfg text))).
    apply (wrap_loop_mono _ _ _ _ _) with (f' := f) in W; [|lia].
    apply (wrap_loop_mono _ _ _ _ _) with (f' := f) in H; [|lia]. congruence.
  - assert (E : e = EFuel).
    { unfold wrap, wrap_chunks in W. apply wrap_Ok_accepted in H as [R H].
      rewrite wrap_chunks_accepted in W by auto. eapply wrap_loop_err; eauto. }
    subst. rewrite (wrap_budget _ _ W) in H. discriminate.
Qed.
End L.
