(** Facts about the width of wrapped lines (C21). *)
From Verif Require Export WrapLoop.
Open Scope Z_scope.

Section L.
Context `{U : Uni}.
Notation bl := Textwrap.blank.

Lemma Ok_inv : forall A (a b : A), Ok a = Ok b -> b = a.
Proof. congruence. Qed.
Lemma line_of_width : forall cfg rl chunks rcur4 cur4 chunks3,
  w_blw cfg = true -> 1 <= avail cfg rl ->
  line_of cfg rl chunks = (rcur4, cur4, chunks3) -> vsum rcur4 <= avail cfg rl.
Proof.
  intros cfg rl chunks rcur4 cur4 chunks3 B HA H. unfold line_of in H.
  destruct (fill (avail cfg rl) 0 [] (drop_first cfg rl chunks)) as [[rcur cur] chunks2] eqn:F.
  destruct (fill_spec _ _ _ _ _ _ _ F) as (taken & E2 & E3 & E4 & E5 & E6).
  rewrite app_nil_r in E3. simpl in E4. specialize (E5 ltac:(lia)).
  destruct (long_part cfg (avail cfg rl) rcur cur chunks2) as [[ch3 rcur3] cur3] eqn:LP.
  destruct (drop_last cfg rcur3 cur3) as [r4 c4] eqn:DL. inversion H; subst r4 c4 ch3; clear H.
  destruct (drop_last_spec _ _ _ _ _ DL) as (post & E7 & _ & _).
  assert (E8 : vsum rcur = cur) by (rewrite E3, vsum_rev; lia).
  assert (vsum rcur3 <= avail cfg rl).
  { unfold long_part in LP. destruct chunks2 as [|c2 ch2]; [injection LP as <- <- <-; lia|].
    destruct (vlen c2 >? avail cfg rl).
    - destruct (handle_long_cut cfg c2 ch2 rcur cur (avail cfg rl) B) as (e & HE & He1 & He2).
      rewrite HE in LP. injection LP as <- <- <-. rewrite vsum_cons.
      pose proof (vlen_le_len (slice_to e c2)). rewrite len_slice_to in H.
      destruct (avail cfg rl <? 1) eqn:A; lia.
    - injection LP as <- <- <-. lia. }
  rewrite E7, vsum_app in H. pose proof (vsum_nonneg post). lia.
Qed.

Lemma trunc_spec : forall rcur cfg indent width cur l, trunc cfg indent width cur rcur = Some l ->
  cur = vsum rcur -> exists rc, l = indent ++ concat (rev rc) ++ w_placeholder cfg
    /\ vsum rc + len (w_placeholder cfg) <= width /\ exists x, rcur = x ++ rc.
Proof.
  induction rcur as [|c rc IH]; simpl; intros cfg indent width cur l H E; [discriminate|].
  rewrite vsum_cons in E.
  destruct (negb (bl c) && (cur + len (w_placeholder cfg) <=? width)) eqn:C.
  - inversion H. exists (c :: rc). rewrite vsum_cons. split; [|split].
    + f_equal. cbn [rev]. rewrite !concat_app. cbn [concat]. rewrite !app_nil_r. reflexivity.
    + apply andb_true_iff in C as [_ C]. lia.
    + exists []. reflexivity.
  - apply IH in H; [|lia]. destruct H as (rc' & H1 & H2 & x & H3). exists rc'. repeat split; auto.
    exists (c :: x). simpl. now rewrite H3.
Qed.

Lemma len_app : forall a b : str, len (a ++ b) = len a + len b.
Proof. intros. unfold len. rewrite app_length. lia. Qed.
Lemma len_nonneg : forall s : str, 0 <= len s.
Proof. intros. unfold len. lia. Qed.

Lemma line_width : forall cfg rl rc, vsum rc <= avail cfg rl ->
  vlen (indent_of cfg rl ++ concat (rev rc)) <= w_width cfg.
Proof.
  intros. pose proof (vlen_app_le (indent_of cfg rl) (concat (rev rc))).
  pose proof (vlen_concat_le (rev rc)). rewrite vsum_rev in H1.
  pose proof (vlen_le_len (indent_of cfg rl)). unfold avail in H. lia.
Qed.

(** When the last line has been taken only white space is left. *)
Definition spent (cfg : wcfg) (chunks : list str) : Prop :=
  chunks = [] \/ exists c, chunks = [c] /\ w_drop cfg = true /\ bl c = true.
Definition wst (cfg : wcfg) (rl chunks : list str) : Prop :=
  Forall (fun l : str => vlen l <= w_width cfg) rl
  /\ match w_max_lines cfg with
     | Some m => m <= 1 -> rl = [] \/ spent cfg chunks
     | None => True
     end.

Lemma spent_line : forall cfg l rl chunks, spent cfg chunks -> line_of cfg (l :: rl) chunks = ([], 0, []).
Proof.
  intros cfg l rl chunks H. unfold line_of.
  replace (drop_first cfg (l :: rl) chunks) with (@nil str).
  - reflexivity.
  - destruct H as [-> |(c & -> & D & B)]; auto. simpl. now rewrite D, B.
Qed.

Lemma wrap_loop_width : forall cfg, ~ rejected cfg -> w_blw cfg = true ->
  len (w_init cfg) < w_width cfg -> len (w_subs cfg) < w_width cfg ->
  forall fuel rl chunks lines, wst cfg rl chunks -> wrap_loop cfg fuel rl chunks = Ok lines ->
  Forall (fun l : str => vlen l <= w_width cfg) lines.
Proof.
  intros cfg HR B HI HS. induction fuel as [|fuel IH]; intros rl chunks lines HW H.
  - destruct chunks; simpl in H; inversion H. apply Forall_rev. apply HW.
  - destruct chunks as [|c ch]; [simpl in H; inversion H; apply Forall_rev, HW|].
    cbn [wrap_loop] in H. rewrite wrap_step_eq in H.
    destruct (line_of cfg rl (c :: ch)) as [[rcur4 cur4] chunks3] eqn:LO.
    assert (HA : 1 <= avail cfg rl) by (unfold avail, indent_of; destruct rl; lia).
    pose proof (line_of_width _ _ _ _ _ _ B HA LO) as W4.
    destruct (line_of_spec _ _ _ _ _ _ LO) as (_ & _ & _ & _ & _ & E4).
    destruct HW as [HW1 HW2].
    assert (NS : rcur4 <> [] -> rl <> [] -> forall m, w_max_lines cfg = Some m -> 1 < m).
    { intros N1 N2 m HM. rewrite HM in HW2. destruct (Z_le_gt_dec m 1); [|lia].
      destruct (HW2 l) as [C|C]; [congruence|]. destruct rl; [congruence|].
      rewrite (spent_line cfg s rl (c :: ch) C) in LO. inversion LO. congruence. }
    destruct rcur4 as [|c4 r4]; cbv zeta in H.
    + apply (IH _ _ _) in H; auto. split; auto. destruct (w_max_lines cfg) as [m|]; auto. intros L.
      destruct (HW2 L) as [C|C]; auto. destruct rl; auto.
      rewrite (spent_line cfg s rl (c :: ch) C) in LO. inversion LO. right. left. reflexivity.
    + specialize (NS ltac:(discriminate)).
      set (ok := match w_max_lines cfg with None => true | Some _ => _ end) in H.
      destruct ok eqn:OK; cbn iota in H.
      * apply (IH _ _ _) in H; auto. split.
        -- constructor; auto. now apply line_width.
        -- destruct (w_max_lines cfg) as [m|] eqn:HM; auto. intros L. right.
           destruct rl as [|l rl]; [|specialize (NS ltac:(discriminate) m eq_refl); lia].
           unfold ok in OK. apply orb_true_iff in OK as [OK|OK]; [change (Z.of_nat (length (@nil str))) with 0 in OK; lia|].
           apply andb_true_iff in OK as [OK _]. destruct chunks3 as [|x [|y z]].
           ++ left. auto.
           ++ right. apply andb_true_iff in OK as [O1 O2]. eauto.
           ++ discriminate.
      * assert (PH : vlen (indent_of cfg rl ++ lstrip (w_placeholder cfg)) <= w_width cfg).
        { pose proof (vlen_le_len (indent_of cfg rl ++ lstrip (w_placeholder cfg))) as V.
          rewrite len_app in V. unfold ok in OK. destruct (w_max_lines cfg) as [m|] eqn:HM; [|discriminate].
          destruct (Z_gt_le_dec (len (if m >? 1 then w_subs cfg else w_init cfg) + len (lstrip (w_placeholder cfg))) (w_width cfg)) as [G|G].
          - exfalso. apply HR. right. eauto.
          - assert (E : indent_of cfg rl = if m >? 1 then w_subs cfg else w_init cfg).
            { destruct rl as [|l rl].
              - apply orb_false_iff in OK as [OK _]. change (Z.of_nat (length (@nil str))) with 0 in OK. destruct (m >? 1) eqn:M1; auto. lia.
              - specialize (NS ltac:(discriminate) m eq_refl). replace (m >? 1) with true by (symmetry; lia). reflexivity. }
            rewrite <- E in G. lia. }
        destruct (trunc cfg (indent_of cfg rl) (avail cfg rl) cur4 (c4 :: r4)) as [l|] eqn:T.
        -- apply Ok_inv in H; subst lines. apply Forall_rev. constructor; auto.
           destruct (trunc_spec _ _ _ _ _ _ T E4) as (rc & -> & V & _).
           pose proof (vlen_app_le (indent_of cfg rl) (concat (rev rc) ++ w_placeholder cfg)).
           pose proof (vlen_app_le (concat (rev rc)) (w_placeholder cfg)).
           pose proof (vlen_concat_le (rev rc)) as V2. rewrite vsum_rev in V2.
           pose proof (vlen_le_len (indent_of cfg rl)). pose proof (vlen_le_len (w_placeholder cfg)).
           unfold avail in V. lia.
        -- destruct rl as [|last rl].
           ++ apply Ok_inv in H; subst lines. apply Forall_rev. constructor; auto.
           ++ destruct (vlen (rstrip last) + len (w_placeholder cfg) <=? w_width cfg) eqn:V.
              ** apply Ok_inv in H; subst lines. apply Forall_rev. inversion HW1; subst. constructor; auto.
                 pose proof (vlen_app_le (rstrip last) (w_placeholder cfg)).
                 pose proof (vlen_le_len (w_placeholder cfg)). lia.
              ** apply Ok_inv in H; subst lines. apply Forall_rev. constructor; auto.
Qed.

Lemma wrap_chunks_width : forall cfg chunks lines, w_blw cfg = true ->
  len (w_init cfg) < w_width cfg -> len (w_subs cfg) < w_width cfg ->
  wrap_chunks cfg chunks = Ok lines ->
  Forall (fun l : str => vlen l <= w_width cfg) lines.
Proof.
  intros cfg chunks lines B HI HS H. apply wrap_Ok_accepted in H as [HR H].
  eapply wrap_loop_width; eauto. split; auto. destruct (w_max_lines cfg); auto.
Qed.

(** ** Where the characters of the lines come from *)
Section Chars.
Context (P : N -> Prop).
Notation Pall := (Forall P).
Lemma Pall_app : forall a b, Pall (a ++ b) <-> Pall a /\ Pall b.
Proof. intros. apply Forall_app. Qed.
Lemma Pall_concat_rev : forall l, Forall Pall l -> Pall (concat (rev l)).
Proof. intros. rewrite Forall_concat. now apply Forall_rev. Qed.
Lemma Pall_concat : forall l, Pall (concat l) <-> Forall Pall l.
Proof. intros. apply Forall_concat. Qed.
Lemma Pall_In : forall s t, Pall s -> (forall x, In x t -> In x s) -> Pall t.
Proof. intros s t H I. rewrite Forall_forall in *. auto. Qed.

Lemma wrap_loop_chars : forall cfg,
  Pall (w_init cfg) -> Pall (w_subs cfg) ->
  (w_max_lines cfg <> None -> Pall (w_placeholder cfg)) ->
  forall fuel rl chunks lines, Forall Pall rl -> Pall (concat chunks) ->
  wrap_loop cfg fuel rl chunks = Ok lines -> Forall Pall lines.
Proof.
  intros cfg PI PS PP. induction fuel as [|fuel IH]; intros rl chunks lines HR HC H.
  - destruct chunks; simpl in H; inversion H. now apply Forall_rev.
  - destruct chunks as [|c ch]; [simpl in H; inversion H; now apply Forall_rev|].
    cbn [wrap_loop] in H. rewrite wrap_step_eq in H.
    destruct (line_of cfg rl (c :: ch)) as [[rcur4 cur4] chunks3] eqn:LO.
    destruct (line_of_spec _ _ _ _ _ _ LO) as (pre & post & E & _ & _ & E4).
    rewrite E in HC. rewrite !Pall_app in HC. destruct HC as (_ & HC1 & _ & HC3).
    assert (HIn : Pall (indent_of cfg rl)) by (unfold indent_of; destruct rl; auto).
    destruct rcur4 as [|c4 r4]; cbv zeta in H; [eapply IH; eauto|].
    set (ok := match w_max_lines cfg with None => true | Some _ => _ end) in H.
    destruct ok eqn:OK.
    + eapply IH; [| |exact H]; auto. constructor; auto. apply Pall_app. auto.
    + assert (PP' : Pall (w_placeholder cfg)) by (apply PP; unfold ok in OK; destruct (w_max_lines cfg); congruence).
      assert (PL : Pall (lstrip (w_placeholder cfg))) by (eapply Pall_In; [exact PP'|apply lstrip_In]).
      destruct (trunc cfg (indent_of cfg rl) (avail cfg rl) cur4 (c4 :: r4)) as [l|] eqn:T.
      * apply Ok_inv in H; subst lines. apply Forall_rev. constructor; auto.
        destruct (trunc_spec _ _ _ _ _ _ T E4) as (rc & -> & _ & x & EX).
        rewrite !Pall_app. repeat split; auto.
        rewrite EX, rev_app_distr, concat_app, Pall_app in HC1. apply HC1.
      * destruct rl as [|last rl].
        -- apply Ok_inv in H; subst lines. apply Forall_rev. constructor; auto. apply Pall_app. auto.
        -- destruct (vlen (rstrip last) + len (w_placeholder cfg) <=? w_width cfg).
           ++ apply Ok_inv in H; subst lines. apply Forall_rev. inversion HR; subst. constructor; auto. apply Pall_app. split; auto.
              eapply Pall_In; [eassumption|apply rstrip_In].
           ++ apply Ok_inv in H; subst lines. apply Forall_rev. constructor; auto. apply Pall_app. auto.
Qed.

Lemma expandtabs_chars : forall t s col, P 32%N -> Pall s -> Pall (expandtabs_from t col s).
Proof.
  induction s as [|c s IH]; simpl; intros col HP H; auto. inversion H; subst.
  repeat match goal with |- context[if ?b then _ else _] => destruct b end;
    try (apply Pall_app; split); auto; try (constructor; auto).
  apply Forall_forall. intros x Hx. unfold spaces in Hx. apply repeat_spec in Hx. subst. auto.
Qed.
Lemma munge_chars : forall cfg s, P 32%N -> Pall s -> Pall (munge cfg s).
Proof.
  intros cfg s HP H. unfold munge.
  assert (H1 : Pall (if w_expand cfg then expandtabs (w_tabsize cfg) s else s))
    by (destruct (w_expand cfg); auto; apply expandtabs_chars; auto).
  destruct (w_replace cfg); auto. apply Forall_map. eapply Forall_impl; [|exact H1].
  intros a Ha. simpl. destruct (tw_space a); auto.
Qed.
Lemma fix_se_chars : forall n l, (length l <= n)%nat -> P 32%N -> Pall (concat l) -> Pall (concat (fix_se l)).
Proof.
  induction n; intros l L HP H.
  - destruct l; simpl in *; auto; lia.
  - destruct l as [|a [|b r]]; auto. cbn [fix_se]. simpl length in L.
    cbn [concat] in H. rewrite !Pall_app in H. destruct H as (H1 & H2 & H3).
    destruct (seqb b (lit " ") && sent_end a).
    + cbn [concat]. rewrite !Pall_app. repeat split; auto.
      * repeat constructor; auto.
      * apply IHn; auto. lia.
    + cbn [concat]. apply Pall_app. split; auto. apply (IHn (b :: r)); auto; [simpl; lia|].
      cbn [concat]. apply Pall_app. auto.
Qed.
Lemma text_chunks_chars : forall cfg s, P 32%N -> Pall s -> Pall (concat (text_chunks cfg s)).
Proof.
  intros cfg s HP H. unfold text_chunks, split_chunks. cbv zeta.
  assert (H1 : Pall (concat (split_go (if w_boh_true cfg then chunk_len else chunk_len_simple) 0 [] (munge cfg s))))
    by (rewrite split_go_concat; now apply munge_chars).
  destruct (w_fixse cfg); auto. eapply fix_se_chars; eauto.
Qed.
End Chars.

Lemma no_esc_Forall : forall s, no_esc s <-> Forall (fun c : N => c <> 27%N) s.
Proof.
  intros. unfold no_esc. rewrite Forall_forall. split.
  - intros H x Hx ->. auto.
  - intros H Hx. exact (H _ Hx eq_refl).
Qed.
End L.
