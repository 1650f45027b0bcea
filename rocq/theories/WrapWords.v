(** Facts about words in wrapped text (C24, C28). *)
From Verif Require Export WrapWidth.
Open Scope Z_scope.

Section L.
Context `{U : Uni}.
Notation bl := Textwrap.blank.

(** ** Tokens *)
Fixpoint toks (p : N -> bool) (cur s : str) : list str :=
  match s with
  | [] => match cur with [] => [] | _ => [rev cur] end
  | c :: r => if p c then match cur with [] => toks p [] r | _ => rev cur :: toks p [] r end
              else toks p (c :: cur) r
  end.
Lemma toks_split_ws : forall s, split_ws s = toks is_space [] s.
Proof.
  intros. unfold split_ws. generalize (@nil N). induction s as [|c s IH]; simpl; intros; auto.
  rewrite !IH. reflexivity.
Qed.
Lemma toks_pieces : forall s, pieces s = toks tw_space [] s.
Proof.
  intros. unfold pieces. generalize (@nil N). induction s as [|c s IH]; simpl; intros; auto.
  rewrite !IH. reflexivity.
Qed.

(** Texts that differ only in their ASCII white space. *)
Inductive wseq : str -> str -> Prop :=
| wseq_nil : wseq [] []
| wseq_same : forall c s t, wseq s t -> wseq (c :: s) (c :: t)
| wseq_sp : forall c s b t, tw_space c = true -> b <> [] -> forallb tw_space b = true ->
    wseq s t -> wseq (c :: s) (b ++ t).
Lemma wseq_refl : forall s, wseq s s.
Proof. induction s; constructor; auto. Qed.
Lemma toks_sp_app : forall p b t, forallb p b = true -> toks p [] (b ++ t) = toks p [] t.
Proof.
  induction b as [|c b IH]; simpl; intros t H; auto. apply andb_true_iff in H as [H1 H2].
  rewrite H1. auto.
Qed.
Lemma wseq_toks : forall p, (forall c, tw_space c = true -> p c = true) ->
  forall s t, wseq s t -> forall cur, toks p cur s = toks p cur t.
Proof.
  intros p HP s t H. induction H as [|c s t H IH|c s b t HC HB HF H IH]; intros cur; auto.
  - simpl. rewrite !IH. reflexivity.
  - destruct b as [|d b]; [congruence|]. simpl in HF. apply andb_true_iff in HF as [H1 H2].
    simpl. rewrite (HP _ HC), (HP _ H1). 
    assert (E : toks p [] (b ++ t) = toks p [] t).
    { apply toks_sp_app. apply forallb_forall. intros x Hx. apply HP. eapply forallb_forall in H2; eauto. }
    rewrite !E, !IH. reflexivity.
Qed.
Lemma wseq_trans_map : forall s, wseq s (map (fun c => if tw_space c then 32%N else c) s).
Proof.
  induction s as [|c s IH]; simpl; [constructor|]. destruct (tw_space c) eqn:E.
  - apply (wseq_sp c s [32%N]); auto. discriminate.
  - now constructor.
Qed.
Lemma forallb_repeat : forall A (p : A -> bool) c n, p c = true -> forallb p (repeat c n) = true.
Proof. induction n; simpl; intros; auto. rewrite H. auto. Qed.
Lemma wseq_expand : forall t s col, t >? 0 = true -> 0 <= col -> wseq s (expandtabs_from t col s).
Proof.
  induction s as [|c s IH]; simpl; intros col HT HC; [constructor|].
  rewrite HT. assert (M : 0 <= col mod t < t) by (apply Z.mod_pos_bound; lia).
  destruct (c =? 9)%N eqn:E.
  - apply N.eqb_eq in E. subst. apply wseq_sp; auto.
    + unfold spaces. destruct (Z.to_nat (t - col mod t)) eqn:Z; [lia|discriminate].
    + now apply forallb_repeat.
    + apply IH; auto. lia.
  - destruct ((c =? 10)%N || (c =? 13)%N); constructor; apply IH; auto; lia.
Qed.
Definition tabs_ok (cfg : wcfg) : Prop := w_expand cfg = false \/ 0 < w_tabsize cfg.
Lemma munge_toks : forall p, (forall c, tw_space c = true -> p c = true) ->
  forall cfg s, tabs_ok cfg -> toks p [] (munge cfg s) = toks p [] s.
Proof.
  intros p HP cfg s HT. unfold munge.
  set (s1 := if w_expand cfg then _ else s).
  assert (E1 : toks p [] s1 = toks p [] s).
  { unfold s1. destruct (w_expand cfg) eqn:E; auto. symmetry. apply wseq_toks; auto.
    apply wseq_expand; [|lia]. destruct HT; [congruence|]. lia. }
  destruct (w_replace cfg); auto. rewrite <- E1. symmetry. apply wseq_toks; auto. apply wseq_trans_map.
Qed.

(** ** Chunks of unhyphenated text *)
Fixpoint runs (k : bool) (l : list str) : Prop :=
  match l with
  | [] => True
  | c :: t => c <> [] /\ forallb (fun x => Bool.eqb (tw_space x) k) c = true /\ runs (negb k) t
  end.

Lemma split_take : forall cl a k pre b, length a = S k ->
  split_go cl (S k) pre (a ++ b) = a :: split_go cl 0 (rev a ++ pre) b.
Proof.
  induction a as [|x a IH]; simpl; intros k pre b H; [lia|].
  destruct a as [|y a]; simpl in H.
  - inversion H; subst. reflexivity.
  - destruct k as [|k]; [lia|]. rewrite (IH k (x :: pre) b) by (simpl; lia). 
    rewrite <- app_assoc. reflexivity.
Qed.
Lemma split_run : forall cl a pre b, a <> [] -> cl pre (a ++ b) = length a ->
  split_go cl 0 pre (a ++ b) = a :: split_go cl 0 (rev a ++ pre) b.
Proof.
  intros cl a pre b H E. destruct a as [|x a]; [congruence|].
  rewrite <- (split_take cl (x :: a) (length a) pre b) by reflexivity.
  cbn [app] in *. cbn [split_go]. rewrite E. reflexivity.
Qed.

Lemma run_len_app : forall (p : N -> bool) a b, forallb p a = true -> match b with c :: _ => p c = false | [] => True end ->
  run_len p (a ++ b) = length a.
Proof.
  induction a as [|x a IH]; simpl; intros b H1 H2.
  - destruct b as [|c b]; auto. simpl. now rewrite H2.
  - apply andb_true_iff in H1 as [-> H1]. f_equal. auto.
Qed.
Lemma take_run : forall (p : N -> bool) s, exists a b, s = a ++ b /\ forallb p a = true /\ match b with c :: _ => p c = false | [] => True end.
Proof.
  induction s as [|c s (a & b & -> & H1 & H2)].
  - exists [], []. auto.
  - destruct (p c) eqn:E.
    + exists (c :: a), b. simpl. rewrite E. auto.
    + exists [], (c :: a ++ b). auto.
Qed.

Definition unhyph (cl : str -> str -> nat) (s : str) : Prop :=
  cl = chunk_len_simple \/ (cl = chunk_len /\ ~ In hyphen s).
Lemma unhyph_app_r : forall cl a b, unhyph cl (a ++ b) -> unhyph cl b.
Proof. intros cl a b [-> |[-> H]]; [left; auto|right]. split; auto. rewrite in_app_iff in H. tauto. Qed.

Lemma word_len_run : forall s pre, s <> [] -> match s with c :: _ => tw_space c = false | [] => True end ->
  ~ In hyphen s -> word_len pre s = run_len (fun c => negb (tw_space c)) s.
Proof.
  induction s as [|c r IH]; intros pre HN HS HH; [congruence|]. simpl in HS.
  cbn [word_len run_len]. rewrite HS. cbn [negb].
  assert (HB : hyphen_break (c :: pre) r = false).
  { unfold hyphen_break. destruct r as [|h r]; auto.
    destruct (N.eqb_spec h hyphen) as [-> |]; auto. exfalso. apply HH. simpl. auto. }
  assert (EM : emdash r = 0%nat).
  { unfold emdash. destruct r as [|h r]; auto. cbn [hyphens].
    destruct (N.eqb_spec h hyphen) as [-> |]; auto. exfalso. apply HH. simpl. auto. }
  rewrite HB, EM. simpl Nat.ltb. rewrite andb_false_r.
  destruct r as [|d r]; auto. destruct (tw_space d) eqn:ED.
  - simpl. rewrite ED. reflexivity.
  - f_equal. apply IH; auto; [discriminate|]. simpl in *. tauto.
Qed.
Lemma unhyph_simple : forall cl pre s, unhyph cl s -> cl pre s = chunk_len_simple pre s.
Proof.
  intros cl pre s [-> |[-> H]]; auto. unfold chunk_len, chunk_len_simple. destruct s as [|c s]; auto.
  destruct (tw_space c) eqn:E; auto.
  assert (EM : emdash (c :: s) = 0%nat).
  { unfold emdash. cbn [hyphens]. destruct (N.eqb_spec c hyphen) as [-> |]; auto. exfalso. apply H. simpl. auto. }
  rewrite EM. simpl Nat.ltb. rewrite andb_false_r. apply word_len_run; auto. discriminate.
Qed.

Lemma forallb_eqb : forall k a, forallb (fun x => Bool.eqb (tw_space x) k) a = true ->
  if k then forallb tw_space a = true else forallb (fun c => negb (tw_space c)) a = true.
Proof.
  intros k a H. destruct k; rewrite forallb_forall in *; intros x Hx; specialize (H x Hx); destruct (tw_space x); auto.
Qed.
Lemma split_first : forall cl k a b pre, unhyph cl (a ++ b) -> a <> [] ->
  forallb (fun x => Bool.eqb (tw_space x) k) a = true ->
  match b with c :: _ => tw_space c = negb k | [] => True end ->
  split_go cl 0 pre (a ++ b) = a :: split_go cl 0 (rev a ++ pre) b.
Proof.
  intros cl k a b pre HU HN HA HB. apply split_run; auto.
  rewrite (unhyph_simple cl) by auto. unfold chunk_len_simple.
  destruct a as [|c a]; [congruence|]. cbn [app].
  assert (HC : tw_space c = k) by (simpl in HA; apply andb_true_iff in HA as [HA _]; apply Bool.eqb_prop in HA; auto).
  rewrite HC. apply forallb_eqb in HA. change (c :: a ++ b) with ((c :: a) ++ b). destruct k.
  - apply run_len_app; auto. 
  - apply (run_len_app (fun c => negb (tw_space c)) (c :: a) b); auto. destruct b; auto. now rewrite HB.
Qed.

Lemma split_runs : forall cl n s pre, (length s <= n)%nat -> unhyph cl s ->
  match s with c :: _ => runs (tw_space c) (split_go cl 0 pre s) | [] => True end.
Proof.
  induction n; intros s pre HL HU.
  - destruct s; auto. simpl in HL. lia.
  - destruct s as [|c s]; auto.
    destruct (take_run (fun x => Bool.eqb (tw_space x) (tw_space c)) (c :: s)) as (a & b & E & HA & HB).
    destruct a as [|c' a].
    { simpl in E. subst b. rewrite Bool.eqb_reflx in HB. discriminate. }
    rewrite E in *. assert (c' = c) by (simpl in E; congruence). subst c'. cbn [app].
    change (c :: a ++ b) with ((c :: a) ++ b) in *.
    assert (HB' : match b with x :: _ => tw_space x = negb (tw_space c) | [] => True end).
    { destruct b as [|x b]; auto. destruct (tw_space x), (tw_space c); auto; discriminate. }
    rewrite (split_first cl (tw_space c) (c :: a) b pre) by (auto; discriminate).
    cbn [runs]. repeat split; auto; [discriminate|].
    destruct b as [|x b].
    + exact I.
    + rewrite <- HB'. apply (IHn (x :: b)).
      * rewrite app_length in HL. simpl in *. lia.
      * eapply unhyph_app_r; eauto.
Qed.

Lemma runs_pieces : forall l k, runs k l ->
  toks tw_space [] (concat l) = filter (fun c => negb (forallb tw_space c)) l.
Proof.
  assert (G : forall w cur b, forallb (fun c => negb (tw_space c)) w = true ->
     toks tw_space cur (w ++ b) = toks tw_space (rev w ++ cur) b).
  { induction w as [|c w IH]; simpl; intros cur b H; auto. apply andb_true_iff in H as [H1 H2].
    apply negb_true_iff in H1. rewrite H1, IH, <- app_assoc by auto. reflexivity. }
  induction l as [|c l IH]; intros k H; auto. destruct H as (HN & HF & HR).
  apply forallb_eqb in HF. cbn [concat filter]. destruct k.
  - rewrite HF. simpl. rewrite toks_sp_app by auto. eauto.
  - replace (forallb tw_space c) with false.
    2:{ destruct c as [|x c]; [congruence|]. simpl in HF. apply andb_true_iff in HF as [HF _].
        simpl. destruct (tw_space x); auto; discriminate. }
    cbn [negb]. rewrite G by auto. rewrite app_nil_r.
    assert (HRN : rev c <> []) by (intros C; apply (f_equal (@rev _)) in C; rewrite rev_involutive in C; auto).
    rewrite <- (IH _ HR). destruct l as [|d l].
    + simpl. destruct (rev c) eqn:ER; [congruence|]. rewrite <- ER, rev_involutive. reflexivity.
    + destruct HR as (DN & DF & _). cbn [negb] in DF. apply forallb_eqb in DF.
      destruct d as [|y d]; [congruence|]. simpl in DF. apply andb_true_iff in DF as [DF _].
      cbn [concat app toks]. rewrite DF. destruct (rev c) eqn:ER; [congruence|].
      rewrite <- ER, rev_involutive. reflexivity.
Qed.

(** ** fix_sentence_endings only widens single spaces *)
Lemma fix_se_rel : forall n l, (length l <= n)%nat ->
  Forall2 (fun a b => a = b \/ (a = lit " " /\ b = lit "  ")) l (fix_se l).
Proof.
  induction n; intros l L.
  - destruct l; [constructor|simpl in L; lia].
  - destruct l as [|a [|b r]]; try (repeat constructor; auto; fail). 
    cbn [fix_se]. simpl length in L. destruct (seqb b (lit " ") && sent_end a) eqn:E.
    + apply andb_true_iff in E as [E _]. apply seqb_eq in E. constructor; auto. constructor; auto.
      apply IHn. lia.
    + constructor; auto. apply (IHn (b :: r)). simpl. lia.
Qed.

Definition full (l : list str) : Prop := Forall (fun c : str => c <> []) l.
Fixpoint adj (l : list str) : Prop :=
  match l with
  | a :: ((b :: _) as t) => (all_space a = true \/ all_space b = true) /\ adj t
  | _ => True
  end.
Lemma tw_all_space : forall c, forallb tw_space c = true -> all_space c = true.
Proof.
  intros. apply forallb_forall. intros x Hx. apply tw_space_is_space. eapply forallb_forall in H; eauto.
Qed.
Lemma runs_adj : forall l k, runs k l -> full l /\ adj l.
Proof.
  induction l as [|c l IH]; intros k H; [split; [constructor|exact I]|].
  destruct H as (HN & HF & HR). destruct (IH _ HR) as [I1 I2]. split; [constructor; auto|].
  destruct l as [|d l]; [exact I|]. cbn [adj]. split; auto.
  destruct HR as (_ & DF & _). apply forallb_eqb in HF. apply forallb_eqb in DF.
  destruct k; cbn [negb] in DF; [left|right]; now apply tw_all_space.
Qed.
Lemma adj_rel : forall l m, Forall2 (fun a b => a = b \/ (a = lit " " /\ b = lit "  ")) l m -> full l -> adj l -> full m /\ adj m.
Proof.
  intros l m H. induction H as [|a b l m H HF IH]; intros F A; [split; auto|].
  inversion F; subst. assert (A' : adj l) by (destruct l; [exact I|apply A]).
  destruct (IH ltac:(assumption) A') as [I1 I2]. split.
  - constructor; auto. destruct H as [<- |[_ ->]]; auto. discriminate.
  - inversion HF as [|a2 b2 l2 m2 H' HF']; subst; [exact I|]. cbn [adj]. split; auto.
    cbn [adj] in A. destruct A as [[A|A] _].
    + left. destruct H as [<- |[_ ->]]; auto.
    + right. destruct H' as [<- |[_ ->]]; auto.
Qed.

(** ** words of concatenated chunks *)
Lemma split_ws_sep : forall x y, (exists x' c, x = x' ++ [c] /\ is_space c = true) \/ (exists c y', y = c :: y' /\ is_space c = true) ->
  split_ws (x ++ y) = split_ws x ++ split_ws y.
Proof.
  intros x y [(x' & c & -> & H)|(c & y' & -> & H)].
  - rewrite <- app_assoc. simpl. rewrite !split_ws_app_space by auto. now rewrite app_nil_r.
  - rewrite split_ws_app_space, split_ws_space by auto. reflexivity.
Qed.
Lemma all_space_last : forall x, x <> [] -> all_space x = true -> exists x' c, x = x' ++ [c] /\ is_space c = true.
Proof.
  intros x HN HS. destruct (exists_last HN) as (x' & c & ->). exists x', c. split; auto.
  rewrite all_space_app in HS. apply andb_true_iff in HS as [_ HS]. simpl in HS. now rewrite andb_true_r in HS.
Qed.
Lemma adj_tl : forall a l, adj (a :: l) -> adj l.
Proof. intros a [|b l] H; [exact I|apply H]. Qed.
Lemma adj_app_r : forall a b, adj (a ++ b) -> adj b.
Proof. induction a as [|x a IH]; intros b H; auto. apply IH. now apply adj_tl with x. Qed.
Lemma adj_words : forall a b, full (a ++ b) -> adj (a ++ b) ->
  split_ws (concat (a ++ b)) = split_ws (concat a) ++ split_ws (concat b).
Proof.
  induction a as [|x a IH]; intros b F A; auto.
  cbn [app concat]. inversion F as [|x' l' HX F']; subst.
  destruct (a ++ b) as [|y t] eqn:E.
  - apply app_eq_nil in E as [-> ->]. simpl. rewrite !app_nil_r. reflexivity.
  - assert (S : forall r, all_space x = true -> split_ws (x ++ r) = split_ws x ++ split_ws r).
    { intros r HS. apply split_ws_sep. left. now apply all_space_last. }
    assert (S2 : forall r, all_space y = true -> split_ws (x ++ y ++ r) = split_ws x ++ split_ws (y ++ r)).
    { intros r HS. apply split_ws_sep. right. inversion F'; subst. destruct y as [|c y]; [congruence|].
      exists c, (y ++ r). split; auto. simpl in HS. now apply andb_true_iff in HS as [HS _]. }
    cbn [app] in A. rewrite E in A. assert (A2 : adj (a ++ b)) by (rewrite E; now apply adj_tl with x).
    assert (F2 : full (a ++ b)) by (rewrite E; auto).
    rewrite <- E in A. 
    assert (XA : split_ws (x ++ concat a) ++ split_ws (concat b) = split_ws x ++ split_ws (concat a) ++ split_ws (concat b)).
    { destruct a as [|z a].
      - simpl. rewrite app_nil_r. reflexivity.
      - rewrite app_assoc. f_equal. injection E as <- E. cbn [app adj] in A. destruct A as [[A|A] _].
        + apply S; auto.
        + cbn [concat]. apply S2; auto. }
    rewrite XA. rewrite <- (IH b F2 A2). rewrite E in *. cbn [adj] in A. destruct A as [[A|A] _].
    + apply S; auto.
    + cbn [concat]. apply S2; auto.
Qed.

(** ** Words are not broken *)
Definition winv (cfg : wcfg) (l : list str) : Prop :=
  full l /\ adj l
  /\ (w_blw cfg = false
      \/ (len (w_init cfg) < w_width cfg /\ len (w_subs cfg) < w_width cfg /\
          Forall (fun c : str => all_space c = true \/
             (vlen c <= w_width cfg - len (w_init cfg) /\ vlen c <= w_width cfg - len (w_subs cfg))) l)).
Lemma winv_app_r : forall cfg a b, winv cfg (a ++ b) -> winv cfg b.
Proof.
  intros cfg a b (H1 & H2 & H3). split; [|split].
  - now apply Forall_app in H1 as [_ H1].
  - now apply adj_app_r in H2.
  - destruct H3 as [H3|(H3 & H4 & H5)]; auto. right. apply Forall_app in H5 as [_ H5]. auto.
Qed.

Lemma line_of_words : forall cfg rl chunks rcur4 cur4 chunks3, winv cfg chunks ->
  line_of cfg rl chunks = (rcur4, cur4, chunks3) ->
  split_ws (concat chunks) = split_ws (concat (rev rcur4)) ++ split_ws (concat chunks3) /\ winv cfg chunks3.
Proof.
  intros cfg rl chunks rcur4 cur4 chunks3 HW H. unfold line_of in H.
  destruct (drop_first_spec cfg rl chunks) as (pre & E1 & D1).
  destruct (fill (avail cfg rl) 0 [] (drop_first cfg rl chunks)) as [[rcur cur] chunks2] eqn:F.
  destruct (fill_spec _ _ _ _ _ _ _ F) as (taken & E2 & E3 & E4 & E5 & E6).
  rewrite app_nil_r in E3. simpl in E4.
  destruct (long_part cfg (avail cfg rl) rcur cur chunks2) as [[ch3 rcur3] cur3] eqn:LP.
  destruct (drop_last cfg rcur3 cur3) as [r4 c4] eqn:DL. inversion H; subst r4 c4 ch3; clear H.
  destruct (drop_last_spec _ _ _ _ _ DL) as (post & E7 & D2 & _).
  assert (W1 : split_ws (concat chunks) = split_ws (concat (taken ++ chunks2)) /\ winv cfg (taken ++ chunks2)).
  { rewrite E1, E2 in HW |- *. split; [|now apply winv_app_r in HW].
    destruct HW as (HF & HA & _). rewrite adj_words by auto.
    destruct (drops_blank _ _ D1) as [_ HB]. rewrite (split_ws_all _ HB). reflexivity. }
  destruct W1 as [W1 WI]. rewrite W1.
  assert (W2 : split_ws (concat (taken ++ chunks2)) = split_ws (concat (rev rcur3)) ++ split_ws (concat chunks3) /\ winv cfg chunks3).
  { assert (A0 : split_ws (concat (taken ++ chunks2)) = split_ws (concat taken) ++ split_ws (concat chunks2))
      by (destruct WI as (HF & HA & _); now apply adj_words).
    unfold long_part in LP. destruct chunks2 as [|c2 ch2].
    - injection LP as <- <- <-. rewrite E3, rev_involutive. split; auto. now apply winv_app_r in WI.
    - destruct (vlen c2 >? avail cfg rl) eqn:LG.
      + destruct (w_blw cfg) eqn:B.
        * pose proof (winv_app_r _ _ _ WI) as WI2. destruct WI2 as (HF & HA & [C|(HI & HS & HL)]); [congruence|].
          inversion HL as [|c' l' HL1 HL2]; subst c' l'.
          assert (SP : all_space c2 = true).
          { destruct HL1 as [HL1|[L1 L2]]; auto. exfalso. unfold avail, indent_of in LG. destruct rl; lia. }
          destruct (handle_long_cut cfg c2 ch2 rcur cur (avail cfg rl) B) as (e & HE & He1 & He2).
          rewrite HE in LP. injection LP as <- <- <-.
          pose proof (slice_app e c2) as SA. rewrite <- SA, all_space_app in SP. apply andb_true_iff in SP as [S1 S2].
          rewrite A0. cbn [rev]. rewrite concat_app. cbn [concat]. rewrite app_nil_r.
          rewrite (split_ws_app_all_r _ _ S1), E3, rev_involutive. rewrite (split_ws_app_all_l _ _ S2).
          rewrite (split_ws_app_all_l c2) by (rewrite <- SA, all_space_app, S1, S2; reflexivity).
          split; auto.
          assert (SN : slice_from e c2 <> []).
          { intros C. pose proof (len_slice_from e c2) as LS. rewrite C in LS. pose proof (vlen_le_len c2).
            assert (1 <= avail cfg rl) by (unfold avail, indent_of; destruct rl; lia).
            pose proof (vsum_nonneg taken).
            change (len []) with 0 in LS. destruct (avail cfg rl <? 1) eqn:AV; lia. }
          repeat split.
          -- inversion HF; subst. constructor; auto.
          -- destruct ch2; [exact I|]. cbn [adj] in *. split; [left; auto|apply HA].
          -- right. repeat split; auto.
        * unfold handle_long_word in LP. rewrite B in LP. destruct rcur as [|x rc].
          -- injection LP as <- <- <-. assert (taken = []).
             { apply (f_equal (@rev _)) in E3. rewrite rev_involutive in E3. auto. } subst taken.
             cbn [app] in *. split.
             ++ change (c2 :: ch2) with ([c2] ++ ch2) in *. destruct WI as (HF & HA & _). rewrite adj_words; auto.
             ++ now apply (winv_app_r cfg [c2]) in WI.
          -- injection LP as <- <- <-. rewrite E3, rev_involutive. split; auto. now apply winv_app_r in WI.
      + injection LP as <- <- <-. rewrite E3, rev_involutive. split; auto. now apply winv_app_r in WI. }
  destruct W2 as [W2 W3]. split; auto. rewrite W2. f_equal.
  rewrite E7, rev_app_distr, concat_app. 
  replace (rev post) with post by (destruct D2 as [-> |(c & -> & _)]; auto).
  apply split_ws_app_all_r. now apply drops_blank in D2.
Qed.

Lemma flat_map_app' : forall A B (f : A -> list B) a b, flat_map f (a ++ b) = flat_map f a ++ flat_map f b.
Proof. intros. apply flat_map_app. Qed.

Lemma wrap_loop_words : forall cfg, w_max_lines cfg = None ->
  all_space (w_init cfg) = true -> all_space (w_subs cfg) = true ->
  forall fuel rl chunks lines, winv cfg chunks -> wrap_loop cfg fuel rl chunks = Ok lines ->
  flat_map split_ws lines = flat_map split_ws (rev rl) ++ split_ws (concat chunks).
Proof.
  intros cfg HM HI HS. induction fuel as [|fuel IH]; intros rl chunks lines HW H.
  - destruct chunks; simpl in H; inversion H. simpl. now rewrite app_nil_r.
  - destruct chunks as [|c ch]; [simpl in H; inversion H; simpl; now rewrite app_nil_r|].
    cbn [wrap_loop] in H. rewrite wrap_step_eq in H.
    destruct (line_of cfg rl (c :: ch)) as [[rcur4 cur4] chunks3] eqn:LO.
    destruct (line_of_words _ _ _ _ _ _ HW LO) as [E W3]. rewrite E.
    destruct rcur4 as [|c4 r4].
    + apply IH in H; auto.
    + cbv zeta in H. rewrite HM in H. cbn iota in H. apply IH in H; auto. rewrite H.
      cbn [rev]. rewrite flat_map_app'. cbn [flat_map]. rewrite app_nil_r, <- app_assoc.
      rewrite (split_ws_app_all_l (indent_of cfg rl)); auto. unfold indent_of. destruct rl; auto.
Qed.

Lemma text_chunks_split : forall cfg s,
  text_chunks cfg s = (if w_fixse cfg then fix_se (split_chunks cfg (munge cfg s)) else split_chunks cfg (munge cfg s)).
Proof. reflexivity. Qed.

Lemma expandtabs_In : forall t s col x, In x (expandtabs_from t col s) -> x = 32%N \/ In x s.
Proof.
  intros t s col x H.
  pose proof (expandtabs_chars (fun y => y = 32%N \/ In y s) t s col (or_introl eq_refl)) as G.
  assert (F : Forall (fun y => y = 32%N \/ In y s) s) by (apply Forall_forall; auto).
  specialize (G F). rewrite Forall_forall in G. auto.
Qed.
Lemma munge_In : forall cfg s x, In x (munge cfg s) -> x = 32%N \/ In x s.
Proof.
  intros cfg s x H. pose proof (munge_chars (fun y => y = 32%N \/ In y s) cfg s (or_introl eq_refl)) as G.
  assert (F : Forall (fun y => y = 32%N \/ In y s) s) by (apply Forall_forall; auto).
  specialize (G F). rewrite Forall_forall in G. auto.
Qed.

(** The chunks of unhyphenated text. *)
Lemma text_chunks_words : forall cfg s, tabs_ok cfg ->
  (w_boh_true cfg = false \/ ~ In hyphen s) ->
  let l := text_chunks cfg s in
  full l /\ adj l /\ split_ws (concat l) = split_ws s
  /\ Forall (fun c : str => all_space c = true \/ In c (pieces s)) l.
Proof.
  intros cfg s HT HH. cbv zeta. rewrite text_chunks_split. unfold split_chunks.
  set (cl := if w_boh_true cfg then chunk_len else chunk_len_simple).
  assert (HU : unhyph cl (munge cfg s)).
  { unfold cl. destruct (w_boh_true cfg); [|left; auto]. right. split; auto. destruct HH as [|HH]; [congruence|].
    intros C. apply munge_In in C as [C|C]; [discriminate|auto]. }
  set (l := split_go cl 0 [] (munge cfg s)).
  assert (HR : exists k, runs k l).
  { pose proof (split_runs cl (length (munge cfg s)) (munge cfg s) [] (le_n _) HU) as R. unfold l.
    destruct (munge cfg s) as [|c m]; [exists true; exact I|eauto]. }
  destruct HR as [k HR]. destruct (runs_adj _ _ HR) as [F A].
  assert (E : split_ws (concat l) = split_ws s).
  { unfold l. rewrite split_go_concat, !toks_split_ws. apply munge_toks; auto. apply tw_space_is_space. }
  assert (P : Forall (fun c : str => all_space c = true \/ In c (pieces s)) l).
  { apply Forall_forall. intros c Hc. destruct (forallb tw_space c) eqn:EC.
    - left. now apply tw_all_space.
    - right. rewrite toks_pieces, <- (munge_toks tw_space (fun c H => H) cfg s HT).
      rewrite <- (split_go_concat cl (munge cfg s) 0 []). fold l. rewrite (runs_pieces _ _ HR).
      apply filter_In. now rewrite EC. }
  destruct (w_fixse cfg); auto.
  pose proof (fix_se_rel (length l) l (le_n _)) as REL.
  destruct (adj_rel _ _ REL F A) as [F2 A2]. repeat split; auto.
  - rewrite <- E. clear HR E P. revert F A F2 A2. induction REL as [|a b l1 m1 H REL IH]; intros; auto.
    change (b :: m1) with ([b] ++ m1). change (a :: l1) with ([a] ++ l1).
    rewrite !adj_words by auto. rewrite IH.
    + f_equal. destruct H as [<- |[-> ->]]; auto.
    + now inversion F.
    + now apply adj_tl in A.
    + now inversion F2.
    + now apply adj_tl in A2.
  - clear HR E F A F2 A2. induction REL as [|a b l1 m1 H REL IH]; auto.
    inversion P; subst. constructor; auto. destruct H as [<- |[-> ->]]; auto.
Qed.
End L.
