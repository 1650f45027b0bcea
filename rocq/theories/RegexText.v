(** The expressions used on running text: escape sequences, blanks, break points. *)
From Verif Require Import WrapFacts JustFacts LayoutFacts RegexSpec RegexFacts Parser TokFacts.
From Coq Require Import Lia.
Open Scope N_scope.

Section T.
Context `{U : Uni}.

Lemma ws_is : forall c, ws c = tw_space c.
Proof.
  intros c. unfold ws, tw_space, one_of. cbn [existsb]. rewrite orb_false_r. apply Bool.eq_iff_eq_true.
  repeat rewrite orb_true_iff. rewrite andb_true_iff, !N.eqb_eq, !N.leb_le. lia.
Qed.
Lemma nws_is : forall c, nws c = negb (tw_space c). Proof. intros. rewrite <- ws_is. reflexivity. Qed.
Lemma wp_is : forall c, wp c = wpunct c.
Proof. intros c. unfold wp, wpunct, either, one_of. cbn [existsb]. now rewrite orb_false_r, !orb_assoc. Qed.
Lemma letr_is : forall c, letr c = letter c.
Proof. intros c. unfold letr, letter. destruct (is_digit c), (is_word c); reflexivity. Qed.
Lemma take_ext : forall p q s, (forall c, p c = q c) -> take_while p s = take_while q s.
Proof. intros p q s H. induction s as [|c s IH]; cbn [take_while]; auto. rewrite H, IH. reflexivity. Qed.
Lemma drop_ext : forall p q s, (forall c, p c = q c) -> drop_while p s = drop_while q s.
Proof. intros p q s H. induction s as [|c s IH]; cbn [drop_while]; auto. rewrite H, IH. reflexivity. Qed.
Lemma spent_ext : forall p q b s g, (forall c, p c = q c) -> spent p b s g = spent q b s g.
Proof. intros. unfold spent. now rewrite (take_ext p q), (drop_ext p q). Qed.
Lemma run_take : forall p s, take_while p s = firstn (run_len p s) s /\ drop_while p s = skipn (run_len p s) s.
Proof. intros p. induction s as [|c s [IH1 IH2]]; cbn [take_while drop_while run_len]; auto. destruct (p c); cbn [firstn skipn]; auto. now rewrite IH1, IH2. Qed.

(** ** Escape sequences *)
Lemma esc_tail_is : forall r, esc_tail r = match drop_while esc_param r with 109 :: _ => Some (S (length (take_while esc_param r))) | _ => None end.
Proof.
  induction r as [|c r IH]; auto. cbn [esc_tail take_while drop_while]. destruct (N.eqb_spec c 109) as [->|NE].
  - replace (esc_param 109) with false by reflexivity. reflexivity.
  - destruct (esc_param c).
    + rewrite IH. destruct (drop_while esc_param r) as [|d t]; auto. destruct (N.eq_dec d 109) as [->|ND]; auto. destruct d as [|d]; auto. do 7 (destruct d; auto); try contradiction.
    + destruct c as [|c]; auto. do 7 (destruct c; auto); try contradiction.
Qed.
Lemma escape_match : forall b s, match_at escape_re b s = match esc_len s with
  | O => None | S k => Some (Spot (rev (firstn (S k) s) ++ b) (skipn (S k) s) []) end.
Proof.
  intros b s. rewrite match_via. unfold escape_re. cbn [seqs]. rewrite via_seq. unfold chr at 1. rewrite via_cls. destruct s as [|x s]; auto.
  destruct (N.eqb_spec 27 x) as [<-|NX]; [|cbn [esc_len]; destruct s; auto; destruct (N.eqb_spec x 27); [congruence|reflexivity]].
  rewrite via_seq. unfold chr at 1. rewrite via_cls. destruct s as [|y s]; auto.
  destruct (N.eqb_spec 91 y) as [<-|NY]; [|cbn [esc_len]; destruct (N.eqb_spec y 91); [congruence|rewrite andb_false_r; reflexivity]].
  cbn [esc_len]. change ((27 =? 27) && (91 =? 91)) with true. cbv iota. rewrite via_seq, many_all.
  - rewrite (spent_ext _ esc_param).
    2:{ intros c. unfold either, esc_param. now rewrite (N.eqb_sym c). }
    unfold spent. unfold chr. rewrite via_cls, esc_tail_is. pose proof (take_drop esc_param s) as TD. destruct (drop_while esc_param s) as [|d t] eqn:ED; auto.
    destruct (N.eqb_spec 109 d) as [<-|ND].
    + assert (F : firstn (S (length (take_while esc_param s))) s = take_while esc_param s ++ [109]) by (rewrite <- TD at 2; rewrite firstn_app, firstn_all2 by lia; replace (S (length (take_while esc_param s)) - length (take_while esc_param s))%nat with 1%nat by lia; reflexivity).
      assert (S0 : skipn (S (length (take_while esc_param s))) s = t) by (rewrite <- TD at 2; rewrite skipn_app, skipn_all2 by lia; replace (S (length (take_while esc_param s)) - length (take_while esc_param s))%nat with 1%nat by lia; reflexivity).
      change (skipn (S (S (S (length (take_while esc_param s))))) (27 :: 91 :: s)) with (skipn (S (length (take_while esc_param s))) s). change (firstn (S (S (S (length (take_while esc_param s))))) (27 :: 91 :: s)) with (27 :: 91 :: firstn (S (length (take_while esc_param s))) s).
      rewrite F, S0. cbn [rev]. rewrite rev_app_distr. cbn [rev app]. rewrite <- !app_assoc. reflexivity.
    + destruct d as [|d]; auto. do 7 (destruct d; auto); try contradiction.
  - intros b0 c t g P. unfold chr. rewrite via_cls. destruct (N.eqb_spec 109 c) as [<-|]; auto. discriminate P.
Qed.
Lemma escape_moves : moves escape_re.
Proof.
  intros b s m H. rewrite escape_match in H. pose proof (esc_len_le s) as L. destruct (esc_len s) as [|k] eqn:E; [discriminate|]. assert (E2 : m = Spot (rev (firstn (S k) s) ++ b) (skipn (S k) s) []) by congruence. subst m. cbn [ahead]. rewrite skipn_length. lia.
Qed.
Lemma escapes_go : forall n b s, (length s <= n)%nat -> strip_esc s = concat (map (fun i => match i with Other c => [c] | Found _ _ => [] end) (items_at escape_re b s)).
Proof.
  induction n as [|n IH]; intros b s L; (destruct s as [|c s]; [reflexivity|]); [cbn in L; lia|]. rewrite (items_cons _ escape_moves), escape_match. pose proof (esc_len_le (c :: s)) as LE.
  destruct (esc_len (c :: s)) as [|k] eqn:E.
  - rewrite strip_cons by exact E. cbn [map concat app]. f_equal. apply IH. cbn in L. lia.
  - rewrite strip_esc_at by (rewrite E; discriminate). rewrite E. cbn [map concat app seen ahead]. apply IH. rewrite skipn_length. cbn in *. lia.
Qed.

(** ** Blanks *)
Lemma blanks_match : forall b s, match_at blanks_re b s = match take_while blank_char s with [] => None | _ => Some (spent blank_char b s []) end.
Proof.
  intros b s. rewrite match_via. unfold blanks_re. assert (P : forall c, one_of [32; 9] c = blank_char c) by (intros c; unfold one_of, blank_char; cbn [existsb]; now rewrite orb_false_r).
  rewrite <- (take_ext (one_of [32; 9]) blank_char) by exact P. rewrite <- (spent_ext (one_of [32; 9]) blank_char) by exact P.
  destruct (take_while (one_of [32; 9]) s) eqn:E; [now apply some_none|]. apply some_total; [rewrite E; discriminate|reflexivity].
Qed.
Lemma blanks_moves : moves blanks_re.
Proof.
  intros b s m H. rewrite blanks_match in H. pose proof (take_drop blank_char s) as TD. destruct (take_while blank_char s) as [|c t] eqn:E; [discriminate|]. injection H as <-. unfold spent. cbn [ahead]. apply (f_equal (@length N)) in TD. rewrite app_length in TD. cbn [length] in TD. lia.
Qed.
Lemma squeeze_after : forall s, squeeze true s = squeeze false (drop_while blank_char s).
Proof. induction s as [|c s IH]; auto. cbn [squeeze drop_while]. destruct (blank_char c) eqn:E; auto. cbn [squeeze]. now rewrite E. Qed.
Lemma blanks_go : forall n b s, (length s <= n)%nat -> squeeze false s = concat (map (fun i => match i with Other c => [c] | Found _ _ => [32] end) (items_at blanks_re b s)).
Proof.
  induction n as [|n IH]; intros b s L; (destruct s as [|c s]; [reflexivity|]); [cbn in L; lia|]. rewrite (items_cons _ blanks_moves), blanks_match. cbn [squeeze take_while]. destruct (blank_char c) eqn:E.
  - unfold spent. cbn [take_while drop_while]. rewrite E. cbn [map concat app seen ahead]. f_equal. rewrite squeeze_after. apply IH. pose proof (drop_while_length blank_char s). cbn in L. lia.
  - cbn [map concat app]. f_equal. apply IH. cbn in L. lia.
Qed.

(** ** Where text may be broken *)
Lemma repeat_slide : forall (x : N) n l, repeat x n ++ x :: l = x :: repeat x n ++ l.
Proof. induction n as [|n IH]; intros l; auto. cbn [repeat app]. now rewrite IH. Qed.
Lemma two_more_via : forall {A} (k : spot -> option A) b s g, (forall b0 t g0, k (Spot b0 (45 :: t) g0) = None) ->
  via (two_more (chr 45)) k (Spot b s g) = if Nat.leb 2 (hyphens s) then k (Spot (repeat 45 (hyphens s) ++ b) (skipn (hyphens s) s) g) else None.
Proof.
  intros A k b s g K. unfold two_more, chr. rewrite via_seq, via_cls. destruct s as [|x s]; auto. cbn [hyphens]. unfold hyphen. destruct (N.eqb_spec 45 x) as [<-|NX]; [|destruct (N.eqb_spec x 45); [congruence|reflexivity]].
  change (45 =? 45) with true. cbv iota. rewrite via_seq, via_cls. destruct s as [|y s]; auto. cbn [hyphens]. unfold hyphen. destruct (N.eqb_spec 45 y) as [<-|NY]; [|destruct (N.eqb_spec y 45); [congruence|reflexivity]].
  change (45 =? 45) with true. cbv iota. rewrite many_all.
  - cbn [Nat.leb skipn]. unfold spent. f_equal.
    assert (X : forall s, take_while (N.eqb 45) s = repeat 45 (hyphens s) /\ drop_while (N.eqb 45) s = skipn (hyphens s) s).
    { induction s0 as [|c s0 [I1 I2]]; auto. cbn [take_while drop_while hyphens]. unfold hyphen. rewrite (N.eqb_sym c). destruct (45 =? c) eqn:E; cbn [repeat skipn]; auto. apply N.eqb_eq in E. subst c. now rewrite I1, I2. }
    destruct (X s) as [-> ->]. f_equal. rewrite rev_repeat. cbn [repeat app]. now rewrite !repeat_slide.
  - intros b0 c t g0 P. apply N.eqb_eq in P. subst c. apply K.
Qed.
Lemma word_hyphen : forall c, is_word c = true -> c <> 45. Proof. intros c W ->. discriminate W. Qed.
Lemma emdash_via : forall {A} (k : spot -> option A) b s g,
  via (seqs [two_more (chr 45); Ahead (Cls is_word)]) k (Spot b s g) = if Nat.ltb 0 (emdash s) then k (Spot (repeat 45 (emdash s) ++ b) (skipn (emdash s) s) g) else None.
Proof.
  intros A k b s g. cbn [seqs]. rewrite via_seq, two_more_via.
  - unfold emdash. cbv zeta. destruct (Nat.leb_spec 2 (hyphens s)) as [L|L]; [|reflexivity]. rewrite ahead_via, via_cls. destruct (skipn (hyphens s) s) as [|c t] eqn:E; [reflexivity|]. destruct (is_word c); [|reflexivity].
    destruct (Nat.ltb_spec 0 (hyphens s)); [|lia]. now rewrite E.
  - intros. rewrite ahead_via, via_cls. reflexivity.
Qed.
Lemma emdash_ahead : forall {A} (k : spot -> option A) b s g,
  via (Ahead (Seq (two_more (chr 45)) (Cls is_word))) k (Spot b s g) = if Nat.ltb 0 (emdash s) then k (Spot b s g) else None.
Proof.
  intros A k b s g. rewrite ahead_via, via_seq, two_more_via.
  - unfold emdash. cbv zeta. destruct (Nat.leb_spec 2 (hyphens s)) as [L|L]; [|reflexivity]. rewrite via_cls. destruct (skipn (hyphens s) s) as [|c t] eqn:E; [reflexivity|]. destruct (is_word c); [|reflexivity].
    destruct (Nat.ltb_spec 0 (hyphens s)); [reflexivity|lia].
  - intros. rewrite via_cls. reflexivity.
Qed.
Definition hyph_re : re := seqs [chr 45; Alt (Behind [letr; letr; N.eqb 45]) (Behind [letr; N.eqb 45; letr; N.eqb 45]); Ahead (seqs [Cls letr; opt (chr 45); Cls letr])].
Lemma hyph_via : forall {A} (k : spot -> option A) b s g, via hyph_re k (Spot b s g) = if hyphen_break b s then k (Spot (45 :: b) (tl s) g) else None.
Proof.
  intros A k b s g. unfold hyph_re. cbn [seqs]. rewrite via_seq. unfold chr at 1. rewrite via_cls. destruct s as [|h r]; auto. unfold hyphen_break. unfold hyphen at 1. rewrite N.eqb_sym. destruct (N.eqb_spec h 45) as [->|]; [|reflexivity].
  cbn [andb tl]. rewrite via_seq, via_alt, !via_behind.
  set (a1 := match r with a :: b' :: r' => letter a && (letter b' || (b' =? hyphen) && match r' with c :: _ => letter c | [] => false end) | _ => false end).
  assert (AH : via (Ahead (seqs [Cls letr; opt (chr 45); Cls letr])) k (Spot (45 :: b) r g) = if a1 then k (Spot (45 :: b) r g) else None).
  { rewrite ahead_via. cbn [seqs]. rewrite via_seq, via_cls. subst a1. destruct r as [|x r]; auto. rewrite letr_is. destruct (letter x); [|now destruct r]. rewrite via_seq, via_opt. unfold chr. rewrite !via_cls. destruct r as [|y r]; auto. rewrite letr_is.
    unfold hyphen. rewrite (N.eqb_sym y). destruct (45 =? y); rewrite ?via_cls; cbn [andb orb].
    - destruct r as [|z r]; [now destruct (letter y)|]. rewrite letr_is. destruct (letter z), (letter y); reflexivity.
    - destruct (letter y); reflexivity. }
  cbn [seqs] in AH. rewrite AH. cbn [rev app rowed]. change (45 =? 45) with true. cbn [andb].
  destruct b as [|x b]; [reflexivity|]. rewrite !letr_is. destruct b as [|y b]; [cbn [rowed]; rewrite andb_false_r; destruct (letter x); reflexivity|].
  rewrite !letr_is. unfold hyphen. rewrite (N.eqb_sym y). destruct (letter x); cbn [andb]; [|reflexivity]. destruct (letter y); cbn [andb orb].
  - destruct a1; [destruct (k _); [reflexivity|]|]; destruct (45 =? y); cbn [andb]; auto; destruct b as [|z b]; auto; destruct (letr z); reflexivity.
  - destruct (45 =? y); cbn [andb]; auto. destruct b as [|z b]; auto. rewrite letr_is. destruct (letter z); cbn [andb]; reflexivity.
Qed.
Definition word_end_re : re := alts [hyph_re; Ahead (Alt (Cls ws) AtEnd); Seq (Behind [wp]) (Ahead (Seq (two_more (chr 45)) (Cls is_word)))].
Lemma word_end_via : forall {A} (k : spot -> option A) c b s g, (forall t, k t <> None) -> via word_end_re k (Spot (c :: b) s g) =
  if hyphen_break (c :: b) s then k (Spot (45 :: c :: b) (tl s) g)
  else if match s with [] => true | d :: _ => tw_space d end then k (Spot (c :: b) s g)
  else if wpunct c && Nat.ltb 0 (emdash s) then k (Spot (c :: b) s g) else None.
Proof.
  intros A k c b s g K. unfold word_end_re. cbn [alts]. rewrite via_alt, hyph_via. destruct (hyphen_break (c :: b) s).
  - specialize (K (Spot (45 :: c :: b) (tl s) g)). now destruct (k _).
  - rewrite via_alt, ahead_via, via_alt, via_cls, via_end. destruct s as [|d s].
    + specialize (K (Spot (c :: b) [] g)). now destruct (k _).
    + rewrite ws_is. destruct (tw_space d).
      * specialize (K (Spot (c :: b) (d :: s) g)). now destruct (k _).
      * rewrite via_seq, via_behind. cbn [rev app rowed]. rewrite andb_true_r, wp_is. destruct (wpunct c); cbn [andb]; auto. apply emdash_ahead.
Qed.
Lemma word_len_cons : forall b c r, word_len b (c :: r) =
  if hyphen_break (c :: b) r then 2%nat else if match r with [] => true | d :: _ => tw_space d end then 1%nat
  else if wpunct c && Nat.ltb 0 (emdash r) then 1%nat else S (word_len (c :: b) r).
Proof. reflexivity. Qed.
Lemma word_via : forall {A} (k : spot -> option A), (forall t, k t <> None) -> forall s b g c, tw_space c = false ->
  via (Seq (few_of (Cls nws)) word_end_re) k (Spot b (c :: s) g) = let n := word_len b (c :: s) in k (Spot (rev (firstn n (c :: s)) ++ b) (skipn n (c :: s)) g).
Proof.
  intros A k K s b g c C. unfold few_of. rewrite !via_seq, via_cls, nws_is, C. cbn [negb].
  assert (X : forall s b c, via (Few (Cls nws)) (via word_end_re k) (Spot (c :: b) s g) = let n := word_len b (c :: s) in k (Spot (rev (firstn n (c :: s)) ++ b) (skipn n (c :: s)) g)).
  { clear s b c C. induction s as [|d s IH]; intros b c; rewrite via_few_cls, word_end_via by exact K; rewrite word_len_cons.
    - destruct (hyphen_break (c :: b) []) eqn:H; [discriminate H|]. specialize (K (Spot (c :: b) [] g)). cbn. destruct (k _); congruence.
    - destruct (hyphen_break (c :: b) (d :: s)) eqn:H.
      + unfold hyphen_break in H. apply andb_prop in H as [H _]. apply andb_prop in H as [H _]. apply N.eqb_eq in H. subst d. cbn [tl]. pose proof (K (Spot (45 :: c :: b) s g)) as K0. cbn. unfold hyphen in *. destruct (k _); congruence.
      + destruct (tw_space d) eqn:TD.
        * pose proof (K (Spot (c :: b) (d :: s) g)) as K0. cbn. destruct (k _); congruence.
        * destruct (wpunct c && Nat.ltb 0 (emdash (d :: s))) eqn:EM.
          -- pose proof (K (Spot (c :: b) (d :: s) g)) as K0. cbn. destruct (k _); congruence.
          -- rewrite nws_is, TD. cbn [negb]. rewrite IH. cbv zeta. set (wl := word_len (c :: b) (d :: s)). change (firstn (S wl) (c :: d :: s)) with (c :: firstn wl (d :: s)).
             change (skipn (S wl) (c :: d :: s)) with (skipn wl (d :: s)). cbn [rev]. now rewrite <- app_assoc. }
  apply X.
Qed.
Lemma emdash_hyphens : forall s, (0 < emdash s)%nat -> firstn (emdash s) s = repeat 45 (emdash s).
Proof.
  intros s H. unfold emdash in *. cbv zeta in *. destruct (Nat.leb 2 (hyphens s)); [|lia]. destruct (skipn (hyphens s) s) as [|c t]; [lia|]. destruct (is_word c); [|lia]. clear H.
  induction s as [|x s IH]; auto. cbn [hyphens]. unfold hyphen. destruct (N.eqb_spec x 45) as [->|]; auto. cbn [firstn repeat]. now rewrite IH.
Qed.
Lemma wordsep_via : forall {A} (k : spot -> option A), (forall t, k t <> None) -> forall c s b g,
  via (alts [some_of (Cls ws); seqs [Behind [wp]; two_more (chr 45); Ahead (Cls is_word)]; Seq (few_of (Cls nws)) word_end_re]) k (Spot b (c :: s) g)
  = let n := chunk_len b (c :: s) in k (Spot (rev (firstn n (c :: s)) ++ b) (skipn n (c :: s)) g).
Proof.
  intros A k K c s b g. cbn [alts]. rewrite via_alt. cbn [chunk_len]. destruct (tw_space c) eqn:C.
  - cbv zeta. destruct (run_take tw_space (c :: s)) as [R1 R2]. rewrite <- R1, <- R2. destruct (k (spent ws b (c :: s) g)) as [x|] eqn:E; [|contradiction (K _ E)].
    rewrite (some_total ws k (c :: s) b g x); [|cbn [take_while]; rewrite ws_is, C; discriminate|exact E].
    rewrite <- E. rewrite (spent_ext ws tw_space) by apply ws_is. reflexivity.
  - rewrite some_none by (cbn [take_while]; now rewrite ws_is, C). rewrite via_alt.
    assert (E2 : via (seqs [Behind [wp]; two_more (chr 45); Ahead (Cls is_word)]) k (Spot b (c :: s) g)
      = if match b with p :: _ => wpunct p | [] => false end && Nat.ltb 0 (emdash (c :: s)) then k (Spot (repeat 45 (emdash (c :: s)) ++ b) (skipn (emdash (c :: s)) (c :: s)) g) else None).
    { change (seqs [Behind [wp]; two_more (chr 45); Ahead (Cls is_word)]) with (Seq (Behind [wp]) (seqs [two_more (chr 45); Ahead (Cls is_word)])). rewrite via_seq, via_behind. cbn [rev app rowed]. destruct b as [|p b]; auto. rewrite andb_true_r, wp_is. destruct (wpunct p); cbn [andb]; auto. apply emdash_via. }
    rewrite E2. destruct (match b with p :: _ => wpunct p | [] => false end && Nat.ltb 0 (emdash (c :: s))) eqn:EM.
    + apply andb_prop in EM as [_ EM]. apply Nat.ltb_lt in EM. cbv zeta. rewrite (emdash_hyphens _ EM), rev_repeat. pose proof (K (Spot (repeat 45 (emdash (c :: s)) ++ b) (skipn (emdash (c :: s)) (c :: s)) g)) as K0. destruct (k _); congruence.
    + now apply word_via.
Qed.
Lemma eaten_firstn : forall n b s b' g g', eaten (Spot b s g) (Spot b' (skipn n s) g') = firstn n s.
Proof. intros. apply eaten_cut. now rewrite firstn_skipn. Qed.
Lemma wordsep_match : forall b c s, let n := chunk_len b (c :: s) in
  match_at wordsep_re b (c :: s) = Some (Spot (rev (firstn n (c :: s)) ++ b) (skipn n (c :: s)) [(1%nat, firstn n (c :: s))]).
Proof.
  intros b c s n. rewrite match_via. unfold wordsep_re. rewrite via_grp. change (alts [some_of (Cls ws); _; _]) with (alts [some_of (Cls ws); seqs [Behind [wp]; two_more (chr 45); Ahead (Cls is_word)]; Seq (few_of (Cls nws)) word_end_re]).
  rewrite wordsep_via by discriminate. cbv zeta. cbn [seen ahead groups]. fold n. now rewrite eaten_firstn.
Qed.
Lemma wordsep_nil : forall b, match_at wordsep_re b [] = None.
Proof.
  intros b. rewrite match_via. unfold wordsep_re. rewrite via_grp. cbn [alts]. rewrite !via_alt. unfold some_of, few_of. rewrite !via_seq, !via_cls. cbn [seqs]. rewrite via_seq, via_behind, via_seq. unfold two_more, chr. rewrite via_seq, via_cls. now destruct (rowed _ b).
Qed.
Lemma wordsep_moves : moves wordsep_re.
Proof.
  intros b [|c s] m H; [now rewrite wordsep_nil in H|]. rewrite wordsep_match in H.
  assert (L : (1 <= chunk_len b (c :: s))%nat); [|set (n := chunk_len b (c :: s)) in *; assert (E2 : m = Spot (rev (firstn n (c :: s)) ++ b) (skipn n (c :: s)) [(1%nat, firstn n (c :: s))]) by congruence; subst m; clearbody n; cbn [ahead]; rewrite skipn_length; cbn [length]; lia].
  cbn [chunk_len]. destruct (tw_space c) eqn:C; [cbn [run_len]; rewrite C; lia|].
  destruct (match b with p :: _ => wpunct p | [] => false end && Nat.ltb 0 (emdash (c :: s))) eqn:EM; [apply andb_prop in EM as [_ EM]; apply Nat.ltb_lt in EM; lia|].
  rewrite word_len_cons. destruct (hyphen_break (c :: b) s), (match s with [] => true | d :: _ => tw_space d end), (wpunct c && Nat.ltb 0 (emdash s)); lia.
Qed.
Lemma chunk_len_bounds : forall b c s, (1 <= chunk_len b (c :: s) <= length (c :: s))%nat.
Proof.
  intros b c s. pose proof (wordsep_match b c s) as M. cbv zeta in M. split; [pose proof (wordsep_moves _ _ _ M) as L; set (n := chunk_len b (c :: s)) in *; clearbody n; cbn [ahead] in L; rewrite skipn_length in L; lia|].
  cbn [chunk_len]. destruct (tw_space c) eqn:C; [apply run_len_le|].
  destruct (match b with p :: _ => wpunct p | [] => false end && Nat.ltb 0 (emdash (c :: s))) eqn:EM.
  - unfold emdash. cbv zeta. destruct (Nat.leb 2 (hyphens (c :: s))); [|lia]. destruct (skipn (hyphens (c :: s)) (c :: s)) as [|x t] eqn:E; [lia|]. destruct (is_word x); [|lia]. apply (f_equal (@length N)) in E. rewrite skipn_length in E. cbn [length] in *. lia.
  - clear. revert b c. induction s as [|d s IH]; intros b c; rewrite word_len_cons.
    + destruct (hyphen_break (c :: b) []) eqn:H; [discriminate H|]. cbn. lia.
    + cbn [length]. destruct (hyphen_break (c :: b) (d :: s)), (tw_space d), (wpunct c && Nat.ltb 0 (emdash (d :: s))); try lia. all: specialize (IH (c :: b) d); cbn [length] in IH; lia.
Qed.
Definition full (p : str) : bool := match p with [] => false | _ => true end.
Lemma wordsep_pieces : forall n s b, (length s <= n)%nat -> filter full (gaps (items_at wordsep_re b s) []) = split_go chunk_len 0 b s.
Proof.
  induction n as [|n IH]; intros s b L; (destruct s as [|c s]; [reflexivity|]); [cbn in L; lia|].
  pose proof (chunk_len_bounds b c s) as B. rewrite (split_go_first chunk_len c s b B). rewrite (items_cons _ wordsep_moves), wordsep_match. cbv zeta. set (k := chunk_len b (c :: s)) in *. clearbody k.
  rewrite eaten_firstn. cbn [gaps rev filter full seen ahead]. destruct k as [|k]; [lia|]. change (full (firstn (S k) (c :: s))) with true. cbv iota. f_equal. apply IH. rewrite skipn_length. cbn in *. lia.
Qed.
Lemma simple_match : forall b s, match_at wordsep_simple_re b s = match take_while tw_space s with [] => None | w => Some (Spot (rev w ++ b) (drop_while tw_space s) [(1%nat, w)]) end.
Proof.
  intros b s. rewrite match_via. unfold wordsep_simple_re. rewrite via_grp. rewrite <- (take_ext ws tw_space) by apply ws_is. destruct (take_while ws s) as [|c w] eqn:E; [now apply some_none|].
  erewrite some_total; [reflexivity|rewrite E; discriminate|]. unfold spent. cbn [seen ahead groups]. rewrite (drop_ext ws tw_space) by apply ws_is. rewrite E. rewrite (eaten_cut b s (c :: w)); [reflexivity|].
  rewrite <- E. rewrite (drop_ext tw_space ws) by (intros; symmetry; apply ws_is). symmetry. apply take_drop.
Qed.
Lemma simple_moves : moves wordsep_simple_re.
Proof.
  intros b s m H. rewrite simple_match in H. pose proof (take_drop tw_space s) as TD. destruct (take_while tw_space s) as [|c w]; [discriminate|]. injection H as <-. cbn [ahead]. apply (f_equal (@length N)) in TD. rewrite app_length in TD. cbn [length] in TD. lia.
Qed.
Lemma simple_bounds : forall b c s, (1 <= chunk_len_simple b (c :: s) <= length (c :: s))%nat.
Proof. intros b c s. cbn [chunk_len_simple]. destruct (tw_space c) eqn:C; (split; [|apply run_len_le]); cbn [run_len]; rewrite C; cbn [negb]; lia. Qed.
Lemma simple_gap : forall s b gap, let w := take_while (fun c => negb (tw_space c)) s in match drop_while (fun c => negb (tw_space c)) s with
  | [] => gaps (items_at wordsep_simple_re b s) gap = [rev gap ++ w]
  | r => exists rest, gaps (items_at wordsep_simple_re (rev w ++ b) r) [] = [] :: rest /\ gaps (items_at wordsep_simple_re b s) gap = (rev gap ++ w) :: rest end.
Proof.
  induction s as [|c s IH]; intros b gap; cbv zeta; [cbn [items_at scan gaps take_while drop_while length]; now rewrite app_nil_r|]. cbn [take_while drop_while]. destruct (tw_space c) eqn:C; cbn [negb].
  - cbn [rev app]. rewrite app_nil_r. rewrite (items_cons _ simple_moves), simple_match. cbn [take_while]. rewrite C. cbn [gaps rev]. eexists. split; reflexivity.
  - rewrite (items_cons _ simple_moves), simple_match. cbn [take_while]. rewrite C. cbn [gaps]. specialize (IH (c :: b) (c :: gap)). cbv zeta in IH. cbn [rev] in *. destruct (drop_while _ s) as [|d r].
    + rewrite IH, <- app_assoc. reflexivity.
    + destruct IH as (rest & I1 & I2). exists rest. rewrite I2, <- !app_assoc. split; [exact I1|reflexivity].
Qed.
Lemma drop_negb : forall p s c r, drop_while p s = c :: r -> p c = false.
Proof. intros p. induction s as [|x s IH]; intros c r H; [discriminate|]. cbn [drop_while] in H. destruct (p x) eqn:E; [eauto|]. now injection H as <- _. Qed.
Lemma simple_pieces : forall n s b, (length s <= n)%nat -> filter full (gaps (items_at wordsep_simple_re b s) []) = split_go chunk_len_simple 0 b s.
Proof.
  induction n as [|n IH]; intros s b L; (destruct s as [|c s]; [reflexivity|]); [cbn in L; lia|].
  pose proof (simple_bounds b c s) as B. rewrite (split_go_first chunk_len_simple c s b B). set (k := chunk_len_simple b (c :: s)) in *. assert (LK : (length (skipn k (c :: s)) <= n)%nat) by (rewrite skipn_length; cbn [length] in *; lia).
  rewrite <- (IH _ _ LK). subst k. cbn [chunk_len_simple] in *. destruct (tw_space c) eqn:C.
  - destruct (run_take tw_space (c :: s)) as [R1 R2]. rewrite <- R1, <- R2 in *. rewrite (items_cons _ simple_moves), simple_match. cbn [take_while]. rewrite C. cbn [gaps rev filter full seen ahead]. cbn [drop_while]. rewrite C.
    rewrite (eaten_cut b (c :: s) (c :: take_while tw_space s)) by (cbn [app]; now rewrite take_drop). reflexivity.
  - destruct (run_take (fun c => negb (tw_space c)) (c :: s)) as [R1 R2]. rewrite <- R1, <- R2 in *. pose proof (simple_gap (c :: s) b []) as G. cbv zeta in G. cbn [rev app] in G.
    assert (FU : full (take_while (fun c0 => negb (tw_space c0)) (c :: s)) = true) by (cbn [take_while]; now rewrite C).
    destruct (drop_while (fun c0 => negb (tw_space c0)) (c :: s)) as [|d r].
    + rewrite G. cbn [filter]. rewrite FU. reflexivity.
    + destruct G as (rest & G1 & G2). rewrite G2, G1. cbn [filter]. rewrite FU. reflexivity.
Qed.
Theorem chunks_re : forall cfg s, split_chunks cfg s = filter full (split_re (if w_boh_true cfg then wordsep_re else wordsep_simple_re) s).
Proof.
  intros cfg s. unfold split_chunks, split_re. change (items ?r s) with (items_at r [] s). destruct (w_boh_true cfg); symmetry; [now apply (wordsep_pieces (length s))|now apply (simple_pieces (length s))].
Qed.

(** ** The end of a sentence *)
Lemma sentence_via : forall b s, match_at sentence_end_re b s <> None <->
  exists c p q, s = c :: p :: q /\ is_lower_ascii c = true /\ sent_punct p = true /\ (q = [] \/ exists x, q = [x] /\ sent_quote x = true).
Proof.
  intros b s. rewrite match_via. unfold sentence_end_re. cbn [seqs]. rewrite via_seq, via_cls. destruct s as [|c s]; [split; [congruence|intros (c & p & q & E & _); discriminate]|].
  change (span 97 122 c) with (is_lower_ascii c). destruct (is_lower_ascii c) eqn:LC; [|split; [congruence|intros (c' & p & q & E & H & _); injection E as <- _; congruence]].
  rewrite via_seq, via_cls. destruct s as [|p s]; [split; [congruence|intros (c' & p & q & E & _); discriminate]|].
  replace (one_of [46; 33; 63] p) with (sent_punct p) by (unfold sent_punct, one_of; cbn [existsb]; now rewrite orb_false_r, !orb_assoc).
  destruct (sent_punct p) eqn:SP; [|split; [congruence|intros (c' & p' & q & E & _ & H & _); injection E as <- <- _; congruence]].
  rewrite via_seq, via_opt, via_cls, !via_end. destruct s as [|x s].
  - split; [|discriminate]. intros _. exists c, p, []. auto.
  - rewrite via_end. replace (one_of [34; 39] x) with (sent_quote x) by (unfold sent_quote, one_of; cbn [existsb]; now rewrite orb_false_r). destruct (sent_quote x) eqn:SQ.
    + destruct s as [|y s].
      * split; [|discriminate]. intros _. exists c, p, [x]. eauto 10.
      * split; [congruence|]. intros (c' & p' & q & E & _ & _ & [Z|(z & Z & _)]); subst q; discriminate.
    + split; [congruence|]. intros (c' & p' & q & E & _ & _ & [Z|(z & Z & H)]); subst q; [discriminate|]. injection E as _ _ <- _. congruence.
Qed.
Lemma sentence_search : forall s b, search_from sentence_end_re b s <> None <->
  exists y c p q, s = y ++ c :: p :: q /\ is_lower_ascii c = true /\ sent_punct p = true /\ (q = [] \/ exists x, q = [x] /\ sent_quote x = true).
Proof.
  induction s as [|d s IH]; intros b; cbn [search_from]; destruct (match_at sentence_end_re b _) as [m|] eqn:E.
  - split; [|discriminate]. intros _. assert (H : match_at sentence_end_re b [] <> None) by (rewrite E; discriminate). apply sentence_via in H as (c & p & q & H). exists [], c, p, q. auto.
  - split; [congruence|]. intros (y & c & p & q & E2 & _). destruct y; discriminate.
  - split; [|discriminate]. intros _. assert (H : match_at sentence_end_re b (d :: s) <> None) by (rewrite E; discriminate). apply sentence_via in H as (c & p & q & H). exists [], c, p, q. auto.
  - rewrite IH. split; intros (y & c & p & q & E2 & H).
    + exists (d :: y), c, p, q. rewrite E2. auto.
    + destruct y as [|d' y]; [exfalso; apply (proj2 (sentence_via b (d :: s))); [exists c, p, q; auto|exact E]|]. injection E2 as _ E2. exists y, c, p, q. auto.
Qed.
Theorem sentence_re : forall s, sent_end s = true <-> search_from sentence_end_re [] s <> None.
Proof.
  intros s. rewrite sentence_search. unfold sent_end. split.
  - intros H. destruct (rev s) as [|a [|b0 r]] eqn:E; try discriminate. apply (f_equal (@rev N)) in E. rewrite rev_involutive in E. cbn [rev] in E. rewrite <- app_assoc in E. cbn [app] in E. apply orb_prop in H as [H|H].
    + apply andb_prop in H as [H1 H2]. exists (rev r), b0, a, []. auto.
    + apply andb_prop in H as [H H3]. apply andb_prop in H as [H1 H2]. destruct r as [|c r]; [discriminate|]. cbn [rev] in E. rewrite <- app_assoc in E. cbn [app] in E. exists (rev r), c, b0, [a]. eauto 10.
  - intros (y & c & p & q & -> & L & P & [->|(x & -> & Q)]).
    + rewrite rev_app_distr. cbn [rev app]. now rewrite P, L.
    + rewrite rev_app_distr. cbn [rev app]. rewrite Q, P, L. cbn [andb]. now rewrite orb_true_r.
Qed.
Theorem escapes_re : forall s, strip_esc s = sub_re escape_re (fun _ => []) s.
Proof. intros s. exact (escapes_go (length s) [] s (le_n _)). Qed.
Theorem blanks_sub : forall s, squeeze false s = sub_re blanks_re (fun _ => [32]) s.
Proof. intros s. exact (blanks_go (length s) [] s (le_n _)). Qed.
End T.
Close Scope N_scope.
