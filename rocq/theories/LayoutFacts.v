(** The pieces of a text are cut at the places of LayoutSpec. *)
From Verif Require Import WrapFacts WrapLoop WrapWidth WrapWords JustFacts.
From Verif Require Import BaseFacts StrFacts MungeProps.
From Verif Require Export LayoutSpec.

Section Pieces.
Context `{U : Uni}.
Notation hyphen := Textwrap.hyphen.

(** ** Boolean places; the text before is reversed *)
Definition dash_after (pre s : str) : bool :=
  match s with y :: _ => is_word y | [] => false end && Nat.leb 2 (hyphens pre)
  && match skipn (hyphens pre) pre with w :: _ => wpunct w | [] => false end.
Definition brk (pre s : str) : bool :=
  match pre, s with
  | x :: p, y :: _ =>
      if Bool.eqb (tw_space x) (tw_space y) then
        if tw_space x then false
        else ((x =? hyphen)%N && hyphen_break p (x :: s)) || (wpunct x && Nat.ltb 0 (emdash s)) || dash_after pre s
      else true
  | _, _ => false
  end.
Definition brk_simple (pre s : str) : bool :=
  match pre, s with x :: _, y :: _ => negb (Bool.eqb (tw_space x) (tw_space y)) | _, _ => false end.

Lemma tw_white : forall c, tw_space c = true <-> white c.
Proof.
  intros c. unfold tw_space, white. cbn [In]. split.
  - intros H. apply orb_prop in H as [H|H]; [apply andb_prop in H as [H1 H2]; apply N.leb_le in H1, H2; lia|apply N.eqb_eq in H; lia].
  - intros H. apply orb_true_iff. rewrite andb_true_iff, !N.leb_le, N.eqb_eq. lia.
Qed.
Lemma tw_black : forall c, tw_space c = false <-> ~ white c.
Proof. intros c. rewrite <- tw_white. destruct (tw_space c); intuition congruence. Qed.
Lemma word_black : forall c, is_word c = true -> tw_space c = false.
Proof.
  intros c H. destruct (tw_space c) eqn:E; auto. apply tw_white in E. unfold white in E. cbn [In] in E.
  destruct E as [<-|[<-|[<-|[<-|[<-|[<-|[]]]]]]]; discriminate H.
Qed.
Lemma word_hyphen : is_word hyphen = false. Proof. reflexivity. Qed.
Lemma letter_is : forall c, letter c = true <-> a_letter c.
Proof. intros c. unfold letter, a_letter. rewrite andb_true_iff, negb_true_iff. tauto. Qed.
Lemma letter_word : forall c, letter c = true -> is_word c = true.
Proof. intros c H. apply letter_is in H. apply H. Qed.
Lemma letter_hyphen : letter hyphen = false. Proof. reflexivity. Qed.
Lemma wpunct_is : forall c, wpunct c = true <-> ties c.
Proof.
  intros c. unfold wpunct, ties. rewrite !orb_true_iff, !N.eqb_eq. cbn [In]. intuition auto.
Qed.
Lemma wpunct_hyphen : wpunct hyphen = false. Proof. reflexivity. Qed.
Lemma wpunct_black : forall c, wpunct c = true -> tw_space c = false.
Proof.
  intros c H. apply wpunct_is in H as [H|H]; [now apply word_black|]. cbn [In] in H.
  repeat (destruct H as [<-|H]; [reflexivity|]). destruct H.
Qed.

Lemma hyphens_repeat : forall n r, match r with c :: _ => c <> hyphen | [] => True end -> hyphens (repeat dash n ++ r) = n.
Proof.
  induction n as [|n IH]; intros r H; cbn [repeat app].
  - destruct r as [|c r]; auto. cbn [hyphens]. now apply N.eqb_neq in H as ->.
  - cbn [hyphens]. rewrite N.eqb_refl. f_equal. auto.
Qed.
Lemma hyphens_split : forall s, s = repeat dash (hyphens s) ++ skipn (hyphens s) s
  /\ match skipn (hyphens s) s with c :: _ => c <> hyphen | [] => True end.
Proof.
  induction s as [|c s IH]; [split; [reflexivity|exact I]|]. destruct IH as [IH1 IH2]. cbn [hyphens]. destruct (N.eqb_spec c hyphen) as [->|NE]; cbn [repeat app skipn]; split; auto.
  change hyphen with dash. f_equal. exact IH1.
Qed.
Lemma skipn_repeat : forall {A} (x : A) n r, skipn n (repeat x n ++ r) = r.
Proof. induction n; intros; cbn [repeat app skipn]; auto. Qed.
Lemma rev_repeat : forall {A} (x : A) n, rev (repeat x n) = repeat x n.
Proof.
  induction n; cbn [repeat rev]; auto. rewrite IHn. clear. induction n; cbn [repeat app]; auto. now rewrite IHn.
Qed.
Lemma emdash_spec : forall s, Nat.ltb 0 (emdash s) = true <-> exists n y a, s = repeat dash n ++ y :: a /\ (2 <= n)%nat /\ is_word y = true.
Proof.
  intros s. unfold emdash. split.
  - intros H. destruct (Nat.leb_spec 2 (hyphens s)) as [L|L]; [|discriminate]. destruct (hyphens_split s) as [E NH].
    destruct (skipn (hyphens s) s) as [|y a]; [discriminate|]. destruct (is_word y) eqn:W; [|discriminate]. exists (hyphens s), y, a. auto.
  - intros (n & y & a & -> & L & W). rewrite hyphens_repeat; [|intros ->; discriminate W].
    destruct (Nat.leb_spec 2 n); [|lia]. rewrite skipn_repeat, W. apply Nat.ltb_lt. lia.
Qed.
Lemma emdash_is : forall n y a, (2 <= n)%nat -> is_word y = true -> emdash (repeat dash n ++ y :: a) = n.
Proof.
  intros n y a L W. unfold emdash. rewrite hyphens_repeat; [|intros ->; discriminate W].
  destruct (Nat.leb_spec 2 n); [|lia]. now rewrite skipn_repeat, W.
Qed.
Lemma dash_after_spec : forall pre s, dash_after pre s = true <->
  exists b x n y a, pre = repeat dash n ++ x :: b /\ s = y :: a /\ ties x /\ (2 <= n)%nat /\ is_word y = true.
Proof.
  intros pre s. unfold dash_after. split.
  - intros H. apply andb_prop in H as [H H3]. apply andb_prop in H as [H1 H2]. destruct s as [|y a]; [discriminate|].
    apply Nat.leb_le in H2. destruct (hyphens_split pre) as [E NH]. destruct (skipn (hyphens pre) pre) as [|x b]; [discriminate|]. apply wpunct_is in H3. exists b, x, (hyphens pre), y, a. auto 10.
  - intros (b & x & n & y & a & -> & -> & TX & L & W). apply wpunct_is in TX. rewrite hyphens_repeat; [|intros ->; discriminate TX].
    rewrite W, skipn_repeat, TX. now destruct (Nat.leb_spec 2 n); [|lia].
Qed.
Lemma two_back : forall p q, (exists a b, p = [a; b] /\ letter a = true /\ (letter b = true)) \/ (exists a c, p = [a; hyphen; c] /\ letter a = true /\ letter c = true) ->
  q = rev p -> two_letters q.
Proof.
  intros p q [(a & b & -> & A & B)|(a & c & -> & A & C)] ->; cbn [rev app]; constructor; now apply letter_is.
Qed.
Lemma hyphen_break_spec : forall p s, hyphen_break p (hyphen :: s) = true <->
  exists l b r a, p = rev l ++ b /\ s = r ++ a /\ two_letters l /\ two_letters r.
Proof.
  intros p s. unfold hyphen_break. rewrite N.eqb_refl. cbn [andb]. split.
  - intros H. apply andb_prop in H as [H1 H2].
    assert (P : exists l b, p = rev l ++ b /\ two_letters l).
    { destruct p as [|x [|y p]]; [discriminate|discriminate|]. apply andb_prop in H1 as [LX H1]. apply orb_prop in H1 as [LY|H1].
      - exists [y; x], p. split; [reflexivity|]. constructor; now apply letter_is.
      - apply andb_prop in H1 as [HY H1]. apply N.eqb_eq in HY. subst y. destruct p as [|z p]; [discriminate|]. exists [z; dash; x], p. split; [reflexivity|]. constructor; now apply letter_is. }
    assert (Q : exists r a, s = r ++ a /\ two_letters r).
    { destruct s as [|x [|y s]]; [discriminate|discriminate|]. apply andb_prop in H2 as [LX H2]. apply orb_prop in H2 as [LY|H2].
      - exists [x; y], s. split; [reflexivity|]. constructor; now apply letter_is.
      - apply andb_prop in H2 as [HY H2]. apply N.eqb_eq in HY. subst y. destruct s as [|z s]; [discriminate|]. exists [x; dash; z], s. split; [reflexivity|]. constructor; now apply letter_is. }
    destruct P as (l & b & -> & L). destruct Q as (r & a & -> & R). exists l, b, r, a. auto.
  - intros (l & b & r & a & -> & -> & L & R).
    destruct L as [x y LX LY|x y LX LY], R as [z w LZ LW|z w LZ LW]; apply letter_is in LX, LY, LZ, LW; cbn [rev app];
      rewrite ?LX, ?LY, ?LZ, ?LW, ?N.eqb_refl, ?orb_true_r; cbn [andb orb]; auto; change dash with hyphen; now rewrite ?letter_hyphen, ?N.eqb_refl.
Qed.

Lemma snoc_rev : forall (pre b : str) x, rev pre = b ++ [x] -> pre = x :: rev b.
Proof. intros pre b x H. apply (f_equal (@rev N)) in H. rewrite rev_involutive, rev_app_distr in H. exact H. Qed.
Lemma brk_simple_spec : forall pre s, brk_simple pre s = true <-> space_break (rev pre) s.
Proof.
  intros pre s. unfold brk_simple. split.
  - destruct pre as [|x p]; [discriminate|]. destruct s as [|y a]; [discriminate|]. intros H. cbn [rev].
    destruct (tw_space x) eqn:TX, (tw_space y) eqn:TY; try discriminate; [apply sb_end|apply sb_start]; first [now apply tw_white | now apply tw_black].
  - intros H. inversion H as [b x y a WX WY E1 E2|b x y a WX WY E1 E2]; symmetry in E1; apply snoc_rev in E1; rewrite E1.
    + apply tw_black in WX. apply tw_white in WY. now rewrite WX, WY.
    + apply tw_white in WX. apply tw_black in WY. now rewrite WX, WY.
Qed.
Lemma two_head : forall l, two_letters l -> exists x r, l = x :: r /\ letter x = true.
Proof. intros l [x y X Y|x y X Y]; apply letter_is in X; eauto. Qed.
Lemma brk_spec : forall pre s, brk pre s = true <-> hyphen_place (rev pre) s.
Proof.
  intros pre s. split.
  - intros H. destruct pre as [|x p]; [discriminate|]. destruct s as [|y a]; [discriminate|]. cbn [brk] in H.
    destruct (Bool.eqb (tw_space x) (tw_space y)) eqn:E.
    + destruct (tw_space x) eqn:TX; [discriminate|]. apply orb_prop in H as [H|H]; [apply orb_prop in H as [H|H]|].
      * apply andb_prop in H as [HX H]. apply N.eqb_eq in HX. subst x. apply hyphen_break_spec in H as (l & b & r & a' & -> & E2 & L & R).
        cbn [rev]. rewrite rev_app_distr, rev_involutive, <- app_assoc, E2. now apply hp_hyphen.
      * apply andb_prop in H as [HX H]. apply wpunct_is in HX. apply emdash_spec in H as (n & z & a' & E2 & L & W). rewrite E2. cbn [rev]. now apply hp_before.
      * apply dash_after_spec in H as (b & w & n & z & a' & E1 & E2 & TW & L & W). rewrite E1, E2. rewrite rev_app_distr. cbn [rev]. rewrite rev_repeat, <- app_assoc. cbn [app]. now apply hp_after.
    + apply hp_space. apply brk_simple_spec. unfold brk_simple. now rewrite E.
  - intros H. inversion H as [b a SB E1 E2|b l r a L R E1 E2|b x n y a TX LN WY E1 E2|b x n y a TX LN WY E1 E2].
    + subst. apply brk_simple_spec in SB. destruct pre as [|x p]; [discriminate|]. destruct s as [|y a]; [discriminate|]. cbn [brk_simple brk] in *.
      apply negb_true_iff in SB. now rewrite SB.
    + rewrite app_assoc in E1. symmetry in E1. apply snoc_rev in E1. rewrite rev_app_distr in E1. rewrite E1. destruct (two_head _ R) as (y & r' & -> & LY). cbn [app brk].
      rewrite (word_black y (letter_word y LY)). replace (tw_space dash) with false by reflexivity. cbn [Bool.eqb]. change dash with hyphen. rewrite N.eqb_refl. cbn [andb].
      replace (hyphen_break (rev l ++ rev b) (hyphen :: y :: r' ++ a)) with true; [reflexivity|]. symmetry. apply hyphen_break_spec. exists l, (rev b), (y :: r'), a. auto.
    + symmetry in E1. apply snoc_rev in E1. rewrite E1. assert (E3 : Nat.ltb 0 (emdash (repeat dash n ++ y :: a)) = true) by (apply emdash_spec; exists n, y, a; auto).
      apply wpunct_is in TX. destruct n as [|n]; [lia|]. cbn [repeat app brk] in *. rewrite (wpunct_black x TX). replace (tw_space dash) with false by reflexivity. cbn [Bool.eqb]. now rewrite TX, E3, orb_true_r.
    + replace (b ++ x :: repeat dash n) with ((b ++ [x]) ++ repeat dash n) in E1 by now rewrite <- app_assoc. apply (f_equal (@rev N)) in E1. rewrite rev_involutive, rev_app_distr, rev_repeat, rev_app_distr in E1. cbn [rev app] in E1.
      assert (DA : dash_after pre s = true). { apply dash_after_spec. exists (rev b), x, n, y, a. auto 10. }
      subst s. destruct n as [|n]; [lia|]. rewrite <- E1 in *. cbn [repeat app brk] in *. rewrite (word_black y WY), DA, orb_true_r. reflexivity.
Qed.

(** ** The piece that starts at a place *)
Definition first_cut (B : str -> str -> bool) (cl : str -> str -> nat) : Prop :=
  forall pre s, s <> [] -> pre = [] \/ B pre s = true ->
  let n := cl pre s in
  (1 <= n <= length s)%nat
  /\ (forall i, (0 < i < n)%nat -> B (rev (firstn i s) ++ pre) (skipn i s) = false)
  /\ ((n < length s)%nat -> B (rev (firstn n s) ++ pre) (skipn n s) = true).
(** Positions within a word. *)
Definition indash (pre s : str) : bool :=
  Nat.leb 1 (hyphens s) && Nat.leb 2 (hyphens pre + hyphens s)
  && match skipn (hyphens pre) pre with w :: _ => wpunct w | [] => false end
  && match skipn (hyphens s) s with y :: _ => is_word y | [] => false end.
Definition inside (pre s : str) : Prop :=
  hyphen_break pre s = false /\ indash pre s = false /\ match s with c :: _ => tw_space c = false | [] => False end.
Lemma hyphens_cons : forall s, hyphens (hyphen :: s) = S (hyphens s). Proof. reflexivity. Qed.
Lemma hyphens_other : forall c s, c <> hyphen -> hyphens (c :: s) = 0%nat.
Proof. intros c s H. cbn [hyphens]. now apply N.eqb_neq in H as ->. Qed.
Lemma hyphen_break_head : forall pre s, hyphen_break pre s = true -> exists a b r, pre = a :: b /\ s = hyphen :: r /\ letter a = true
  /\ match r with c :: _ => letter c = true | [] => False end.
Proof.
  intros pre [|h r] H; [discriminate|]. cbn [hyphen_break] in H. apply andb_prop in H as [H H2]. apply andb_prop in H as [H0 H1]. apply N.eqb_eq in H0. subst h.
  destruct pre as [|a [|b p]]; try discriminate. destruct r as [|c [|d r]]; try discriminate. apply andb_prop in H1 as [H1 _]. apply andb_prop in H2 as [H2 _].
  exists a, (b :: p), (c :: d :: r). auto.
Qed.
Lemma letter_not_hyphen : forall c, letter c = true -> c <> hyphen.
Proof. intros c H ->. discriminate H. Qed.
Lemma word_not_hyphen : forall c, is_word c = true -> c <> hyphen.
Proof. intros c H ->. discriminate H. Qed.
Lemma emdash_two : forall s, Nat.ltb 0 (emdash s) = true -> (2 <= hyphens s)%nat /\ match skipn (hyphens s) s with y :: _ => is_word y = true | [] => False end.
Proof.
  intros s H. unfold emdash in H. destruct (Nat.leb_spec 2 (hyphens s)) as [L|L]; [|discriminate]. split; auto.
  destruct (skipn (hyphens s) s) as [|y a]; [discriminate|]. destruct (is_word y); [reflexivity|discriminate].
Qed.
Lemma emdash_of : forall s, (2 <= hyphens s)%nat -> match skipn (hyphens s) s with y :: _ => is_word y | [] => false end = true -> Nat.ltb 0 (emdash s) = true.
Proof.
  intros s L H. unfold emdash. destruct (Nat.leb_spec 2 (hyphens s)); [|lia]. destruct (skipn (hyphens s) s) as [|y a]; [discriminate|]. rewrite H. apply Nat.ltb_lt. lia.
Qed.
(** One step within a word that does not end there. *)
Lemma inside_step : forall c pre y r, inside pre (c :: y :: r) -> hyphen_break (c :: pre) (y :: r) = false -> tw_space y = false ->
  wpunct c && Nat.ltb 0 (emdash (y :: r)) = false -> inside (c :: pre) (y :: r).
Proof.
  intros c pre y r (HB & ID & CB) HB' YB EM. split; [exact HB'|]. split; [|exact YB].
  destruct (indash (c :: pre) (y :: r)) eqn:E; auto. unfold indash in E. apply andb_prop in E as [E E4]. apply andb_prop in E as [E E3]. apply andb_prop in E as [E1 E2]. apply Nat.leb_le in E1, E2.
  destruct (N.eq_dec c hyphen) as [->|NE].
  - rewrite hyphens_cons in E2, E3. cbn [skipn] in E3. exfalso. apply Bool.not_true_iff_false in ID. apply ID. unfold indash. rewrite hyphens_cons. cbn [skipn]. rewrite E3, E4.
    destruct (Nat.leb_spec 1 (S (hyphens (y :: r)))); [|lia]. destruct (Nat.leb_spec 2 (hyphens pre + S (hyphens (y :: r)))); [|lia]. reflexivity.
  - rewrite (hyphens_other c pre NE) in E2, E3. cbn [skipn] in E3. rewrite E3 in EM. cbn [andb] in EM. rewrite (emdash_of (y :: r)) in EM; [discriminate|lia|exact E4].
Qed.
Lemma inside_unbroken : forall c pre y r, inside pre (c :: y :: r) -> tw_space y = false ->
  wpunct c && Nat.ltb 0 (emdash (y :: r)) = false -> brk (c :: pre) (y :: r) = false.
Proof.
  intros c pre y r (HB & ID & CB) YB EM. cbn [brk]. rewrite CB, YB. cbn [Bool.eqb]. rewrite EM, orb_false_r. apply orb_false_iff. split.
  - destruct (N.eqb_spec c hyphen) as [->|NE]; cbn [andb]; auto.
  - unfold dash_after. apply Bool.not_true_iff_false. intros H. apply andb_prop in H as [H H3]. apply andb_prop in H as [H1 H2]. apply Nat.leb_le in H2.
    destruct (N.eq_dec c hyphen) as [->|NE]; [|rewrite (hyphens_other c pre NE) in H2; lia]. rewrite hyphens_cons in H2, H3. cbn [skipn] in H3.
    apply Bool.not_true_iff_false in ID. apply ID. unfold indash. rewrite hyphens_cons, (hyphens_other y r (word_not_hyphen y H1)). cbn [skipn]. rewrite H3, H1.
    destruct (Nat.leb_spec 2 (hyphens pre + 1)); [|lia]. reflexivity.
Qed.
Lemma word_cuts : forall s pre, inside pre s ->
  let n := word_len pre s in
  (1 <= n <= length s)%nat
  /\ (forall i, (0 < i < n)%nat -> brk (rev (firstn i s) ++ pre) (skipn i s) = false)
  /\ ((n < length s)%nat -> brk (rev (firstn n s) ++ pre) (skipn n s) = true).
Proof.
  induction s as [|c s IH]; intros pre IN; [destruct IN as (_ & _ & [])|]. cbn [word_len]. cbv zeta.
  destruct (hyphen_break (c :: pre) s) eqn:HB.
  - destruct (hyphen_break_head _ _ HB) as (a & b & r & E1 & -> & LA & LR). injection E1 as <- <-. destruct r as [|d r]; [destruct LR|].
    cbn [length]. split; [lia|]. split.
    + intros i Hi. assert (i = 1%nat) as -> by lia. cbn [firstn skipn rev app]. cbn [brk]. rewrite (word_black c (letter_word c LA)). replace (tw_space hyphen) with false by reflexivity. cbn [Bool.eqb].
      pose proof (letter_not_hyphen _ LA) as NA. pose proof (letter_not_hyphen _ LR) as ND. apply N.eqb_neq in NA as ->. cbn [andb orb].
      apply orb_false_iff. split.
      * apply andb_false_iff. right. unfold emdash. rewrite hyphens_cons, (hyphens_other d r ND). reflexivity.
      * reflexivity.
    + intros _. cbn [firstn skipn rev app brk]. rewrite (word_black d (letter_word d LR)). replace (tw_space hyphen) with false by reflexivity. cbn [Bool.eqb]. rewrite N.eqb_refl, HB. reflexivity.
  - destruct s as [|y r].
    + cbn [length]. split; [lia|]. split; [intros; lia|intros; lia].
    + destruct (tw_space y) eqn:YB.
      * cbn [length]. split; [lia|]. split; [intros; lia|]. intros _. cbn [firstn skipn rev app brk]. destruct IN as (_ & _ & CB). now rewrite CB, YB.
      * destruct (wpunct c && Nat.ltb 0 (emdash (y :: r))) eqn:EM.
        -- cbn [length]. split; [lia|]. split; [intros; lia|]. intros _. cbn [firstn skipn rev app]. cbn [brk]. destruct IN as (_ & _ & CB). rewrite CB, YB. cbn [Bool.eqb]. now rewrite EM, orb_true_r.
        -- destruct (IH (c :: pre) (inside_step c pre y r IN HB YB EM)) as (B1 & B2 & B3). cbv zeta in B1, B2, B3. set (n := word_len (c :: pre) (y :: r)) in *. cbn [length] in *. split; [lia|]. split.
           ++ intros [|i] Hi; [lia|]. destruct i as [|i].
              ** cbn [firstn skipn rev app]. eapply inside_unbroken; eauto.
              ** specialize (B2 (S i) ltac:(lia)). cbn [firstn skipn rev] in *. rewrite <- !app_assoc in *. exact B2.
           ++ intros Hn. specialize (B3 ltac:(lia)). cbn [firstn skipn rev] in *. rewrite <- !app_assoc in *. exact B3.
Qed.
Lemma start_inside : forall pre c r, tw_space c = false -> pre = [] \/ brk pre (c :: r) = true ->
  match pre with p :: _ => wpunct p | [] => false end && Nat.ltb 0 (emdash (c :: r)) = false -> inside pre (c :: r).
Proof.
  intros pre c r CB ST EM. split; [|split; [|exact CB]].
  - apply Bool.not_true_iff_false. intros H. destruct (hyphen_break_head _ _ H) as (a & b & r' & -> & E & LA & LR). injection E as -> ->.
    destruct ST as [ST|ST]; [discriminate|]. cbn [brk] in ST. rewrite (word_black a (letter_word a LA)) in ST. replace (tw_space hyphen) with false in ST by reflexivity. cbn [Bool.eqb] in ST.
    pose proof (letter_not_hyphen _ LA) as NA. apply N.eqb_neq in NA. rewrite NA in ST. cbn [andb orb] in ST. cbn [orb] in EM. rewrite EM in ST. discriminate ST.
  - apply Bool.not_true_iff_false. intros H. unfold indash in H. apply andb_prop in H as [H H4]. apply andb_prop in H as [H H3]. apply andb_prop in H as [H1 H2]. apply Nat.leb_le in H1, H2.
    assert (c = hyphen) as -> by (destruct (N.eq_dec c hyphen); auto; rewrite (hyphens_other c r) in H1; auto; lia).
    destruct pre as [|x p]; [discriminate H3|]. destruct ST as [ST|ST]; [discriminate|].
    destruct (N.eq_dec x hyphen) as [->|NX].
    + cbn [brk] in ST. replace (tw_space hyphen) with false in ST by reflexivity. cbn [Bool.eqb] in ST. rewrite wpunct_hyphen in ST. cbn [andb] in ST. rewrite orb_false_r in ST. apply orb_prop in ST as [ST|ST].
      * rewrite N.eqb_refl in ST. cbn [andb] in ST. apply hyphen_break_head in ST as (a & b & r' & _ & E & _ & LR). injection E as <-. discriminate LR.
      * discriminate ST.
    + rewrite (hyphens_other x p NX) in H2, H3. cbn [skipn] in H3. rewrite H3 in EM. cbn [andb] in EM. rewrite (emdash_of (hyphen :: r)) in EM; [discriminate|lia|exact H4].
Qed.
Lemma firstn_same : forall (s : str) p i, (i <= run_len p s)%nat -> forall c, In c (firstn i s) -> p c = true.
Proof. intros s p i H c J. pose proof (run_len_firstn p s i H) as X. rewrite forallb_forall in X. auto. Qed.
Lemma run_at : forall p (s : str) i, (0 < i)%nat -> (i <= run_len p s)%nat -> exists x l, rev (firstn i s) = x :: l /\ p x = true.
Proof.
  intros p s i L H. destruct (rev (firstn i s)) as [|x l] eqn:E.
  - apply (f_equal (@length N)) in E. rewrite rev_length, firstn_length in E. pose proof (run_len_le p s). cbn [length] in E. lia.
  - exists x, l. split; auto. apply (firstn_same s p i H). apply in_rev. rewrite E. now left.
Qed.
Lemma run_head : forall p (s : str) i, (i < run_len p s)%nat -> exists y a, skipn i s = y :: a /\ p y = true.
Proof.
  intros p. induction s as [|c s IH]; intros i H; [cbn in H; lia|]. cbn [run_len] in H. destruct (p c) eqn:E; [|lia].
  destruct i as [|i]; [exists c, s; auto|]. cbn [skipn]. apply IH. lia.
Qed.
Lemma run_pos : forall p c (s : str), p c = true -> (1 <= run_len p (c :: s))%nat.
Proof. intros p c s H. cbn [run_len]. rewrite H. lia. Qed.
Lemma simple_cuts : first_cut brk_simple chunk_len_simple.
Proof.
  intros pre s NE ST. destruct s as [|c s]; [contradiction|]. cbn [chunk_len_simple]. cbv zeta.
  assert (X : forall p, p c = true -> (forall x y, p x = true -> p y = true -> tw_space x = tw_space y) -> (forall x y, p x = true -> p y = false -> tw_space x = negb (tw_space y)) ->
    let n := run_len p (c :: s) in (1 <= n <= length (c :: s))%nat
    /\ (forall i, (0 < i < n)%nat -> brk_simple (rev (firstn i (c :: s)) ++ pre) (skipn i (c :: s)) = false)
    /\ ((n < length (c :: s))%nat -> brk_simple (rev (firstn n (c :: s)) ++ pre) (skipn n (c :: s)) = true)).
  { intros p PC P1 P2 n. pose proof (run_pos p c s PC) as R1. pose proof (run_len_le p (c :: s)) as R2. split; [subst n; lia|]. split.
    - intros i Hi. destruct (run_at p (c :: s) i ltac:(lia) ltac:(subst n; lia)) as (x & l & -> & PX). destruct (run_head p (c :: s) i ltac:(subst n; lia)) as (y & a & -> & PY). cbn [app brk_simple].
      rewrite (P1 x y PX PY). now destruct (tw_space y).
    - intros Hn. destruct (run_at p (c :: s) n ltac:(subst n; lia) ltac:(subst n; lia)) as (x & l & -> & PX). pose proof (run_len_next p (c :: s)) as NX. fold n in NX.
      destruct (skipn n (c :: s)) as [|y a] eqn:E; [apply (f_equal (@length N)) in E; rewrite skipn_length in E; cbn [length] in *; lia|]. cbn [app brk_simple]. rewrite (P2 x y PX NX). now destruct (tw_space y). }
  destruct (tw_space c) eqn:E.
  - apply (X tw_space E); intros x y HX HY; now rewrite HX, HY.
  - apply (X (fun c => negb (tw_space c))); [now rewrite E|intros x y HX HY; destruct (tw_space x), (tw_space y); try discriminate; auto..].
Qed.
Lemma chunk_cuts : first_cut brk chunk_len.
Proof.
  intros pre s NE ST. destruct s as [|c s]; [contradiction|]. cbn [chunk_len]. destruct (tw_space c) eqn:CB.
  - cbv zeta. pose proof (run_pos tw_space c s CB) as R1. pose proof (run_len_le tw_space (c :: s)) as R2. split; [lia|]. split.
    + intros i Hi. destruct (run_at tw_space (c :: s) i ltac:(lia) ltac:(lia)) as (x & l & -> & PX). destruct (run_head tw_space (c :: s) i ltac:(lia)) as (y & a & -> & PY). cbn [app brk]. now rewrite PX, PY.
    + intros Hn. destruct (run_at tw_space (c :: s) (run_len tw_space (c :: s)) ltac:(lia) ltac:(lia)) as (x & l & -> & PX). pose proof (run_len_next tw_space (c :: s)) as NX.
      destruct (skipn (run_len tw_space (c :: s)) (c :: s)) as [|y a] eqn:E; [apply (f_equal (@length N)) in E; rewrite skipn_length in E; cbn [length] in *; lia|]. cbn [app brk]. now rewrite PX, NX.
  - destruct (match pre with p :: _ => wpunct p | [] => false end && Nat.ltb 0 (emdash (c :: s))) eqn:EM.
    + apply andb_prop in EM as [PW EM]. destruct pre as [|w pre]; [discriminate|]. apply emdash_spec in EM as (n & y & a & E & L & W). rewrite E. rewrite (emdash_is n y a L W). cbv zeta.
      rewrite app_length, repeat_length. cbn [length]. split; [lia|].
      assert (F : forall i, (i <= n)%nat -> firstn i (repeat dash n ++ y :: a) = repeat dash i /\ skipn i (repeat dash n ++ y :: a) = repeat dash (n - i) ++ y :: a).
      { intros i Hi. replace (repeat dash n) with (repeat dash i ++ repeat dash (n - i)) by (rewrite <- repeat_app; f_equal; lia). rewrite <- app_assoc. split.
        - rewrite firstn_app, repeat_length, Nat.sub_diag, firstn_O, app_nil_r. apply firstn_all2. rewrite repeat_length. lia.
        - apply skipn_repeat. }
      split.
      * intros i Hi. destruct (F i ltac:(lia)) as [-> ->]. rewrite rev_repeat. destruct i as [|i]; [lia|]. destruct (n - S i)%nat as [|k] eqn:EK; [lia|]. cbn [repeat app brk].
        replace (tw_space dash) with false by reflexivity. cbn [Bool.eqb]. apply orb_false_iff. split; [apply orb_false_iff; split|].
        -- apply andb_false_iff. right. apply Bool.not_true_iff_false. intros H. apply hyphen_break_head in H as (? & ? & r' & _ & E2 & _ & LR). injection E2 as <-. discriminate LR.
        -- reflexivity.
        -- reflexivity.
      * intros _. destruct (F n ltac:(lia)) as [-> ->]. rewrite rev_repeat, Nat.sub_diag. cbn [repeat app].
        assert (DA : dash_after (repeat dash n ++ w :: pre) (y :: a) = true). { apply dash_after_spec. exists pre, w, n, y, a. apply wpunct_is in PW. auto. }
        destruct n as [|n]; [lia|]. cbn [repeat app brk] in *. rewrite (word_black y W), DA, orb_true_r. reflexivity.
    + apply word_cuts. now apply start_inside.
Qed.

(** ** All the pieces *)
Lemma split_go_go : forall cl s k pre, (S k <= length s)%nat -> split_go cl (S k) pre s = firstn (S k) s :: split_go cl 0 (rev (firstn (S k) s) ++ pre) (skipn (S k) s).
Proof.
  intros cl. induction s as [|c s IH]; intros k pre L; [cbn in L; lia|]. cbn [split_go]. destruct k as [|k].
  - reflexivity.
  - cbn [length] in L. rewrite (IH k (c :: pre)) by lia. cbn [firstn skipn rev]. now rewrite <- app_assoc.
Qed.
Lemma split_go_first : forall cl c s pre, let n := cl pre (c :: s) in (1 <= n <= length (c :: s))%nat ->
  split_go cl 0 pre (c :: s) = firstn n (c :: s) :: split_go cl 0 (rev (firstn n (c :: s)) ++ pre) (skipn n (c :: s)).
Proof.
  intros cl c s pre n L. destruct n as [|n'] eqn:E; [lia|]. rewrite <- split_go_go by lia. cbn [split_go]. subst n. rewrite E. reflexivity.
Qed.
Lemma app_longer : forall (a b c d : str), a ++ b = c ++ d -> (length a <= length c)%nat -> exists m, c = a ++ m /\ b = m ++ d.
Proof.
  induction a as [|x a IH]; intros b c d E L; [exists c; auto|]. destruct c as [|y c]; [cbn in L; lia|]. injection E as -> E.
  destruct (IH b c d E) as (m & -> & ->); [cbn in L; lia|]. exists m. auto.
Qed.
Section Cutting.
Variables (B : str -> str -> bool) (cl : str -> str -> nat).
Hypothesis FC : first_cut B cl.
Lemma go_bounds : forall n s pre, (length s <= n)%nat -> pre = [] \/ s = [] \/ B pre s = true ->
  forall b a, s = b ++ a -> b <> [] -> a <> [] ->
  (B (rev b ++ pre) a = true <-> exists l r, split_go cl 0 pre s = l ++ r /\ concat l = b /\ concat r = a).
Proof.
  induction n as [|n IH]; intros s pre L ST b a E NB NA.
  { destruct s; [|cbn in L; lia]. destruct b; [contradiction|discriminate]. }
  destruct s as [|c s]; [destruct b; [contradiction|discriminate]|].
  assert (ST' : pre = [] \/ B pre (c :: s) = true) by (destruct ST as [ST|[ST|ST]]; [auto|discriminate|auto]).
  destruct (FC pre (c :: s) ltac:(discriminate) ST') as (F1 & F2 & F3). cbv zeta in F1, F2, F3. rewrite (split_go_first cl c s pre F1).
  set (k := cl pre (c :: s)) in *. set (ch := firstn k (c :: s)) in *. set (rest := skipn k (c :: s)) in *.
  assert (E0 : ch ++ rest = b ++ a) by (unfold ch, rest; rewrite firstn_skipn; exact E).
  assert (LC : length ch = k) by (unfold ch; rewrite firstn_length; lia).
  assert (LR : length rest = (length (c :: s) - k)%nat) by (unfold rest; apply skipn_length).
  assert (LB : length (c :: s) = (length b + length a)%nat) by (rewrite E; apply app_length).
  assert (PA : (1 <= length a)%nat) by (destruct a; [contradiction|cbn; lia]). assert (PB : (1 <= length b)%nat) by (destruct b; [contradiction|cbn; lia]).
  destruct (lt_eq_lt_dec (length b) k) as [[LT|EQ]|GT].
  - assert (EB : b = firstn (length b) (c :: s)) by (rewrite E, firstn_app, Nat.sub_diag, firstn_O, app_nil_r; symmetry; apply firstn_all).
    assert (EA : a = skipn (length b) (c :: s)) by (rewrite E, skipn_app, Nat.sub_diag, skipn_all; reflexivity).
    specialize (F2 (length b) ltac:(lia)). rewrite <- EB, <- EA in F2. rewrite F2. split; [discriminate|]. intros (l & r & EL & CL & CR). destruct l as [|x l]; [cbn in CL; congruence|].
    injection EL as <- EL. cbn [concat] in CL. subst b. rewrite app_length in LT. lia.
  - assert (EB : b = ch).
    { destruct (app_longer _ _ _ _ E0) as (m & M1 & M2); [lia|]. apply (f_equal (@length N)) in M1 as M3. rewrite app_length in M3. destruct m; [|cbn in M3; lia]. rewrite app_nil_r in M1. exact M1. }
    subst b. apply app_inv_head in E0. rewrite <- E0. rewrite F3 by lia. split; auto. intros _. exists [ch], (split_go cl 0 (rev ch ++ pre) rest). split; [reflexivity|]. split; [cbn [concat]; apply app_nil_r|]. apply split_go_concat.
  - destruct (app_longer _ _ _ _ E0) as (m & M1 & M2); [lia|]. subst b. assert (NM : m <> []) by (intros ->; rewrite app_nil_r in GT; lia).
    specialize (IH rest (rev ch ++ pre) ltac:(cbn [length] in *; lia) ltac:(right; right; apply F3; rewrite app_length in *; lia) m a M2 NM NA).
    rewrite rev_app_distr, <- app_assoc. rewrite IH. split.
    + intros (l & r & EL & CL & CR). exists (ch :: l), r. rewrite EL. split; [reflexivity|]. split; [cbn [concat]; now rewrite CL|auto].
    + intros (l & r & EL & CL & CR). destruct l as [|x l]; [symmetry in CL; apply app_eq_nil in CL as [CL _]; rewrite CL in LC; cbn in LC; lia|]. injection EL as <- EL. exists l, r. split; auto. split; auto. cbn [concat] in CL. now apply app_inv_head in CL.
Qed.
Lemma cuts : forall (P : str -> str -> Prop), (forall pre s, B pre s = true <-> P (rev pre) s) -> forall s, cut_at P s (split_go cl 0 [] s).
Proof.
  intros P BP s. split; [apply split_go_concat|]. split; [apply split_go_nonempty|]. intros b a E NB NA.
  rewrite <- (go_bounds (length s) s [] (le_n _) (or_introl eq_refl) b a E NB NA). rewrite BP, app_nil_r, rev_involutive. tauto.
Qed.
End Cutting.
Lemma same_cuts : forall (ps ps' : list str), Forall (fun p => p <> []) ps -> Forall (fun p => p <> []) ps' -> concat ps = concat ps' ->
  (forall l r, ps = l ++ r -> exists l' r', ps' = l' ++ r' /\ concat l' = concat l) ->
  (forall l r, ps' = l ++ r -> exists l' r', ps = l' ++ r' /\ concat l' = concat l) -> ps = ps'.
Proof.
  induction ps as [|p ps IH]; intros ps' N1 N2 E C1 C2.
  - destruct ps' as [|p' ps']; auto. cbn in E. symmetry in E. apply app_eq_nil in E as [E _]. inversion N2; contradiction.
  - destruct ps' as [|p' ps']; [cbn in E; apply app_eq_nil in E as [E _]; inversion N1; contradiction|].
    inversion_clear N1 as [|? ? P1 N1']. inversion_clear N2 as [|? ? P2 N2'].
    assert (EP : p = p').
    { destruct (C1 [p] ps eq_refl) as (l1 & r1 & E1 & K1). destruct (C2 [p'] ps' eq_refl) as (l2 & r2 & E2 & K2). cbn [concat] in K1, K2. rewrite app_nil_r in K1, K2.
      destruct l1 as [|x l1]; [cbn in K1; congruence|]. destruct l2 as [|y l2]; [cbn in K2; congruence|]. injection E1 as <- E1. injection E2 as <- E2. cbn [concat] in K1, K2.
      rewrite <- K2 in K1. rewrite <- !app_assoc in K1. apply (f_equal (@length N)) in K1 as K3. rewrite !app_length in K3. apply (f_equal (@length N)) in K2 as K4. rewrite app_length in K4.
      assert (length (concat l2) = 0%nat) by lia. destruct (concat l2); [|discriminate]. now rewrite app_nil_r in K2. }
    subst p'. f_equal. cbn [concat] in E. apply app_inv_head in E. apply IH; auto.
    + intros l r ->. destruct (C1 (p :: l) r eq_refl) as (l1 & r1 & E1 & K1). destruct l1 as [|x l1]; [cbn in K1; symmetry in K1; apply app_eq_nil in K1 as [K1 _]; contradiction|].
      injection E1 as <- E1. cbn [concat] in K1. apply app_inv_head in K1. eauto.
    + intros l r ->. destruct (C2 (p :: l) r eq_refl) as (l1 & r1 & E1 & K1). destruct l1 as [|x l1]; [cbn in K1; symmetry in K1; apply app_eq_nil in K1 as [K1 _]; contradiction|].
      injection E1 as <- E1. cbn [concat] in K1. apply app_inv_head in K1. eauto.
Qed.
Lemma concat_nil : forall (ps : list str), Forall (fun p => p <> []) ps -> concat ps = [] -> ps = [].
Proof. intros [|p ps] H E; auto. cbn in E. apply app_eq_nil in E as [E _]. inversion H; contradiction. Qed.
Lemma cut_unique : forall P s ps ps', cut_at P s ps -> cut_at P s ps' -> ps = ps'.
Proof.
  intros P s ps ps' (E1 & N1 & C1) (E2 & N2 & C2). apply same_cuts; auto; [congruence|..].
  - intros l r E. destruct l as [|x l]; [exists [], ps'; auto|]. destruct r as [|y r]; [exists ps', []; rewrite !app_nil_r in *; split; [auto|congruence]|].
    assert (X : s = concat (x :: l) ++ concat (y :: r)) by (rewrite <- concat_app, <- E1; f_equal; exact E).
    assert (F1 : Forall (fun p => p <> []) (x :: l) /\ Forall (fun p => p <> []) (y :: r)) by (rewrite E in N1; apply Forall_app in N1; auto). destruct F1 as [F1 F2].
    assert (Y1 : concat (x :: l) <> []) by (intros Z; apply (concat_nil _ F1) in Z; discriminate). assert (Y2 : concat (y :: r) <> []) by (intros Z; apply (concat_nil _ F2) in Z; discriminate).
    destruct (proj1 (C2 _ _ X Y1 Y2)) as (l' & r' & EQ & CL & CR); [apply (C1 _ _ X Y1 Y2); eauto|]. exists l', r'. auto.
  - intros l r E. destruct l as [|x l]; [exists [], ps; auto|]. destruct r as [|y r]; [exists ps, []; rewrite !app_nil_r in *; split; [auto|congruence]|].
    assert (X : s = concat (x :: l) ++ concat (y :: r)) by (rewrite <- concat_app, <- E2; f_equal; exact E).
    assert (F1 : Forall (fun p => p <> []) (x :: l) /\ Forall (fun p => p <> []) (y :: r)) by (rewrite E in N2; apply Forall_app in N2; auto). destruct F1 as [F1 F2].
    assert (Y1 : concat (x :: l) <> []) by (intros Z; apply (concat_nil _ F1) in Z; discriminate). assert (Y2 : concat (y :: r) <> []) by (intros Z; apply (concat_nil _ F2) in Z; discriminate).
    destruct (proj1 (C1 _ _ X Y1 Y2)) as (l' & r' & EQ & CL & CR); [apply (C2 _ _ X Y1 Y2); eauto|]. exists l', r'. auto.
Qed.
Definition place (cfg : wcfg) : str -> str -> Prop := if w_boh_true cfg then hyphen_place else space_break.
Theorem pieces_cut : forall cfg s ps, cut_at (place cfg) s ps <-> ps = split_chunks cfg s.
Proof.
  intros cfg s ps.
  assert (X : cut_at (place cfg) s (split_chunks cfg s)).
  { unfold place, split_chunks. destruct (w_boh_true cfg).
    - exact (cuts brk chunk_len chunk_cuts hyphen_place brk_spec s).
    - exact (cuts brk_simple chunk_len_simple simple_cuts space_break brk_simple_spec s). }
  split; [intros H; eapply cut_unique; eauto|intros ->; exact X].
Qed.

(** ** Sentences *)
Lemma sent_punct_is : forall c, sent_punct c = true <-> In c [46; 33; 63]%N.
Proof. intros c. unfold sent_punct. rewrite !orb_true_iff, !N.eqb_eq. cbn [In]. intuition auto. Qed.
Lemma sent_quote_is : forall c, sent_quote c = true <-> In c [34; 39]%N.
Proof. intros c. unfold sent_quote. rewrite !orb_true_iff, !N.eqb_eq. cbn [In]. intuition auto. Qed.
Lemma lower_is : forall c, is_lower_ascii c = true <-> small_letter c.
Proof. intros c. unfold is_lower_ascii, small_letter. rewrite andb_true_iff, !N.leb_le. tauto. Qed.
Lemma rev_eq2 : forall (p r : str), rev p = r -> p = rev r. Proof. intros p r <-. now rewrite rev_involutive. Qed.
Lemma sent_end_is : forall p, sent_end p = true <-> sentence_end p.
Proof.
  intros p. unfold sent_end. split.
  - destruct (rev p) as [|a [|b r]] eqn:E; try discriminate. apply rev_eq2 in E. cbn [rev] in E. intros H. apply orb_prop in H as [H|H].
    + apply andb_prop in H as [H1 H2]. apply sent_punct_is in H1. apply lower_is in H2. exists (rev r), b, a, []. rewrite E, <- app_assoc. auto.
    + apply andb_prop in H as [H H3]. apply andb_prop in H as [H1 H2]. destruct r as [|c r]; [discriminate|]. apply sent_quote_is in H1. apply sent_punct_is in H2. apply lower_is in H3.
      exists (rev r), c, b, [a]. cbn [rev] in E. rewrite E, <- !app_assoc. split; [reflexivity|]. split; auto. split; auto. right. eauto.
  - intros (b & c & q & t & -> & LC & PQ & T). apply lower_is in LC. apply sent_punct_is in PQ. rewrite rev_app_distr. destruct T as [->|(x & -> & QX)]; cbn [rev app].
    + now rewrite PQ, LC.
    + apply sent_quote_is in QX. rewrite QX, PQ, LC. cbn [andb]. apply orb_true_r.
Qed.
Lemma no_break_in_end : forall cfg b x y a, small_letter x \/ In x [46; 33; 63]%N -> In y [46; 33; 63; 34; 39]%N -> ~ place cfg (b ++ [x]) (y :: a).
Proof.
  intros cfg b x y a HX HY H.
  assert (DX : x <> dash /\ tw_space x = false). { cbn [In] in HX. unfold small_letter in HX. split; [unfold dash; lia|]. apply tw_black. unfold white. cbn [In]. lia. }
  assert (DY : y <> dash /\ tw_space y = false). { cbn [In] in HY. split; [unfold dash; lia|]. apply tw_black. unfold white. cbn [In]. lia. }
  destruct DX as [DX WX]. destruct DY as [DY WY].
  assert (SB : ~ space_break (b ++ [x]) (y :: a)).
  { intros S0. replace (b ++ [x]) with (rev (x :: rev b)) in S0 by (cbn [rev]; now rewrite rev_involutive). apply brk_simple_spec in S0. cbn [brk_simple] in S0. now rewrite WX, WY in S0. }
  unfold place in H. destruct (w_boh_true cfg); [|contradiction].
  inversion H as [b' a' SB' E1 E2|b' l r a' L R E1 E2|b' x' n y' a' TX LN WY' E1 E2|b' x' n y' a' TX LN WY' E1 E2].
  - contradiction.
  - rewrite app_assoc in E1. apply app_inj_tail in E1 as [_ E1]. congruence.
  - destruct n as [|n]; [lia|]. cbn [repeat app] in E2. congruence.
  - destruct n as [|n]; [lia|]. change (x' :: repeat dash (S n)) with ([x'] ++ repeat dash (S n)) in E1. assert (RC : repeat dash (S n) = repeat dash n ++ [dash]) by (cbn [repeat]; apply repeat_cons). rewrite RC in E1. rewrite !app_assoc in E1. apply app_inj_tail in E1 as [_ E1]. congruence.
Qed.
Definition good (b : str) (ps : list str) : Prop :=
  forall l p r, ps = l ++ p :: lit " " :: r -> (sent_end p = true <-> sentence_end (b ++ concat l ++ p)).
Lemma sentence_more : forall t p, sentence_end p -> sentence_end (t ++ p).
Proof. intros t p (b & c & q & x & -> & H). exists (t ++ b), c, q, x. rewrite <- app_assoc. auto. Qed.
Lemma cut_good : forall cfg s ps, cut_at (place cfg) s ps -> good [] ps.
Proof.
  intros cfg s ps (E & NE & C) l p r EP. cbn [app]. rewrite sent_end_is. split; [apply sentence_more|].
  intros (b & c & q & t & ET & LC & PQ & T).
  assert (NP : p <> []). { rewrite EP in NE. apply Forall_app in NE as [_ NE]. now inversion NE. }
  assert (ES : concat l ++ concat (p :: lit " " :: r) = s) by (rewrite <- concat_app, <- E; f_equal; symmetry; exact EP).
  assert (BD : concat l <> [] -> place cfg (concat l) (p ++ concat (lit " " :: r))).
  { intros NL. apply (C (concat l) (concat (p :: lit " " :: r))); [auto|auto|cbn [concat]; destruct p; [contradiction|discriminate]|]. exists l, (p :: lit " " :: r). auto. }
  apply (f_equal (@length N)) in ET as LT. rewrite !app_length in LT.
  destruct (le_lt_dec (length (c :: q :: t)) (length p)) as [L|L].
  - destruct (app_longer _ _ _ _ ET) as (m & -> & ->); [lia|]. exists m, c, q, t. auto.
  - destruct (app_longer b (c :: q :: t) (concat l) p) as (m & M1 & M2); [auto|lia|]. rewrite M1 in BD. exfalso. destruct m as [|c' m]; [cbn [app] in M2; rewrite <- M2 in L; lia|].
    injection M2 as <- M2. specialize (BD ltac:(intros Z; apply app_eq_nil in Z as [_ Z]; discriminate)). destruct m as [|q' m].
    + cbn [app] in M2. subst p. cbn [app] in BD. revert BD. apply no_break_in_end; [auto|]. cbn [In] in *. intuition auto.
    + injection M2 as <- M2. destruct T as [->|(x & -> & QX)]; [symmetry in M2; apply app_eq_nil in M2 as [_ M2]; contradiction|].
      destruct m as [|z m]; [|injection M2 as _ M2; symmetry in M2; apply app_eq_nil in M2 as [_ M2]; contradiction]. cbn [app] in M2. subst p. cbn [app] in BD.
      change (b ++ [c; q]) with (b ++ [c] ++ [q]) in BD. rewrite app_assoc in BD. revert BD. apply no_break_in_end; [auto|]. cbn [In] in *. intuition auto.
Qed.
Lemma sentence_space : forall b, ~ sentence_end (b ++ lit " ").
Proof.
  intros b H. apply sent_end_is in H. unfold sent_end in H. rewrite rev_app_distr in H. cbn [rev app] in H. vm_compute (rev (lit " ")) in H. cbn [app] in H. destruct (rev b) as [|x r]; discriminate H.
Qed.
Lemma sentence_nil : ~ sentence_end [].
Proof. intros H. apply sent_end_is in H. discriminate H. Qed.
Lemma good_cons : forall b p ps, good b (p :: ps) -> good (b ++ p) ps.
Proof. intros b p ps H l q r ->. rewrite (H (p :: l) q r eq_refl). cbn [concat]. now rewrite <- !app_assoc. Qed.
Lemma fix_spaced : forall n ps b, (length ps <= n)%nat -> match ps with p :: _ => ~ (p = lit " " /\ sentence_end b) | [] => True end -> good b ps -> spaced b ps (fix_se ps).
Proof.
  induction n as [|n IH]; intros ps b L H G; [destruct ps; [constructor|cbn in L; lia]|]. destruct ps as [|a [|x r]]; [constructor|apply sp_same; [exact H|constructor]|].
  cbn [fix_se]. cbn [length] in L. destruct (seqb x (lit " ") && sent_end a) eqn:E.
  - apply andb_prop in E as [E1 E2]. apply seqb_eq in E1. subst x. apply sp_same; [exact H|]. apply sp_wide.
    + apply (G [] a r eq_refl). exact E2.
    + apply IH; [lia| |apply good_cons, good_cons, G]. destruct r as [|y r]; auto. intros [_ Z]. revert Z. apply sentence_space.
  - apply sp_same; [exact H|]. apply (IH (x :: r)); [cbn [length]; lia| |apply good_cons, G]. intros [-> Z]. apply (G [] a r eq_refl) in Z. rewrite Z, seqb_refl in E. discriminate.
Qed.
Lemma spaced_one : forall b ps qs, spaced b ps qs -> forall qs', spaced b ps qs' -> qs = qs'.
Proof.
  induction 1 as [b|b ps qs S0 H IH|b p ps qs N0 H IH]; intros qs' H'.
  - now inversion H'.
  - inversion H' as [|b' ps' qs2 S1 H2 E1 E2|b' p' ps' qs2 N1 H2 E1 E2]; subst; [f_equal; auto|exfalso; apply N1; auto].
  - inversion H' as [|b' ps' qs2 S1 H2 E1 E2|b' p' ps' qs2 N1 H2 E1 E2]; subst; [exfalso; apply N0; auto|f_equal; auto].
Qed.
(** The chunks to be wrapped. *)
Theorem chunks_spec : forall cfg text qs,
  (exists t ps, (if w_expand cfg then tabs_out (w_tabsize cfg) 0 text t else t = text)
    /\ cut_at (place cfg) (if w_replace cfg then map blanked t else t) ps
    /\ (if w_fixse cfg then spaced [] ps qs else qs = ps)) <-> qs = text_chunks cfg text.
Proof.
  intros cfg text qs.
  assert (SP : forall s qs', (if w_fixse cfg then spaced [] (split_chunks cfg s) qs' else qs' = split_chunks cfg s) <-> qs' = (if w_fixse cfg then fix_se (split_chunks cfg s) else split_chunks cfg s)).
  { intros s qs'. destruct (w_fixse cfg); [|tauto].
    assert (X : spaced [] (split_chunks cfg s) (fix_se (split_chunks cfg s))).
    { eapply fix_spaced; [apply le_n| |eapply cut_good; apply pieces_cut; reflexivity]. destruct (split_chunks cfg s); auto. intros [_ Z]. revert Z. apply sentence_nil. }
    split; [intros Y; eapply spaced_one; eauto|intros ->; exact X]. }
  assert (M : forall t, (if w_expand cfg then tabs_out (w_tabsize cfg) 0 text t else t = text) -> munge cfg text = (if w_replace cfg then map blanked t else t)).
  { intros t H. assert (T : (if w_expand cfg then expandtabs (w_tabsize cfg) text else text) = t).
    { destruct (w_expand cfg); [symmetry; now apply tabs_out_eq|now symmetry]. }
    unfold munge. rewrite T. destruct (w_replace cfg); [|reflexivity]. apply map_ext. intros c. unfold blanked, tw_space. cbn [existsb].
    destruct (N.eqb_spec c 9) as [->|]; [reflexivity|]. destruct (N.eqb_spec c 10) as [->|]; [reflexivity|]. destruct (N.eqb_spec c 11) as [->|]; [reflexivity|].
    destruct (N.eqb_spec c 12) as [->|]; [reflexivity|]. destruct (N.eqb_spec c 13) as [->|]; [reflexivity|]. cbn [orb].
    destruct ((9 <=? c)%N && (c <=? 13)%N) eqn:E; [|cbn [orb]; destruct (N.eqb_spec c 32) as [->|]; reflexivity].
    apply andb_prop in E as [E1 E2]. apply N.leb_le in E1, E2. lia. }
  unfold text_chunks. split.
  - intros (t & ps & T & CU & Q). apply M in T. rewrite T. apply pieces_cut in CU. subst ps. now apply SP.
  - intros ->. assert (T : exists t, if w_expand cfg then tabs_out (w_tabsize cfg) 0 text t else t = text).
    { destruct (w_expand cfg); [apply C69_tabs|eauto]. }
    destruct T as [t T]. exists t, (split_chunks cfg (munge cfg text)). split; [exact T|]. split; [apply pieces_cut; now rewrite (M t T)|]. now apply SP.
Qed.
End Pieces.
