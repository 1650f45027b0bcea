(** Facts about the string primitives. *)
From Verif Require Export BaseFacts TextSpec.

Global Arguments spaces : simpl never.
Global Arguments newlines : simpl never.
Global Arguments is_space : simpl never.


Lemma nonspace_app : forall a b, nonspace (a ++ b) = nonspace a ++ nonspace b.
Proof. intros. apply filter_app. Qed.
Lemma nonspace_cons_space : forall c s, is_space c = true -> nonspace (c :: s) = nonspace s.
Proof. intros. unfold nonspace. simpl. now rewrite H. Qed.
Lemma nonspace_cons_other : forall c s, is_space c = false -> nonspace (c :: s) = c :: nonspace s.
Proof. intros. unfold nonspace. simpl. now rewrite H. Qed.
Lemma nonspace_nil : forall s, nonspace s = [] <-> all_space s = true.
Proof.
  induction s as [|c s IH]; simpl.
  - split; auto.
  - destruct (is_space c) eqn:E; simpl; auto. split; discriminate.
Qed.
Lemma nonspace_idem : forall s, nonspace (nonspace s) = nonspace s.
Proof.
  induction s as [|c s IH]; simpl; auto. destruct (is_space c) eqn:E; simpl; auto.
  rewrite E. simpl. congruence.
Qed.
Lemma nonspace_repeat : forall c n, is_space c = true -> nonspace (repeat c n) = [].
Proof. induction n; simpl; intros; auto. rewrite H. simpl. auto. Qed.
Lemma nonspace_spaces : forall n, nonspace (spaces n) = [].
Proof. intros. now apply nonspace_repeat. Qed.
Lemma nonspace_newlines : forall n, nonspace (newlines n) = [].
Proof. intros. now apply nonspace_repeat. Qed.
Lemma nonspace_concat : forall l, nonspace (concat l) = concat (map nonspace l).
Proof. induction l; simpl; auto. rewrite nonspace_app. congruence. Qed.
Lemma nonspace_rev : forall s, nonspace (rev s) = rev (nonspace s).
Proof.
  induction s as [|c s IH]; simpl; auto. rewrite nonspace_app, IH. simpl.
  destruct (is_space c); simpl; auto. now rewrite app_nil_r.
Qed.

(** ** strip *)
Lemma drop_while_app_all : forall p a b, forallb p a = true -> drop_while p (a ++ b) = drop_while p b.
Proof.
  induction a; simpl; intros; auto. apply andb_true_iff in H as [H1 H2]. rewrite H1. auto.
Qed.
Lemma drop_while_spec : forall p s,
  exists a, s = a ++ drop_while p s /\ forallb p a = true
    /\ match drop_while p s with c :: _ => p c = false | [] => True end.
Proof.
  induction s as [|c s (a & H1 & H2 & H3)]; simpl.
  - exists []. auto.
  - destruct (p c) eqn:E.
    + exists (c :: a). simpl. rewrite E, H2. split; [congruence|auto].
    + exists []. simpl. auto.
Qed.
Lemma drop_while_nil : forall p s, drop_while p s = [] <-> forallb p s = true.
Proof.
  induction s; simpl; split; auto.
  - destruct (p a) eqn:E; simpl; [|discriminate]. intros. apply IHs. auto.
  - intros H. apply andb_true_iff in H as [-> H]. now apply IHs.
Qed.
Lemma drop_while_head : forall p c s, p c = false -> drop_while p (c :: s) = c :: s.
Proof. intros. simpl. now rewrite H. Qed.

Lemma rstrip_spec : forall s,
  exists b, s = rstrip s ++ b /\ all_space b = true
    /\ (rstrip s = [] \/ exists a c, rstrip s = a ++ [c] /\ is_space c = false).
Proof.
  intros. unfold rstrip. destruct (drop_while_spec is_space (rev s)) as (a & H1 & H2 & H3).
  exists (rev a). split; [|split].
  - rewrite <- rev_app_distr, <- H1, rev_involutive. auto.
  - unfold all_space. apply forallb_forall. intros x Hx. apply in_rev in Hx.
    eapply forallb_forall in H2; eauto.
  - destruct (drop_while is_space (rev s)) as [|c r]; auto.
    right. exists (rev r), c. simpl. auto.
Qed.
Lemma lstrip_spec : forall s,
  exists a, s = a ++ lstrip s /\ all_space a = true
    /\ match lstrip s with c :: _ => is_space c = false | [] => True end.
Proof. intros. apply drop_while_spec. Qed.

Lemma all_space_app : forall a b, all_space (a ++ b) = all_space a && all_space b.
Proof. intros. apply forallb_app. Qed.
Lemma all_space_rev : forall s, all_space (rev s) = all_space s.
Proof.
  intros. destruct (all_space s) eqn:E.
  - apply forallb_forall. intros x Hx. apply in_rev in Hx. eapply forallb_forall in E; eauto.
  - destruct (all_space (rev s)) eqn:E2; auto. rewrite <- E. symmetry.
    apply forallb_forall. intros x Hx. apply in_rev in Hx. eapply forallb_forall in E2; eauto.
Qed.

Lemma rstrip_nil : forall s, rstrip s = [] <-> all_space s = true.
Proof.
  intros. unfold rstrip. split.
  - intros H. apply (f_equal (@rev _)) in H. rewrite rev_involutive in H.
    rewrite drop_while_nil in H. fold (all_space (rev s)) in H. now rewrite all_space_rev in H.
  - intros H. rewrite <- all_space_rev in H. apply drop_while_nil in H. rewrite H. auto.
Qed.
Lemma lstrip_nil : forall s, lstrip s = [] <-> all_space s = true.
Proof. intros. apply drop_while_nil. Qed.
Lemma strip_nil : forall s, strip s = [] <-> all_space s = true.
Proof.
  intros. unfold strip. rewrite rstrip_nil.
  destruct (lstrip_spec s) as (a & H1 & H2 & H3).
  rewrite H1 at 2. rewrite all_space_app, H2. reflexivity.
Qed.

Lemma nonspace_all : forall s, all_space s = true -> nonspace s = [].
Proof. intros. now apply nonspace_nil. Qed.
Lemma nonspace_rstrip : forall s, nonspace (rstrip s) = nonspace s.
Proof.
  intros. destruct (rstrip_spec s) as (b & H1 & H2 & _).
  rewrite H1 at 2. now rewrite nonspace_app, (nonspace_all _ H2), app_nil_r.
Qed.
Lemma nonspace_lstrip : forall s, nonspace (lstrip s) = nonspace s.
Proof.
  intros. destruct (lstrip_spec s) as (b & H1 & H2 & _).
  rewrite H1 at 2. now rewrite nonspace_app, (nonspace_all _ H2).
Qed.
Lemma nonspace_strip : forall s, nonspace (strip s) = nonspace s.
Proof. intros. unfold strip. now rewrite nonspace_rstrip, nonspace_lstrip. Qed.

Lemma rstrip_app_nonspace : forall a c, is_space c = false -> rstrip (a ++ [c]) = a ++ [c].
Proof.
  intros. unfold rstrip. rewrite rev_app_distr. simpl. rewrite H. simpl.
  now rewrite rev_involutive.
Qed.
Lemma rstrip_app_all : forall a b, all_space b = true -> rstrip (a ++ b) = rstrip a.
Proof.
  intros. unfold rstrip. rewrite rev_app_distr. rewrite drop_while_app_all; auto.
  fold (all_space (rev b)). now rewrite all_space_rev.
Qed.
Lemma rstrip_idem : forall s, rstrip (rstrip s) = rstrip s.
Proof.
  intros. destruct (rstrip_spec s) as (b & H1 & H2 & _).
  rewrite H1 at 2. now rewrite rstrip_app_all.
Qed.
Lemma rstrip_In : forall s x, In x (rstrip s) -> In x s.
Proof.
  intros. destruct (rstrip_spec s) as (b & H1 & _). rewrite H1. apply in_or_app. auto.
Qed.
Lemma lstrip_In : forall s x, In x (lstrip s) -> In x s.
Proof.
  intros. destruct (lstrip_spec s) as (b & H1 & _). rewrite H1. apply in_or_app. auto.
Qed.
Lemma strip_In : forall s x, In x (strip s) -> In x s.
Proof. intros. now apply lstrip_In, rstrip_In. Qed.

(** ** words *)
Definition is_nil {A} (l : list A) : bool := match l with [] => true | _ => false end.

Lemma split_ws_aux_cur : forall s cur, cur <> [] ->
  split_ws_aux cur s =
  (rev cur ++ take_while (fun c => negb (is_space c)) s)
    :: split_ws_aux [] (drop_while (fun c => negb (is_space c)) s).
Proof.
  induction s as [|c s IH]; simpl; intros cur H.
  - destruct cur; [congruence|]. now rewrite app_nil_r.
  - destruct (is_space c) eqn:E; simpl.
    + rewrite app_nil_r. destruct cur; [congruence|]. rewrite E. auto.
    + rewrite IH by discriminate. simpl. now rewrite <- app_assoc.
Qed.

Lemma split_ws_nil : split_ws [] = [].
Proof. reflexivity. Qed.
Lemma split_ws_space : forall c s, is_space c = true -> split_ws (c :: s) = split_ws s.
Proof. intros. unfold split_ws. simpl. now rewrite H. Qed.
Lemma split_ws_word : forall c s, is_space c = false ->
  split_ws (c :: s) =
  (c :: take_while (fun c => negb (is_space c)) s)
    :: split_ws (drop_while (fun c => negb (is_space c)) s).
Proof. intros. unfold split_ws. simpl. rewrite H. rewrite split_ws_aux_cur by discriminate. auto. Qed.

(** Concatenation of word lists when the two strings touch. *)
Lemma split_ws_aux_app_space : forall a cur c b, is_space c = true ->
  split_ws_aux cur (a ++ c :: b) = split_ws_aux cur a ++ split_ws_aux [] b.
Proof.
  induction a as [|x a IH]; simpl; intros cur c b H.
  - rewrite H. destruct cur; auto.
  - destruct (is_space x).
    + destruct cur; rewrite IH; auto.
    + apply IH; auto.
Qed.
Lemma split_ws_app_space : forall a c b, is_space c = true ->
  split_ws (a ++ c :: b) = split_ws a ++ split_ws b.
Proof. intros. now apply split_ws_aux_app_space. Qed.
Lemma split_ws_all : forall s, all_space s = true -> split_ws s = [].
Proof.
  induction s as [|c s IH]; simpl; intros; auto. apply andb_true_iff in H as [H1 H2].
  rewrite split_ws_space; auto.
Qed.
Lemma split_ws_app_all_l : forall a b, all_space a = true -> split_ws (a ++ b) = split_ws b.
Proof.
  induction a; simpl; intros; auto. apply andb_true_iff in H as [H1 H2].
  rewrite split_ws_space; auto.
Qed.
Lemma split_ws_app_all_r : forall a b, all_space b = true -> split_ws (a ++ b) = split_ws a.
Proof.
  intros a [|c b] H; simpl in H.
  - now rewrite app_nil_r.
  - apply andb_true_iff in H as [H1 H2]. rewrite split_ws_app_space by auto.
    rewrite (split_ws_all b H2). apply app_nil_r.
Qed.
Lemma split_ws_rstrip : forall s, split_ws (rstrip s) = split_ws s.
Proof.
  intros. destruct (rstrip_spec s) as (b & H1 & H2 & _).
  rewrite H1 at 2. now rewrite split_ws_app_all_r.
Qed.
Lemma split_ws_lstrip : forall s, split_ws (lstrip s) = split_ws s.
Proof.
  intros. destruct (lstrip_spec s) as (b & H1 & H2 & _).
  rewrite H1 at 2. now rewrite split_ws_app_all_l.
Qed.
Lemma split_ws_strip : forall s, split_ws (strip s) = split_ws s.
Proof. intros. unfold strip. now rewrite split_ws_rstrip, split_ws_lstrip. Qed.

Lemma concat_split_ws_aux : forall s cur,
  concat (split_ws_aux cur s) = rev cur ++ nonspace s.
Proof.
  induction s as [|c s IH]; simpl; intros.
  - destruct cur; simpl; auto; rewrite ?app_nil_r; auto.
  - destruct (is_space c) eqn:E; simpl.
    + destruct cur; simpl; rewrite IH; auto.
    + rewrite IH. simpl. rewrite <- app_assoc. auto.
Qed.
Lemma concat_split_ws : forall s, concat (split_ws s) = nonspace s.
Proof. intros. apply concat_split_ws_aux. Qed.

Lemma split_ws_aux_words : forall s cur, forallb (fun c => negb (is_space c)) cur = true ->
  Forall (fun w => w <> [] /\ forallb (fun c => negb (is_space c)) w = true) (split_ws_aux cur s).
Proof.
  assert (R : forall cur, forallb (fun c => negb (is_space c)) cur = true ->
                     forallb (fun c => negb (is_space c)) (rev cur) = true).
  { intros. apply forallb_forall. intros x Hx. apply in_rev in Hx. eapply forallb_forall in H; eauto. }
  assert (NE : forall (c : N) cur, rev (c :: cur) <> []).
  { intros c cur H. apply (f_equal (@length _)) in H. rewrite rev_length in H. discriminate. }
  induction s as [|c s IH]; simpl; intros cur H.
  - destruct cur; repeat constructor; auto.
  - destruct (is_space c) eqn:E.
    + destruct cur; auto.
    + apply IH. simpl. rewrite E, H. auto.
Qed.
Lemma split_ws_words : forall s,
  Forall (fun w => w <> [] /\ forallb (fun c => negb (is_space c)) w = true) (split_ws s).
Proof. intros. now apply split_ws_aux_words. Qed.

(** ** split_on / join *)
Lemma split_on_cons : forall c s, exists l ls, split_on c s = l :: ls.
Proof.
  induction s as [|x s (l & ls & IH)]; simpl; eauto.
  destruct (x =? c)%N; eauto. rewrite IH. eauto.
Qed.
Lemma split_on_nochar : forall c s, Forall (fun l : str => ~ In c l) (split_on c s).
Proof.
  induction s as [|x s IH]; simpl.
  - constructor; auto.
  - destruct (N.eqb_spec x c).
    + constructor; auto.
    + destruct (split_on_cons c s) as (l & ls & E). rewrite E in *.
      inversion IH; subst. constructor; auto. simpl. intuition.
Qed.
Lemma join_cons2 : forall sep x y r, join sep (x :: y :: r) = x ++ sep ++ join sep (y :: r).
Proof. reflexivity. Qed.
Lemma join_split_on : forall c s, join [c] (split_on c s) = s.
Proof.
  induction s as [|x s IH]; simpl; auto.
  destruct (split_on_cons c s) as (l & ls & E).
  destruct (N.eqb_spec x c).
  - subst. rewrite E in *. simpl. simpl in IH. now rewrite IH.
  - rewrite E in *. destruct ls; simpl in *; congruence.
Qed.
Lemma split_on_none : forall c s, ~ In c s -> split_on c s = [s].
Proof.
  induction s as [|x s IH]; simpl; intros; auto.
  destruct (N.eqb_spec x c); [intuition|]. rewrite IH by tauto. auto.
Qed.
Lemma split_on_app_sep : forall c a b, ~ In c a -> split_on c (a ++ c :: b) = a :: split_on c b.
Proof.
  induction a as [|x a IH]; simpl; intros.
  - now rewrite N.eqb_refl.
  - destruct (N.eqb_spec x c); [intuition|]. rewrite IH by tauto. auto.
Qed.
(** joining newline-free lines and splitting again *)
Lemma split_on_join : forall c l, l <> [] -> Forall (fun x : str => ~ In c x) l ->
  split_on c (join [c] l) = l.
Proof.
  induction l as [|x l IH]; intros H HF; [congruence|].
  inversion HF; subst. destruct l as [|y l].
  - simpl. now apply split_on_none.
  - rewrite join_cons2. simpl app. rewrite split_on_app_sep by auto. f_equal. apply IH; auto. discriminate.
Qed.

Lemma nonspace_join : forall sep l, all_space sep = true ->
  nonspace (join sep l) = concat (map nonspace l).
Proof.
  intros sep l Hs. induction l as [|x l IH]; auto. destruct l as [|y l].
  - simpl. now rewrite app_nil_r.
  - rewrite join_cons2, !nonspace_app, (nonspace_all _ Hs), IH. reflexivity.
Qed.
Lemma split_ws_join : forall l, split_ws (join (lit " ") l) = flat_map split_ws l.
Proof.
  induction l as [|x l IH]; auto. destruct l as [|y l].
  - simpl. now rewrite app_nil_r.
  - rewrite join_cons2. change (lit " " ++ join (lit " ") (y :: l)) with (32%N :: join (lit " ") (y :: l)).
    rewrite split_ws_app_space by reflexivity. rewrite IH. reflexivity.
Qed.
Lemma split_ws_lines : forall s, flat_map split_ws (split_on 10%N s) = split_ws s.
Proof.
  intros. rewrite <- (join_split_on 10%N s) at 2. generalize (split_on 10%N s).
  induction l as [|x l IH]; auto. destruct l as [|y l].
  - simpl. now rewrite app_nil_r.
  - rewrite join_cons2. change ([10%N] ++ join [10%N] (y :: l)) with (10%N :: join [10%N] (y :: l)).
    rewrite split_ws_app_space by reflexivity. rewrite <- IH. reflexivity.
Qed.

Lemma In_join : forall sep l x, In x (join sep l) -> In x sep \/ exists s, In s l /\ In x s.
Proof.
  induction l as [|a l IH]; simpl; intros x H; [tauto|]. destruct l as [|b l].
  - right. exists a. auto.
  - rewrite !in_app_iff in H. destruct H as [H|[H|H]]; auto.
    + right. exists a. auto.
    + destruct (IH _ H) as [|(s & H1 & H2)]; auto. right. exists s. auto.
Qed.

(** [split_ws] computes the words. *)
Lemma take_while_app_stop : forall p w rest,
  forallb p w = true -> (rest = [] \/ match rest with c :: _ => p c = false | [] => True end) ->
  take_while p (w ++ rest) = w /\ drop_while p (w ++ rest) = rest.
Proof.
  induction w as [|c w IH]; simpl; intros rest H Hr.
  - destruct rest as [|c r]; simpl; auto. destruct Hr as [Hr|Hr]; [discriminate|]. now rewrite Hr.
  - apply andb_true_iff in H as [H1 H2]. rewrite H1. destruct (IH rest H2 Hr) as [-> ->]. auto.
Qed.

Lemma take_drop_while : forall p s, take_while p s ++ drop_while p s = s.
Proof. induction s; simpl; auto. destruct (p a); simpl; congruence. Qed.
Lemma take_while_all : forall p s, forallb p (take_while p s) = true.
Proof. induction s; simpl; auto. destruct (p a) eqn:E; simpl; auto. now rewrite E. Qed.
Lemma drop_while_length : forall p s, length (drop_while p s) <= length s.
Proof. induction s; simpl; auto. destruct (p a); simpl; lia. Qed.

Lemma split_ws_is_words : forall s, words s (split_ws s).
Proof.
  intros s. remember (length s) as n eqn:E. revert s E.
  induction n as [n IH] using lt_wf_ind. intros s E.
  destruct (lstrip_spec s) as (a & H1 & H2 & H3).
  destruct (lstrip s) as [|c r] eqn:L.
  - rewrite app_nil_r in H1. subst a. rewrite split_ws_all by auto. now constructor.
  - rewrite H1. rewrite split_ws_app_all_l by auto. rewrite split_ws_word by auto.
    set (p := fun c => negb (is_space c)).
    rewrite <- (take_drop_while p r) at 1.
    change (c :: take_while p r ++ drop_while p r) with ((c :: take_while p r) ++ drop_while p r).
    constructor; auto.
    + discriminate.
    + simpl. rewrite H3. simpl. apply take_while_all.
    + destruct (drop_while_spec p r) as (x & _ & _ & Hx).
      destruct (drop_while p r); auto. right. simpl. subst p. simpl in Hx.
      now apply negb_false_iff.
    + eapply IH; [|reflexivity]. rewrite E, H1, app_length. simpl.
      pose proof (drop_while_length p r). lia.
Qed.

Lemma words_split_ws : forall s l, words s l <-> split_ws s = l.
Proof.
  intros s l. split.
  - induction 1 as [sp H | sp w rest l H Hw Hn Hr Hrest IH].
    + now apply split_ws_all.
    + rewrite split_ws_app_all_l by auto.
      destruct w as [|c w]; [congruence|]. simpl in Hn. apply andb_true_iff in Hn as [H1 H2].
      simpl. rewrite split_ws_word by now apply negb_true_iff.
      destruct (take_while_app_stop (fun c => negb (is_space c)) w rest H2) as [-> ->].
      * destruct Hr as [Hr|Hr]; auto. right. destruct rest; auto. simpl in Hr. now rewrite Hr.
      * congruence.
  - intros <-. apply split_ws_is_words.
Qed.
