(** The numbers of links: one more than the numbered links before. *)
From Verif Require Import WrapFacts WrapLoop WrapWidth.
From Verif Require Import BaseFacts StrFacts SelFacts TreeFacts HistoryFacts DomFacts LinkTree LineFacts BoxFacts DocFacts PageBase PageFacts PageMain.
From Verif Require Import ElemFacts StyleSpec.
Open Scope Z_scope.

Section R.
Context `{U : Uni}.
Variable g : cfg.
Definition sig_of (n : node) : option str * option link := (n_tag n, n_link n).
Definition sig (d : dom) : list (option str * option link) := map sig_of (d_nodes d).
Definition sig_numbered (x : option str * option link) : bool := match fst x with Some t => numbered g t | None => false end.
Definition count (l : list (option str * option link)) : Z := Z.of_nat (length (filter sig_numbered l)).
Lemma count_snoc : forall l x, count (l ++ [x]) = count l + (if sig_numbered x then 1 else 0).
Proof. intros l x. unfold count. rewrite filter_app, app_length. cbn [filter]. destruct (sig_numbered x); cbn [length]; lia. Qed.
Lemma sig_upd : forall l k f, (forall n, sig_of (f n) = sig_of n) -> map sig_of (upd l k f) = map sig_of l.
Proof. induction l as [|n l IH]; intros k f H; destruct k; cbn [upd map]; auto; [now rewrite H|now rewrite IH]. Qed.
Lemma sig_append : forall d p n, sig (append_node d p n) = sig d ++ [sig_of n].
Proof. intros d p n. unfold sig, append_node. destruct p; cbn [d_nodes]; rewrite ?map_app; cbn [map]; auto. f_equal. apply sig_upd. reflexivity. Qed.
Definition refs_ok (s : pstate) : Prop :=
  p_next s = count (sig (p_dom s)) + 1
  /\ forall i t lk, nth_error (sig (p_dom s)) i = Some (t, Some lk) -> lc_reference (lk_ctx lk) = count (firstn i (sig (p_dom s))) + 1.
Lemma refs_grow : forall s next L x, refs_ok s -> L = sig (p_dom s) ->
  next = p_next s + (if sig_numbered x then 1 else 0) -> (forall lk, snd x = Some lk -> lc_reference (lk_ctx lk) = p_next s) ->
  next = count (L ++ [x]) + 1 /\ forall i t lk, nth_error (L ++ [x]) i = Some (t, Some lk) -> lc_reference (lk_ctx lk) = count (firstn i (L ++ [x])) + 1.
Proof.
  intros s next L x [R1 R2] -> -> HX. split; [rewrite count_snoc; lia|]. intros i t lk E. set (L := sig (p_dom s)) in *.
  destruct (Nat.lt_ge_cases i (length L)) as [LT|GE].
  - rewrite nth_error_app1 in E by auto. rewrite (R2 _ _ _ E). rewrite firstn_app. replace (i - length L)%nat with 0%nat by lia. now rewrite app_nil_r.
  - rewrite nth_error_app2 in E by auto. destruct (i - length L)%nat as [|j] eqn:D; [|destruct j; discriminate]. cbn in E. injection E as ->. rewrite (HX lk eq_refl), R1.
    rewrite firstn_app, D. rewrite firstn_all2 by lia. now rewrite app_nil_r.
Qed.
Lemma step_numbers : forall o s1 s, refs_ok s1 -> step g o s1 = Ok s -> refs_ok s.
Proof.
  intros o s1 s IH H2.
    destruct o as [t a|t|x| |]; cbn [step] in H2.
    + destruct (start_dom _ _ _ _ _ H2) as (d & lk & av & cls & nid & E1 & _ & _ & HD & _ & HK & HN). cbv zeta in *.
      unfold refs_ok. rewrite E1, sig_append. eapply refs_grow; [exact IH| | |].
      * destruct HD as [->|(j & _ & ->)]; auto. unfold sig. cbn [d_nodes]. apply sig_upd. reflexivity.
      * rewrite HN. unfold sig_numbered, sig_of. cbn [fst n_tag]. destruct (numbered g t); lia.
      * unfold sig_of. cbn [snd n_link]. intros lk' ->. destruct (is_link t); [|discriminate]. destruct HK as (l & E & ML). injection E as ->.
        unfold make_link in ML. inv_bind ML. apply ok_inj in ML. subst l. reflexivity.
    + apply ok_inj in H2. subst s. unfold handle_endtag. destruct (is_void t); auto. destruct (get_top s1) as [k|]; auto.
      destruct (node_at (p_dom s1) k) as [m|]; auto. destruct (n_tag m); auto. destruct (seqb s t); auto.
      unfold refs_ok in *. cbn [p_dom p_next]. unfold sig in *. cbn [d_nodes]. rewrite sig_upd by reflexivity. exact IH.
    + apply ok_inj in H2. subst s. unfold handle_data, refs_ok. cbn [p_dom p_next]. rewrite sig_append.
      eapply refs_grow; [exact IH|reflexivity| |]; unfold sig_numbered, sig_of; cbn [fst snd n_tag n_link]; [lia|discriminate].
    + unfold close in H2. inv_bind H2. inv_bind H2. inv_bind H2. apply ok_inj in H2. subst s. exact IH.
    + apply ok_inj in H2. subst s. split; [reflexivity|]. intros [|i] t lk E; discriminate.
Qed.
Lemma start_numbers : refs_ok pstate0.
Proof. split; [reflexivity|]. intros [|i] t lk E; discriminate. Qed.
Lemma reach_numbers : forall h s, run g h pstate0 = Ok s -> refs_ok s.
Proof.
  intros h. induction h as [|o h IH] using rev_ind; intros s H.
  - apply ok_inj in H. subst. apply start_numbers.
  - destruct (run_snoc _ _ _ _ _ H) as (s1 & H1 & H2). eapply step_numbers; eauto.
Qed.
Lemma filter_below : forall (f : nat -> bool) n i, (i <= n)%nat -> filter (fun j => Nat.ltb j i) (filter f (seq 0 n)) = filter f (seq 0 i).
Proof.
  intros f n i H. replace n with (i + (n - i))%nat by lia. rewrite seq_app, !filter_app. cbn [plus].
  assert (A : forall l, (forall x, In x l -> (x < i)%nat) -> filter (fun j => Nat.ltb j i) (filter f l) = filter f l).
  { induction l as [|x l IH]; intros K; auto. cbn [filter]. destruct (f x); cbn [filter]; rewrite IH by (intros; apply K; now right); auto.
    replace (Nat.ltb x i) with true; auto. symmetry. apply Nat.ltb_lt. apply K. now left. }
  assert (B : forall l, (forall x, In x l -> (i <= x)%nat) -> filter (fun j => Nat.ltb j i) (filter f l) = []).
  { induction l as [|x l IH]; intros K; auto. cbn [filter]. destruct (f x); cbn [filter]; rewrite ?IH by (intros; apply K; now right); auto.
    replace (Nat.ltb x i) with false; auto. symmetry. apply Nat.ltb_ge. apply K. now left. }
  rewrite A, B; [apply app_nil_r| |]; intros x J; apply in_seq in J; lia.
Qed.
Lemma filter_firstn_sig : forall d i, (i <= length (d_nodes d))%nat -> length (filter sig_numbered (firstn i (sig d))) = length (filter (numbered_at g d) (seq 0 i)).
Proof.
  intros d i. induction i as [|i IH]; intros H; [reflexivity|]. rewrite seq_S, filter_app, app_length, <- IH by lia. cbn [plus].
  destruct (nth_error (d_nodes d) i) as [n|] eqn:E; [|apply nth_error_None in E; lia].
  assert (F : firstn (S i) (sig d) = firstn i (sig d) ++ [sig_of n]).
  { unfold sig. rewrite <- !map_cons || idtac. rewrite !firstn_map.
    replace (firstn (S i) (d_nodes d)) with (firstn i (d_nodes d) ++ [n]); [now rewrite map_app|].
    clear -E. revert i E. induction (d_nodes d) as [|x l IHl]; intros [|i] E; cbn in *; try discriminate; [now injection E as ->|]. f_equal. now apply IHl. }
  rewrite F, filter_app, app_length. f_equal. cbn [filter]. unfold sig_numbered, sig_of, numbered_at, tag_at, node_at. cbn [fst]. rewrite E.
  destruct (n_tag n) as [t|]; auto. destruct (numbered g t); reflexivity.
Qed.
Lemma numbers_all : forall s F, refs_ok s -> document (p_dom s) F ->
  flat_map preorder F = seq 0 (length (d_nodes (p_dom s))) ->
  forall i n lk, node_at (p_dom s) i = Some n -> n_link n = Some lk -> lc_reference (lk_ctx lk) = reference g F i.
Proof.
  intros s F H [D1 D2] P i n lk HN HL. destruct H as [_ R].
  assert (E : nth_error (sig (p_dom s)) i = Some (n_tag n, Some lk)).
  { unfold sig. unfold node_at in HN. erewrite map_nth_error by exact HN. unfold sig_of. now rewrite HL. }
  rewrite (R _ _ _ E). unfold reference, count. rewrite (numbered_forest _ _ _ D2), P. pose proof (node_at_lt _ _ _ HN) as LT.
  rewrite filter_below, filter_firstn_sig by lia. lia.
Qed.
End R.
Close Scope Z_scope.
