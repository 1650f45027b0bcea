(** From the reading of a source text to what a parser does with it. *)
From Verif Require Import WrapFacts WrapLoop WrapWidth.
From Verif Require Import BaseFacts StrFacts SelFacts TreeFacts HistoryFacts DomFacts LineFacts BoxFacts TokFacts CrashFacts.
From Verif Require Import PageSpec PageRead SourceMain.
From Verif Require Export Feed MarkupSpec MarkupFacts.
Open Scope N_scope.
Section M.
Context `{U : Uni}.
Lemma all_calls : forall l k, emit_all l k = calls l k.
Proof. exact emit_fold. Qed.
Lemma stop_calls : forall t, (exists l raw r, t = calls l (TStop raw r)) \/ (exists l e, t = calls l (TErr e)).
Proof.
  induction t as [raw r|e|o t IH].
  - left. exists [], raw, r. reflexivity.
  - right. exists [], e. reflexivity.
  - destruct IH as [(l & raw & r & ->)|(l & e & ->)]; [left; exists (o :: l), raw, r; reflexivity|right; exists (o :: l), e; reflexivity].
Qed.
Lemma calls_one : forall a b k k', (forall o x, k <> TEv o x) -> (forall o x, k' <> TEv o x) -> calls a k = calls b k' -> a = b /\ k = k'.
Proof.
  induction a as [|o a IH]; intros b k k' H H' E; destruct b as [|o' b]; cbn [calls fold_right] in E.
  - auto.
  - now elim (H _ _ E).
  - symmetry in E. now elim (H' _ _ E).
  - injection E as <- E. destruct (IH b k k' H H' E) as [-> ->]. auto.
Qed.
(** ** What stays open *)
Fixpoint ends_ok (t : trace) : Prop := match t with TStop raw _ => raw_ok raw | TErr _ => True | TEv _ k => ends_ok k end.
Lemma ends_fold : forall l k, ends_ok (fold_right TEv k l) <-> ends_ok k.
Proof. induction l as [|o l IH]; intros k; [reflexivity|exact (IH k)]. Qed.
Lemma reads_ends : forall fin,
  (forall raw s t, reads fin raw s t -> raw_ok raw -> ends_ok t) /\ (forall raw b s t, at_lt fin raw b s t -> raw_ok raw -> ends_ok t).
Proof.
  assert (NN : raw_ok None) by now left. assert (SA : forall a k t, said a k t -> ends_ok k -> ends_ok t) by (intros a k t H K; inversion H; subst; exact K || exact I).
  intros fin. apply (reads_both _ fin (fun raw s t _ => raw_ok raw -> ends_ok t) (fun raw b s t _ => raw_ok raw -> ends_ok t)); intros; cbn [ends_ok]; auto; try (eapply SA; [eassumption|]; cbn [ends_ok]; auto).
  apply ends_fold. match goal with H : raw_ok ?r' -> _ |- _ => apply H end. eapply markup_raw; eauto.
Qed.
Lemma source_some : forall src, exists evs fail, source src evs fail.
Proof.
  intros src. assert (R : reads false None src (tokens false None src)) by (apply tokens_reads; [now left|reflexivity]). destruct (stop_calls (tokens false None src)) as [(l & raw & r & E)|(l & e & E)]; rewrite E in R.
  - assert (O : raw_ok raw). { pose proof (proj1 (reads_ends false) _ _ _ R (or_introl eq_refl)) as X. apply ends_fold in X. exact X. }
    assert (R2 : reads true raw r (tokens true raw r)) by (apply tokens_reads; auto). destruct (stop_calls (tokens true raw r)) as [(l2 & raw2 & r2 & E2)|(l2 & e & E2)]; rewrite E2 in R2; [exists (l ++ l2), None; eapply so_read; eauto|exists (l ++ l2), (Some e); eapply so_close; eauto].
  - exists l, (Some e). now apply so_feed.
Qed.
Lemma source_one : forall src evs fail evs' fail', source src evs fail -> source src evs' fail' -> evs = evs' /\ fail = fail'.
Proof.
  assert (N1 : forall raw r o x, TStop raw r <> TEv o x) by discriminate. assert (N2 : forall e o x, TErr e <> TEv o x) by discriminate.
  intros src evs fail evs' fail' A B. destruct A as [l raw r l2 raw2 r2 R1 R2|l e R1|l raw r l2 e R1 R2]; destruct B as [l' raw' r' l2' raw2' r2' R1' R2'|l' e' R1'|l' raw' r' l2' e' R1' R2'];
  pose proof (proj1 (reads_one_both false) _ _ _ R1 _ R1') as Q; apply calls_one in Q; auto; destruct Q as [<- Q]; try discriminate Q; injection Q as Q; subst; auto;
  pose proof (proj1 (reads_one_both true) _ _ _ R2 _ R2') as Q2; apply calls_one in Q2; auto; destruct Q2 as [<- Q2]; try discriminate Q2; try (injection Q2 as Q2; subst); auto.
Qed.
(** ** Delivery *)
Lemma tags_calls : forall l k, only_tags (calls l k) -> ~ In OClose l.
Proof. induction l as [|o l IH]; intros k H; [intros []|]. destruct H as [H1 H2]. intros [->|I0]; [exact H1|exact (IH _ H2 I0)]. Qed.
Lemma reads_quiet : forall fin raw s l k, raw_ok raw -> reads fin raw s (calls l k) -> tokens fin raw s = calls l k /\ ~ In OClose l.
Proof. intros fin raw s l k O R. apply tokens_reads in R; [|exact O]. split; [exact R|]. apply (tags_calls l k). rewrite <- R. apply (tokens_only (length s)). lia. Qed.
Lemma deliver_calls : forall g raw l k p, match run g l p with
  | Ok p' => deliver g raw (calls l k) p = deliver g raw k p'
  | Err e => exists h, deliver g raw (calls l k) p = (h, Some e) end.
Proof. intros g raw l k p. rewrite <- all_calls. apply deliver_all. Qed.
Lemma source_render : forall o g src evs fail, construct o = Ok g -> source src evs fail ->
  render_text o src = match feed_error g evs with
                      | Some e => Err e
                      | None => match fail with Some e => Err e | None => render_doc o evs end
                      end.
Proof.
  intros o g src evs fail CN SO. assert (O0 : raw_ok None) by now left. unfold render_text, render_pieces, render_doc. rewrite CN. cbn [bind feed_all]. unfold feed. cbn [parser0 h_raw h_cd h_p app].
  destruct SO as [l raw r l2 raw2 r2 R1 R2|l e R1|l raw r l2 e R1 R2].
  - assert (OR : raw_ok raw) by (pose proof (proj1 (reads_ends false) _ _ _ R1 O0) as X; now apply ends_fold in X). destruct (reads_quiet _ _ _ _ _ O0 R1) as [-> N1]. destruct (reads_quiet _ _ _ _ _ OR R2) as [T2 N2].
    assert (NC : ~ In OClose (l ++ l2)) by (rewrite in_app_iff; tauto). pose proof (feed_outcome g (l ++ l2) [] pstate0 eq_refl NC) as FO. fold (feed_error g (l ++ l2)) in FO. rewrite <- app_assoc, run_app. rewrite run_app in FO.
    pose proof (deliver_calls g src l (TStop raw r) pstate0) as D. destruct (run g l pstate0) as [p1|e1]; cbn [bind] in *.
    + rewrite D. cbn [deliver]. unfold finalise. cbn [h_raw h_cd h_p]. rewrite T2. pose proof (deliver_calls g r l2 (TStop raw2 r2) p1) as D2. rewrite run_app. destruct (run g l2 p1) as [p2|e2]; cbn [bind] in *.
      * rewrite D2. cbn [deliver h_p run step]. destruct (feed_error g (l ++ l2)) as [e|]; [discriminate FO|]. unfold close_x. destruct (close g p2) as [p3|e3]; reflexivity.
      * destruct D2 as (h & ->). destruct (feed_error g (l ++ l2)) as [e|]; [congruence|destruct FO; discriminate].
    + destruct D as (h & ->). destruct (feed_error g (l ++ l2)) as [e|]; [congruence|destruct FO; discriminate].
  - destruct (reads_quiet _ _ _ _ _ O0 R1) as [-> N1]. pose proof (feed_outcome g l [] pstate0 eq_refl N1) as FO. fold (feed_error g l) in FO. pose proof (deliver_calls g src l (TErr e) pstate0) as D. destruct (run g l pstate0) as [p1|e1].
    + rewrite D. cbn [deliver]. destruct (feed_error g l); [discriminate FO|reflexivity].
    + destruct D as (h & ->). destruct (feed_error g l); [congruence|destruct FO; discriminate].
  - assert (OR : raw_ok raw) by (pose proof (proj1 (reads_ends false) _ _ _ R1 O0) as X; now apply ends_fold in X). destruct (reads_quiet _ _ _ _ _ O0 R1) as [-> N1]. destruct (reads_quiet _ _ _ _ _ OR R2) as [T2 N2].
    assert (NC : ~ In OClose (l ++ l2)) by (rewrite in_app_iff; tauto). pose proof (feed_outcome g (l ++ l2) [] pstate0 eq_refl NC) as FO. fold (feed_error g (l ++ l2)) in FO. rewrite run_app in FO.
    pose proof (deliver_calls g src l (TStop raw r) pstate0) as D. destruct (run g l pstate0) as [p1|e1]; cbn [bind] in *.
    + rewrite D. cbn [deliver]. unfold finalise. cbn [h_raw h_cd h_p]. rewrite T2. pose proof (deliver_calls g r l2 (TErr e) p1) as D2. destruct (run g l2 p1) as [p2|e2]; cbn [bind] in *.
      * rewrite D2. cbn [deliver]. destruct (feed_error g (l ++ l2)) as [e'|]; [discriminate FO|reflexivity].
      * destruct D2 as (h & ->). destruct (feed_error g (l ++ l2)) as [e'|]; [congruence|destruct FO; discriminate].
    + destruct D as (h & ->). destruct (feed_error g (l ++ l2)) as [e'|]; [congruence|destruct FO; discriminate].
Qed.
Lemma source_quiet : forall src evs fail, source src evs fail -> ~ In OClose evs.
Proof.
  assert (O0 : raw_ok None) by now left. intros src evs fail SO. destruct SO as [l raw r l2 raw2 r2 R1 R2|l e R1|l raw r l2 e R1 R2]; destruct (reads_quiet _ _ _ _ _ O0 R1) as [_ N1]; auto;
  assert (OR : raw_ok raw) by (pose proof (proj1 (reads_ends false) _ _ _ R1 O0) as X; now apply ends_fold in X); destruct (reads_quiet _ _ _ _ _ OR R2) as [_ N2]; rewrite in_app_iff; tauto.
Qed.
(** ** Any history of calls *)
Lemma deliver_raw : forall g raw t p h e, ends_ok t -> deliver g raw t p = (h, e) -> raw_ok (h_cd h).
Proof.
  intros g raw. assert (NN : raw_ok None) by now left. induction t as [cd r|x|o k IH]; intros p h e O H; cbn [deliver] in H; try (injection H as <- _; auto; fail).
  destruct (step_x g o p) as [p' [e'|]]; [injection H as <- _; auto|]. eapply IH; eauto.
Qed.
Lemma tokens_ends : forall fin raw s, raw_ok raw -> ends_ok (tokens fin raw s).
Proof. intros fin raw s O. eapply (proj1 (reads_ends fin)); [|exact O]. now apply tokens_reads. Qed.
Lemma call_raw : forall g c h h' e, raw_ok (h_cd h) -> do_call g c h = (h', e) -> raw_ok (h_cd h').
Proof.
  intros g c h h' e O H. destruct c; cbn [do_call] in H.
  - unfold feed in H. eapply deliver_raw; [|exact H]. now apply tokens_ends.
  - unfold finalise in H. destruct (deliver g (h_raw h) _ (h_p h)) as [h1 [e1|]] eqn:D; assert (O1 : raw_ok (h_cd h1)) by (eapply deliver_raw; [|exact D]; now apply tokens_ends); [now injection H as <- _|]. destruct (close_x g (h_p h1)) as [p e2]. now injection H as <- _.
  - injection H as <- _. now left.
Qed.
Lemma calls_raw : forall g l h h' es, raw_ok (h_cd h) -> do_calls g l h = (h', es) -> raw_ok (h_cd h').
Proof.
  intros g. induction l as [|c l IH]; intros h h' es O H; cbn [do_calls] in H; [now injection H as <- _|]. destruct (do_call g c h) as [h1 e] eqn:C. destruct (do_calls g l h1) as [h2 es2] eqn:D. injection H as <- _. eapply IH; [|exact D]. eapply call_raw; eauto.
Qed.
End M.
Close Scope N_scope.
