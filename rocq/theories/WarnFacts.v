(** What a parser prints: facts. *)
From Verif Require Import WrapFacts WrapLoop WrapWidth.
From Verif Require Import BaseFacts StrFacts SelFacts TreeFacts HistoryFacts DomFacts LineFacts BoxFacts TokFacts CrashFacts.
From Verif Require Import PageSpec PageRead SourceMain MarkupSpec MarkupFacts MarkupMain.
From Verif Require Export Warn WarnSpec.
Section W.
Context `{U : Uni}.
Lemma says_step : forall o s z, Inv s z -> step_says o s = reports o (map f_tag (z_open z)).
Proof.
  intros o s z I. destruct o as [t a|t|x| |]; try reflexivity. cbn [step_says reports]. unfold endtag_says. change (is_void t) with (void t). destruct (void t); [reflexivity|].
  rewrite (inv_top _ _ I). pose proof (inv_frames _ _ I) as F. destruct (z_open z) as [|f fs]; [reflexivity|]. cbn [map]. simpl in F.
  destruct F as [(n & Hn & H1 & _) _]. rewrite Hn, H1. reflexivity.
Qed.
Lemma leaf_open : forall t fs root fs' root', add_leaf t fs root = (fs', root') -> map f_tag fs' = map f_tag fs.
Proof. intros t [|f fs] root fs' root' H; cbn in H; injection H as <- _; reflexivity. Qed.
Lemma zopen_step : forall o z, map f_tag (z_open (zstep o z)) = open_step o (map f_tag (z_open z)).
Proof.
  intros o z. destruct o as [t a|t|x| |]; cbn [zstep open_step]; try reflexivity.
  - destruct (void t); [|reflexivity]. destruct (add_leaf _ _ _) as [fs root] eqn:E. cbn [z_open]. exact (leaf_open _ _ _ _ _ E).
  - destruct (void t) eqn:V; [destruct (z_open z); reflexivity|]. destruct (z_open z) as [|f fs]; [reflexivity|]. cbn [map]. destruct (seqb (f_tag f) t); [|reflexivity].
    destruct (add_leaf _ _ _) as [fs' root] eqn:E. cbn [z_open]. exact (leaf_open _ _ _ _ _ E).
  - destruct (add_leaf _ _ _) as [fs root] eqn:E. cbn [z_open]. exact (leaf_open _ _ _ _ _ E).
Qed.
Lemma next_open : forall g o s z s' e, Inv s z -> step_x g o s = (s', e) ->
  exists z', Inv s' z' /\ map f_tag (z_open z') = open_next o e (map f_tag (z_open z)).
Proof.
  intros g o s z s' e I H. destruct (step_x_inv _ _ _ _ _ _ I H) as (z' & I' & X). exists z'. split; auto. destruct e as [e|]; cbn [open_next].
  - destruct o as [t a|t|x| |]; cbn [step_x] in H; try discriminate H; [now rewrite X|].
    destruct (close_x_failed _ _ _ _ H) as (_ & _ & ST & _). pose proof (inv_top _ _ I') as T. unfold get_top in T. rewrite ST in T. destruct (z_open z'); [reflexivity|discriminate T].
  - destruct X as [_ ->]. apply zopen_step.
Qed.
Lemma run_reported : forall g h s z s' es, Inv s z -> run_x g h s = (s', es) ->
  run_says g h s = reported_from (map f_tag (z_open z)) (combine h es).
Proof.
  intros g. induction h as [|o h IH]; intros s z s' es I H; [reflexivity|]. rewrite run_x_cons in H. injection H as H1 H2. subst es. cbn [run_says combine reported_from].
  destruct (step_x g o s) as [s1 e] eqn:E. cbn [fst snd] in *. destruct (next_open _ _ _ _ _ _ I E) as (z' & I' & <-). rewrite (says_step _ _ _ I). f_equal.
  apply IH with (s' := s'); auto. destruct (run_x g h s1); cbn in *; now subst.
Qed.
Definition plainly (h : list op) : list (op * option exn) := map (fun o => (o, None)) h.
Definition open_then (l : list str) (h : list op) : list str := fold_left (fun l o => open_step o l) h l.
Lemma reported_app : forall a b l, reported_from l (plainly (a ++ b)) = reported_from l (plainly a) ++ reported_from (open_then l a) (plainly b).
Proof.
  induction a as [|o a IH]; intros b l; [reflexivity|]. cbn [app plainly map reported_from open_next open_then fold_left]. rewrite <- app_assoc. f_equal. apply IH.
Qed.
(** ** Documents *)
Lemma document_quiet : forall doc l, reported_from l (plainly (flat_map events doc)) = [] /\ open_then l (flat_map events doc) = l.
Proof.
  assert (G : forall h l, reported_from l (plainly (events h)) = [] /\ open_then l (events h) = l).
  { induction h as [t a kids IH|x] using html_ind3; intros l; [|split; reflexivity]. cbn [events]. destruct (void t) eqn:V.
    - rewrite app_nil_r. cbn [plainly map reported_from reports open_next open_step open_then fold_left app]. rewrite V. fold (open_then l (flat_map events kids)). fold (plainly (flat_map events kids)).
      induction IH as [|k kids K _ IHk]; [split; reflexivity|]. cbn [flat_map]. rewrite reported_app. unfold open_then. rewrite fold_left_app. fold (open_then l (events k)). destruct (K l) as [-> ->]. exact IHk.
    - assert (Q : forall l, reported_from l (plainly (flat_map events kids)) = [] /\ open_then l (flat_map events kids) = l).
      { clear V. induction IH as [|k kids K _ IHk]; intros m; [split; reflexivity|]. cbn [flat_map]. rewrite reported_app. unfold open_then. rewrite fold_left_app. fold (open_then m (events k)). destruct (K m) as [-> ->]. apply IHk. }
      cbn [plainly map reported_from reports open_next open_step open_then fold_left app]. rewrite V. fold (plainly (flat_map events kids ++ [OEnd t])). rewrite reported_app, fold_left_app. fold (open_then (t :: l) (flat_map events kids)). destruct (Q (t :: l)) as [-> ->].
      cbn [plainly map reported_from reports fold_left open_step app]. rewrite V, seqb_refl. split; reflexivity. }
  induction doc as [|h doc IH]; intros l; [split; reflexivity|]. cbn [flat_map]. rewrite reported_app. unfold open_then. rewrite fold_left_app. fold (open_then l (events h)). destruct (G h l) as [-> ->]. apply IH.
Qed.
(** ** Text *)
Lemma says_calls : forall g l k p z, Inv p z -> ~ In OClose l ->
  exists done rest p' z', l = done ++ rest /\ run g done p = Ok p' /\ Inv p' z' /\ map f_tag (z_open z') = open_then (map f_tag (z_open z)) done
    /\ ((rest = [] /\ trace_says g (calls l k) p = reported_from (map f_tag (z_open z)) (plainly done) ++ trace_says g k p')
        \/ (exists o r e, rest = o :: r /\ step g o p' = Err e /\ trace_says g (calls l k) p = reported_from (map f_tag (z_open z)) (plainly done))).
Proof.
  intros g. induction l as [|o l IH]; intros k p z I NC; [exists [], [], p, z; repeat (split; [now auto|]); left; auto|].
  assert (NC' : ~ In OClose l) by (intros X; apply NC; now right). cbn [calls fold_right trace_says]. fold (calls l k).
  destruct (step g o p) as [p1|e] eqn:E.
  - rewrite (step_x_ok _ _ _ _ E). destruct (next_open g o p z p1 None I (step_x_ok _ _ _ _ E)) as (z1 & I1 & O1). cbn [open_next] in O1.
    destruct (IH k p1 z1 I1 NC') as (done & rest & p' & z' & -> & R & I' & O' & C). exists (o :: done), rest, p', z'.
    split; [reflexivity|]. cbn [run]. rewrite E. cbn [bind]. split; [exact R|]. split; [exact I'|]. cbn [open_then fold_left plainly map reported_from open_next]. rewrite <- O1. fold (plainly done). split; [exact O'|].
    rewrite (says_step _ _ _ I). destruct C as [[-> C]|(o' & r & e & -> & F & C)]; [left; split; auto; rewrite C; now rewrite <- app_assoc|right; exists o', r, e; rewrite C; auto].
  - exists [], (o :: l), p, z. split; [reflexivity|]. split; [reflexivity|]. split; [exact I|]. split; [reflexivity|]. right. exists o, l, e. split; [reflexivity|]. split; [exact E|].
    destruct (step_x_err _ _ _ _ E) as (s' & ->). destruct o as [t a|t|x| |]; try discriminate E; [reflexivity|elim NC; now left].
Qed.
Lemma ran_none : forall g done p, ~ In OClose done -> run g done pstate0 = Ok p -> feed_error g done = None.
Proof.
  intros g done p NC R. pose proof (feed_outcome g done [] pstate0 eq_refl NC) as FO. fold (feed_error g done) in FO. destruct (feed_error g done); [congruence|reflexivity].
Qed.
Lemma ran_err : forall g done p o e, ~ In OClose (done ++ [o]) -> run g done pstate0 = Ok p -> step g o p = Err e -> feed_error g (done ++ [o]) <> None.
Proof.
  intros g done p o e NC R S. pose proof (feed_outcome g (done ++ [o]) [] pstate0 eq_refl NC) as FO. fold (feed_error g (done ++ [o])) in FO. rewrite run_app, R in FO. cbn [bind run] in FO. rewrite S in FO.
  destruct (feed_error g (done ++ [o])); [discriminate|]. destruct FO; discriminate.
Qed.
Lemma not_in_app : forall (a b : list op), ~ In OClose (a ++ b) -> ~ In OClose a /\ ~ In OClose b.
Proof. intros a b H. rewrite in_app_iff in H. tauto. Qed.
Lemma not_in_step : forall (a : list op) o r, ~ In OClose (a ++ o :: r) -> ~ In OClose (a ++ [o]).
Proof. intros a o r H X. apply H. rewrite in_app_iff in *. destruct X as [X|[X|[]]]; [now left|right; now left]. Qed.
Lemma text_reported : forall o g src evs fail, construct o = Ok g -> source src evs fail ->
  exists done, stops g evs done /\ text_says o src = remarks done.
Proof.
  intros o g src evs fail CN SO. assert (O0 : raw_ok None) by now left. unfold text_says. rewrite CN. unfold feed_says, feed. cbn [parser0 h_raw h_cd h_p app].
  pose proof Inv0 as I0. change (@nil str) with (map f_tag (z_open z0)).
  assert (TWO : forall l raw r l2 k2, ~ In OClose l -> ~ In OClose l2 -> tokens true raw r = calls l2 k2 -> (forall p, trace_says g k2 p = []) ->
    exists done, stops g (l ++ l2) done /\ trace_says g (calls l (TStop raw r)) pstate0 ++ match deliver g src (calls l (TStop raw r)) pstate0 with (h, None) => finalise_says g h | (_, Some _) => map f_tag (z_open z0) end = remarks done).
  { intros l raw r l2 k2 N1 N2 T2 K. destruct (says_calls g l (TStop raw r) pstate0 z0 I0 N1) as (done & rest & p1 & z1 & E & R & I1 & O1 & C).
    pose proof (deliver_calls g src l (TStop raw r) pstate0) as D. destruct C as [[-> C]|(x & rr & e & -> & F & C)].
    - rewrite app_nil_r in E. subst done. rewrite R in D. rewrite D. cbn [deliver]. unfold finalise_says. cbn [h_cd h_raw h_p]. rewrite T2.
      destruct (says_calls g l2 k2 p1 z1 I1 N2) as (done2 & rest2 & p2 & z2 & E2 & R2 & I2 & O2 & C2). exists (l ++ done2).
      assert (RR : run g (l ++ done2) pstate0 = Ok p2) by (rewrite run_app, R; exact R2).
      assert (NN : ~ In OClose (l ++ done2)) by (rewrite in_app_iff; rewrite E2, in_app_iff in N2; tauto).
      split.
      + exists rest2. split; [rewrite E2; apply app_assoc|]. split; [eapply ran_none; eauto|]. intros x rr Q. destruct C2 as [[-> _]|(x' & r' & e & -> & F & _)]; [discriminate Q|]. injection Q as <- <-.
        eapply ran_err; eauto. apply not_in_step with (r := r'). rewrite <- app_assoc, <- E2, in_app_iff. tauto.
      + unfold remarks, reported. fold (plainly (l ++ done2)). change (@nil str) with (map f_tag (z_open z0)). rewrite reported_app, <- O1. rewrite C. cbn [trace_says]. rewrite app_nil_r. f_equal.
        destruct C2 as [[-> C2]|(x' & r' & e & -> & F & C2)]; rewrite C2; [rewrite K; apply app_nil_r|reflexivity].
    - exists done. assert (ND : ~ In OClose done) by (rewrite E, in_app_iff in N1; tauto). split.
      + exists ((x :: rr) ++ l2). split; [rewrite E; symmetry; apply app_assoc|]. split; [eapply ran_none; eauto|]. intros y ry Q. cbn [app] in Q. injection Q as <- _. eapply ran_err; eauto. apply not_in_step with (r := rr). now rewrite <- E.
      + rewrite C. assert (RE : exists e', run g l pstate0 = Err e') by (exists e; rewrite E, run_app, R; cbn [bind run]; now rewrite F). destruct RE as (e' & RE). rewrite RE in D. destruct D as (h & ->). cbn [map z_open z0]. apply app_nil_r. }
  destruct SO as [l raw r l2 raw2 r2 R1 R2|l e R1|l raw r l2 e R1 R2].
  - assert (OR : raw_ok raw) by (pose proof (proj1 (reads_ends false) _ _ _ R1 O0) as X; now apply ends_fold in X). destruct (reads_quiet _ _ _ _ _ O0 R1) as [-> N1]. destruct (reads_quiet _ _ _ _ _ OR R2) as [T2 N2].
    apply TWO with (k2 := TStop raw2 r2); auto.
  - destruct (reads_quiet _ _ _ _ _ O0 R1) as [-> N1]. destruct (says_calls g l (TErr e) pstate0 z0 I0 N1) as (done & rest & p1 & z1 & E & R & I1 & O1 & C). exists done.
    assert (ND : ~ In OClose done) by (rewrite E, in_app_iff in N1; tauto). split.
    + exists rest. split; [exact E|]. split; [eapply ran_none; eauto|]. intros x rr ->. destruct C as [[Q _]|(x' & r' & e' & Q & F & _)]; [discriminate Q|]. injection Q as <- <-. eapply ran_err; eauto. apply not_in_step with (r := rr). now rewrite <- E.
    + pose proof (deliver_calls g src l (TErr e) pstate0) as D. assert (ZZ : match deliver g src (calls l (TErr e)) pstate0 with (h, None) => finalise_says g h | (_, Some _) => map f_tag (z_open z0) end = []).
      { destruct (run g l pstate0); [rewrite D; reflexivity|destruct D as (h & ->); reflexivity]. }
      rewrite ZZ, app_nil_r. destruct C as [[-> C]|(x' & r' & e' & -> & F & C)]; rewrite C; [apply app_nil_r|reflexivity].
  - assert (OR : raw_ok raw) by (pose proof (proj1 (reads_ends false) _ _ _ R1 O0) as X; now apply ends_fold in X). destruct (reads_quiet _ _ _ _ _ O0 R1) as [-> N1]. destruct (reads_quiet _ _ _ _ _ OR R2) as [T2 N2].
    apply TWO with (k2 := TErr e); auto.
Qed.
End W.
