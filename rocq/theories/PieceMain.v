(** From the reading of pieces to what a parser does with them. *)
From Verif Require Import WrapFacts WrapLoop WrapWidth.
From Verif Require Import BaseFacts StrFacts SelFacts TreeFacts HistoryFacts DomFacts LineFacts BoxFacts TokFacts CrashFacts.
From Verif Require Import PageSpec PageRead SourceMain RegexSpec RegexTags Tokenizer.
From Verif Require Export Feed MarkupSpec MarkupFacts MarkupMain PieceSpec.
Section M.
Context `{U : Uni}.
Lemma stop_ok : forall fin raw s l raw' r, raw_ok raw -> reads fin raw s (calls l (TStop raw' r)) -> raw_ok raw'.
Proof. intros fin raw s l raw' r O R. pose proof (proj1 (reads_ends fin) _ _ _ R O) as X. now apply ends_fold in X. Qed.
Lemma on_some : forall l raw kept, raw_ok raw -> exists evs fail, read_on raw kept l evs fail.
Proof.
  induction l as [|x l IH]; intros raw kept O.
  - assert (R : reads true raw kept (tokens true raw kept)) by (apply tokens_reads; auto). destruct (stop_calls (tokens true raw kept)) as [(l & raw' & r & E)|(l & e & E)]; rewrite E in R.
    + exists l, None. eapply ro_end; eauto.
    + exists l, (Some e). eapply ro_end_fail; eauto.
  - assert (R : reads false raw (kept ++ x) (tokens false raw (kept ++ x))) by (apply tokens_reads; auto). destruct (stop_calls (tokens false raw (kept ++ x))) as [(evs & raw' & r & E)|(evs & e & E)]; rewrite E in R.
    + destruct (IH raw' r (stop_ok _ _ _ _ _ _ O R)) as (evs' & fail & H). exists (evs ++ evs'), fail. eapply ro_feed; eauto.
    + exists evs, (Some e). eapply ro_feed_fail; eauto.
Qed.
Lemma on_one : forall l raw kept evs fail evs' fail', read_on raw kept l evs fail -> read_on raw kept l evs' fail' -> evs = evs' /\ fail = fail'.
Proof.
  assert (N1 : forall raw r o x, TStop raw r <> TEv o x) by discriminate. assert (N2 : forall e o x, TErr e <> TEv o x) by discriminate.
  induction l as [|x l IH]; intros raw kept evs fail evs' fail' A B.
  - inversion A as [? ? ? ? ? R|? ? ? ? R| |]; subst; inversion B as [? ? ? ? ? R'|? ? ? ? R'| |]; subst; pose proof (proj1 (reads_one_both true) _ _ _ R _ R') as Q; apply calls_one in Q; auto; destruct Q as [<- Q]; try discriminate Q; auto. injection Q as <-. auto.
  - inversion A as [| |? ? ? ? l1 raw1 r1 l2 f2 R K|? ? ? ? ? ? R]; subst; inversion B as [| |? ? ? ? l1' raw1' r1' l2' f2' R' K'|? ? ? ? ? ? R']; subst; pose proof (proj1 (reads_one_both false) _ _ _ R _ R') as Q; apply calls_one in Q; auto; destruct Q as [<- Q]; try discriminate Q.
    + injection Q as <- <-. destruct (IH _ _ _ _ _ _ K K') as [<- <-]. auto.
    + injection Q as <-. auto.
Qed.
Lemma on_quiet : forall l raw kept evs fail, raw_ok raw -> read_on raw kept l evs fail -> ~ In OClose evs.
Proof.
  induction l as [|x l IH]; intros raw kept evs fail O A; inversion A as [? ? ? ? ? R|? ? ? ? R|? ? ? ? l1 raw1 r1 l2 f2 R K|? ? ? ? ? ? R]; subst; destruct (reads_quiet _ _ _ _ _ O R) as [_ N1]; auto.
  rewrite in_app_iff. pose proof (IH _ _ _ _ (stop_ok _ _ _ _ _ _ O R) K). tauto.
Qed.
(** The pieces, given to a parser with a state: what running the calls gives. *)
Lemma on_run : forall g l raw kept evs fail p, raw_ok raw -> read_on raw kept l evs fail ->
  match feed_all g l (Parser kept raw p) with
  | (_, Some e) => Err e
  | (h, None) => match finalise g h with (_, Some e) => Err e | (h', None) => Ok (p_out (h_p h')) end
  end = match run g evs p with
        | Err e => Err e
        | Ok p' => match fail with Some e => Err e | None => let* q := close g p' in Ok (p_out q) end
        end.
Proof.
  intros g. induction l as [|x l IH]; intros raw kept evs fail p O A; cbn [feed_all].
  - inversion A as [? ? ? raw' r R|? ? ? e R| |]; subst; destruct (reads_quiet _ _ _ _ _ O R) as [T N1]; unfold finalise; cbn [h_raw h_cd h_p]; rewrite T.
    + pose proof (deliver_calls g kept evs (TStop raw' r) p) as D. destruct (run g evs p) as [p1|e1]; [|now destruct D as (h & ->)]. rewrite D. cbn [deliver h_p h_raw h_cd]. unfold close_x. destruct (close g p1) as [p3|e3]; reflexivity.
    + pose proof (deliver_calls g kept evs (TErr e) p) as D. destruct (run g evs p) as [p1|e1]; [|now destruct D as (h & ->)]. now rewrite D.
  - unfold feed. cbn [h_raw h_cd h_p]. inversion A as [| |? ? ? ? l1 raw1 r1 l2 f2 R K|? ? ? ? ? e R]; subst; destruct (reads_quiet _ _ _ _ _ O R) as [T N1]; rewrite T.
    + rewrite run_app. pose proof (deliver_calls g (kept ++ x) l1 (TStop raw1 r1) p) as D. destruct (run g l1 p) as [p1|e1]; cbn [bind]; [|now destruct D as (h & ->)]. rewrite D. cbn [deliver]. apply IH; [exact (stop_ok _ _ _ _ _ _ O R)|exact K].
    + pose proof (deliver_calls g (kept ++ x) evs (TErr e) p) as D. destruct (run g evs p) as [p1|e1]; [|now destruct D as (h & ->)]. now rewrite D.
Qed.
Lemma pieces_quiet : forall l evs fail, pieces l evs fail -> ~ In OClose evs.
Proof. intros l evs fail H. eapply on_quiet; [|exact H]. now left. Qed.
Lemma pieces_render : forall o g l evs fail, construct o = Ok g -> pieces l evs fail ->
  render_pieces o l = match feed_error g evs with
                      | Some e => Err e
                      | None => match fail with Some e => Err e | None => render_doc o evs end
                      end.
Proof.
  intros o g l evs fail CN A. assert (O0 : raw_ok None) by now left. unfold render_pieces, render_doc. rewrite CN. cbn [bind]. unfold parser0. rewrite (on_run g l None [] evs fail pstate0 O0 A).
  pose proof (feed_outcome g evs [] pstate0 eq_refl (pieces_quiet _ _ _ A)) as FO. fold (feed_error g evs) in FO. rewrite run_app. destruct (run g evs pstate0) as [p1|e1] eqn:R; cbn [bind] in *.
  - destruct (feed_error g evs) as [e|]; [discriminate FO|]. destruct fail as [e|]; [reflexivity|]. cbn [run step]. destruct (close g p1); reflexivity.
  - destruct (feed_error g evs) as [e|]; [congruence|destruct FO; discriminate].
Qed.
(** ** What is kept stays kept until more comes *)
Fixpoint stable (t : trace) : Prop := match t with TStop raw r => reads false raw r (TStop raw r) | TErr _ => True | TEv _ k => stable k end.
Lemma stable_calls : forall l k, stable (fold_right TEv k l) <-> stable k.
Proof. induction l as [|o l IH]; intros k; [reflexivity|exact (IH k)]. Qed.
Lemma said_stable : forall a k t, said a k t -> stable k -> stable t.
Proof. intros a k t H K. destruct H; [exact K|exact Logic.I]. Qed.
Lemma shut_search : forall e s, raw_ok (Some e) -> cdata_close e s = true -> exists m, search_from (raw_close_re e) [] s = Some ([], m).
Proof.
  intros e s O C. destruct (raw_letters e O) as [FL NE]. pose proof (raw_search e FL NE s []) as RS. assert (E : cdata_text e s = Some ([], s)) by (destruct s; cbn [cdata_text]; rewrite C; reflexivity).
  rewrite E in RS. destruct RS as (m & SF & _). exists m. exact SF.
Qed.
Lemma found_shut : forall e s a m r, raw_ok (Some e) -> search_from (raw_close_re e) [] s = Some (a, m) -> s = a ++ r -> cdata_close e r = true.
Proof.
  intros e s a m r O SF E. destruct (raw_letters e O) as [FL NE]. pose proof (raw_search e FL NE s []) as RS. destruct (cdata_text e s) as [[a' r']|] eqn:C; [|congruence].
  destruct RS as (m' & SF' & E'). rewrite SF in SF'. injection SF' as <- <-. rewrite E in E'. apply app_inv_head in E'. subst r'. clear SF. revert a r E C. induction s as [|c s IH]; intros a r E C; cbn [cdata_text] in C.
  - destruct (cdata_close e []) eqn:X; [|discriminate C]. injection C as <- <-. exact X.
  - destruct (cdata_close e (c :: s)) eqn:X; [injection C as <- <-; exact X|]. destruct (cdata_text e s) as [[a1 r1]|] eqn:C1; [|discriminate C]. injection C as <- <-. cbn [app] in E. injection E as E. exact (IH _ _ E eq_refl).
Qed.
Lemma markup_before : forall b b' s x, markup None b s x -> markup None b' s x.
Proof.
  intros b b' s x M. destruct s as [|z [|c t]]; [inversion M|inversion M|]. assert (z = 60%N) by (inversion M; reflexivity). subst z.
  destruct (markup_sound None b c t (or_introl eq_refl)) as (y & P & M1). destruct (markup_sound None b' c t (or_introl eq_refl)) as (y' & P' & M2). rewrite P in P'. injection P' as <-. now rewrite (markup_one _ _ _ _ _ M M1).
Qed.
Lemma stable_both :
  (forall raw s t, reads false raw s t -> raw_ok raw -> stable t)
  /\ (forall raw b s t, at_lt false raw b s t -> raw_ok raw -> (forall e, raw = Some e -> cdata_close e s = true) -> stable t).
Proof.
  assert (NN : raw_ok None) by now left.
  apply (reads_both _ false (fun raw s t _ => raw_ok raw -> stable t) (fun raw b s t _ => raw_ok raw -> (forall e, raw = Some e -> cdata_close e s = true) -> stable t)).
  - intros raw O. apply rd_nothing.
  - intros s t NE N0 NC SA O. eapply said_stable; [exact SA|]. apply rd_nothing.
  - intros s N0 C F O. now apply rd_keep.
  - intros s t N0 C F. discriminate F.
  - intros r t AL IH O. apply IH; [exact O|discriminate].
  - intros s a r k t P NE AL IH SA O. eapply said_stable; [exact SA|]. apply IH; [exact O|discriminate].
  - intros e s NE SF O. now apply rd_raw_wait.
  - intros e s m t SF AL IH O. apply IH; [exact O|]. intros e' Q. injection Q as <-. exact (found_shut e s [] m s O SF eq_refl).
  - intros e s a r m k SF NE E AL IH O. apply IH; [exact O|]. intros e' Q. injection Q as <-. exact (found_shut e s a m r O SF E).
  - intros raw b D O C. destruct raw as [e|]; [discriminate (C e eq_refl)|]. apply rd_mark, al_last. now left.
  - intros b F. discriminate F.
  - intros raw b s evs raw' r k M RD IH O C. apply stable_calls, IH. eapply markup_raw; eauto.
  - intros. exact Logic.I.
  - intros raw b s F M O C. destruct raw as [e|].
    + destruct (shut_search e s O (C e eq_refl)) as (m & SF). eapply rd_raw_mark; [exact SF|]. apply al_wait; [reflexivity|].
      destruct (shut_shape e s (C e eq_refl)) as (t & ->). destruct (markup_sound (Some e) b 47%N t (or_intror eq_refl)) as (y & P & M1). destruct (markup_sound (Some e) [] 47%N t (or_intror eq_refl)) as (y' & P' & M2).
      rewrite P in P'. injection P' as <-. now rewrite (markup_one _ _ _ _ _ M M1).
    + destruct s as [|z s]; [inversion M|]. assert (z = 60%N) by (inversion M; reflexivity). subst z. apply rd_mark, al_wait; [reflexivity|]. eapply markup_before; eauto.
  - intros b s a r k t F. discriminate F.
  - intros e b s a r k F. discriminate F.
Qed.
Lemma on_empty : forall l1 raw kept evs fail l2, raw_ok raw -> reads false raw kept (TStop raw kept) -> (read_on raw kept (l1 ++ [] :: l2) evs fail <-> read_on raw kept (l1 ++ l2) evs fail).
Proof.
  assert (H : forall l1 raw kept evs fail l2, raw_ok raw -> reads false raw kept (TStop raw kept) -> read_on raw kept (l1 ++ l2) evs fail -> read_on raw kept (l1 ++ [] :: l2) evs fail).
  { induction l1 as [|x l1 IH]; intros raw kept evs fail l2 O S0 A; cbn [app] in *.
    - change evs with ([] ++ evs). eapply ro_feed; [rewrite app_nil_r; exact S0|exact A].
    - inversion A as [| |? ? ? ? e1 raw1 r1 e2 f2 R K|? ? ? ? ? e R]; subst; [|eapply ro_feed_fail; eauto]. eapply ro_feed; [exact R|]. apply IH; [eapply stop_ok; eauto| |exact K].
      pose proof (proj1 stable_both _ _ _ R O) as T. now apply stable_calls in T. }
  intros l1 raw kept evs fail l2 O S0. split; [|now apply H]. intros A. destruct (on_some (l1 ++ l2) raw kept O) as (evs' & fail' & B). pose proof (H _ _ _ _ _ _ O S0 B) as B'. destruct (on_one _ _ _ _ _ _ _ A B') as [-> ->]. exact B.
Qed.
End M.
