(** From source text to the events of the document. *)
From Verif Require Import BaseFacts StrFacts TreeFacts TokFacts CrashFacts.
From Verif Require Export SourceTags Feed.
Open Scope N_scope.
Section M.
Context `{U : Uni}.

(** ** Traces *)
(** Feeding and then closing: what is kept is read again. *)
Fixpoint then_close (t : trace) : trace :=
  match t with
  | TStop cd r => tokens true cd r
  | TErr e => TErr e
  | TEv o k => TEv o (then_close k)
  end.
Lemma emit_all_app : forall a b k, emit_all (a ++ b) k = emit_all a (emit_all b k).
Proof. induction a as [|o a IH]; intros; cbn [app emit_all]; [reflexivity|now rewrite IH]. Qed.
Lemma then_close_all : forall l k, then_close (emit_all l k) = emit_all l (then_close k).
Proof. induction l as [|o l IH]; intros; cbn [emit_all then_close]; [reflexivity|now rewrite IH]. Qed.

Lemma tokens_markup : forall f x r evs cd', parse_markup None (60 :: x) = Some (MGo evs cd' r) ->
  tokens f None (60 :: x) = emit_all evs (tokens f cd' r).
Proof. intros f x r evs cd' H. rewrite tokens_eq. cbn [drop_while take_while not_lt]. change (not_lt 60) with false. cbv iota. unfold at_markup. now rewrite H. Qed.
Lemma tokens_at : forall f x, tokens f None (60 :: x) = at_markup f None (60 :: x).
Proof. intros. rewrite tokens_eq. cbn [drop_while take_while]. change (not_lt 60) with false. reflexivity. Qed.

(** ** Text *)
Lemma text_not_lt {sm} : forall m s, text_as sm (fun c => c <> 60) m s -> Forall (fun c => not_lt c = true) s.
Proof.
  intros m s T. eapply text_chars; [exact T|..]; try reflexivity; unfold not_lt.
  - intros c H. destruct (N.eqb_spec c 60); [contradiction|reflexivity].
  - intros c H. unfold hex_char, digit in H. destruct (N.eqb_spec c 60); [lia|reflexivity].
  - intros c (_ & _ & H & _). destruct (N.eqb_spec c 60); [contradiction|reflexivity].
Qed.
Lemma text_tokens {sm} : forall f m s x, s <> [] -> text_as sm (fun c => c <> 60) m s -> tokens f None (s ++ 60 :: x) = TEv (OData m) (tokens f None (60 :: x)).
Proof.
  intros f m s x NE T. rewrite tokens_at, tokens_eq. destruct (take_app not_lt s (60 :: x) (text_not_lt _ _ T)) as [E1 E2]; [right; eexists; eexists; split; reflexivity|].
  rewrite E1, E2. destruct s as [|c s]; [now elim NE|]. cbn [app]. unfold emit. now rewrite (text_unescape _ _ _ T).
Qed.
Lemma text_last {sm} : forall m s, s <> [] -> text_as sm (fun c => c <> 60) m s -> then_close (tokens false None s) = TEv (OData m) (TStop None []).
Proof.
  intros m s NE T. destruct (take_app not_lt s [] (text_not_lt _ _ T)) as [E1 E2]; [now left|]. rewrite app_nil_r in E1, E2.
  assert (EM : forall k, emit s k = TEv (OData m) k) by (intros k; unfold emit; now rewrite (text_unescape _ _ _ T)).
  rewrite tokens_eq, E1, E2. destruct s as [|c s]; [now elim NE|]. destruct (half_reference (c :: s)) eqn:H.
  - cbn [finish then_close]. rewrite tokens_eq, E2, H. cbn [finish]. apply EM.
  - rewrite EM. cbn [then_close]. now rewrite tokens_eq.
Qed.

(** ** Tags *)
Lemma start_tokens {sm} : forall f t a st x, start_as sm t a st ->
  tokens f None (st ++ x) = TEv (OStart t a) (tokens f (if seqb t (lit "script") || seqb t (lit "style") then Some t else None) x).
Proof.
  intros f t a st x H. destruct H as [nm s b w SP A FW]. cbn [app].
  replace ((nm ++ s ++ w ++ [62]) ++ x) with (nm ++ s ++ w ++ [62] ++ x) by (rewrite <- !app_assoc; reflexivity).
  rewrite (tokens_markup f _ x [OStart t a] (if seqb t (lit "script") || seqb t (lit "style") then Some t else None)); [reflexivity|].
  rewrite (start_read nm t a s b w [62] x SP A FW); [reflexivity|now left|intros _; now right].
Qed.
Lemma slashed_tokens {sm} : forall f t a st x, slashed_as sm t a st -> tokens f None (st ++ x) = TEv (OStart t a) (TEv (OEnd t) (tokens f None x)).
Proof.
  intros f t a st x H. destruct H as [nm s b w SP A FW BR]. cbn [app].
  replace ((nm ++ s ++ w ++ [47; 62]) ++ x) with (nm ++ s ++ w ++ [47; 62] ++ x) by (rewrite <- !app_assoc; reflexivity).
  rewrite (tokens_markup f _ x [OStart t a; OEnd t] None); [reflexivity|].
  rewrite (start_read nm t a s b w [47; 62] x SP A FW); [reflexivity|now right|]. intros B. left. auto.
Qed.
Lemma end_first : forall t en, end_as t en -> exists y, en = 60 :: y.
Proof. intros t en H. destruct H. eauto. Qed.
Lemma end_tokens : forall f t en x, end_as t en -> tokens f None (en ++ x) = TEv (OEnd t) (tokens f None x).
Proof.
  intros f t en x H. destruct (end_first _ _ H) as (y & E). pose proof (end_read None t en x H (or_introl eq_refl)) as P. subst en. cbn [app] in *.
  now rewrite (tokens_markup f _ _ _ _ P).
Qed.
Lemma aside_tokens : forall f y x, aside y -> tokens f None (y ++ x) = tokens f None x.
Proof.
  intros f y x H. pose proof (aside_read y x H) as P. assert (E : exists z, y = 60 :: z) by (destruct H; eauto). destruct E as (z & ->). cbn [app] in *.
  now rewrite (tokens_markup f _ _ _ _ P).
Qed.

(** ** Elements whose content is not markup *)
Lemma starts_ci_small : forall nm p r, Forall name_part nm -> map small nm = p -> starts_ci p (nm ++ r) = Some r.
Proof.
  intros nm p r F E. subst p. induction F as [|c nm NP _ IH]; [reflexivity|]. cbn [map app starts_ci]. replace (same_letter (small c) c) with true; [assumption|].
  unfold same_letter, small, is_upper_ascii. destruct ((65 <=? c) && (c <=? 90)) eqn:Q; cbn [andb]; rewrite N.eqb_refl, ?orb_true_r; reflexivity.
Qed.
Lemma raw_close : forall t en x, end_as t en -> cdata_close t (en ++ x) = true.
Proof.
  intros t en x H. destruct H as [w1 nm w2 F1 SP F2]. cbn [app cdata_close]. rewrite <- !app_assoc. cbn [app].
  pose proof (spells_parts _ _ SP) as FN. destruct SP as (c & nm' & -> & CL & FN' & TT).
  destruct (take_app is_space w1 ((c :: nm') ++ w2 ++ 62 :: x)) as [_ ->].
  { now apply blanks_space. }
  { right. eexists. eexists. split; [reflexivity|]. apply (name_facts c). now apply letter_part. }
  rewrite (starts_ci_small (c :: nm') t) by assumption.
  destruct (take_app is_space w2 (62 :: x)) as [_ ->]; [now apply blanks_space|right; eexists; eexists; split; reflexivity|]. reflexivity.
Qed.
Lemma raw_tail : forall c s, raw_text (c :: s) -> raw_text s.
Proof. intros c s H x y E. apply (H (c :: x) y). now rewrite E. Qed.
Lemma raw_split : forall t s en x, raw_text s -> end_as t en -> cdata_text t (s ++ en ++ x) = Some (s, en ++ x).
Proof.
  intros t s en x R E. induction s as [|c s IH]; cbn [app].
  - pose proof (raw_close t en x E) as C. destruct (end_first _ _ E) as (y & ->). cbn [app] in *. cbn [cdata_text]. now rewrite C.
  - cbn [cdata_text]. replace (cdata_close t (c :: s ++ en ++ x)) with false; [now rewrite IH by (eapply raw_tail; eauto)|]. symmetry. destruct (end_first _ _ E) as (y & ->).
    destruct s as [|d s]; cbn [app cdata_close].
    + destruct c as [|p]; [reflexivity|]. do 6 (destruct p as [p|p|]; try reflexivity).
    + destruct (N.eq_dec c 60) as [->|NC]; [|destruct c as [|p]; [reflexivity|]; do 6 (destruct p as [p|p|]; try reflexivity); now elim NC].
      destruct (N.eq_dec d 47) as [->|ND]; [elim (R [] s eq_refl)|]. destruct d as [|p]; [reflexivity|]. do 6 (destruct p as [p|p|]; try reflexivity). now elim ND.
Qed.
Lemma raw_tokens {sm} : forall f t a st s en x, raw_element t -> start_as sm t a st -> raw_text s -> end_as t en ->
  tokens f None (st ++ s ++ en ++ x) = emit_all (OStart t a :: (match s with [] => [] | _ => [OData s] end) ++ [OEnd t]) (tokens f None x).
Proof.
  intros f t a st s en x RE ST R E. rewrite (start_tokens f t a st _ ST). replace (seqb t (lit "script") || seqb t (lit "style")) with true by (destruct RE; subst; reflexivity).
  rewrite tokens_eq. assert (NE : exists c z, s ++ en ++ x = c :: z) by (destruct (end_first _ _ E) as (y & ->); destruct s; cbn; eauto).
  destruct NE as (c & z & NE). rewrite NE, <- NE, raw_split by assumption. assert (AM : at_markup f (Some t) (en ++ x) = TEv (OEnd t) (tokens f None x)).
  { pose proof (end_read (Some t) t en x E (or_intror eq_refl)) as P. destruct (end_first _ _ E) as (y & ->). cbn [app] in *. unfold at_markup. now rewrite P. }
  rewrite AM. destruct s; reflexivity.
Qed.

(** ** Documents *)
(** End tags of void elements do nothing. *)
Definition counts (o : op) : bool := match o with OEnd t => negb (void t) | _ => true end.
Lemma written_tokens {sm} : forall doc src, written sm doc src -> exists E, filter counts E = flat_map events doc
  /\ (forall f r, tokens f None (src ++ 60 :: r) = emit_all E (tokens f None (60 :: r)))
  /\ then_close (tokens false None src) = emit_all E (TStop None []).
Proof.
  intros doc src H. induction H as [|m s rest src NE T AT W (E & EF & P & Q)|t a st kids ks en rest src NR NV ST WK (EK & EFK & PK & _) EN W (E & EF & P & Q)
    |t a st rest src NV ST W (E & EF & P & Q)|t a st rest src V ST W (E & EF & P & Q)|t a st s en rest src RE ST R EN W (E & EF & P & Q)|x rest src A W (E & EF & P & Q)].
  - exists []. repeat split.
  - exists (OData m :: E). cbn [filter counts flat_map events]. rewrite EF. split; [reflexivity|]. cbn [emit_all]. split.
    + intros f r. destruct AT as [->|(x & ->)].
      * rewrite app_nil_r, (text_tokens f m s r NE T). now rewrite <- (P f r).
      * rewrite <- app_assoc. cbn [app]. rewrite (text_tokens f m s _ NE T). now rewrite <- (P f r).
    + destruct AT as [->|(x & ->)].
      * rewrite app_nil_r, (text_last m s NE T). rewrite <- Q, tokens_eq. cbn [then_close]. now rewrite tokens_eq.
      * rewrite (text_tokens false m s x NE T). cbn [then_close]. now rewrite <- Q.
  - destruct (end_first _ _ EN) as (y & EY). assert (CD : seqb t (lit "script") || seqb t (lit "style") = false).
    { unfold raw_element in NR. destruct (seqb t (lit "script")) eqn:E1; [apply seqb_eq in E1; tauto|]. destruct (seqb t (lit "style")) eqn:E2; [apply seqb_eq in E2; tauto|reflexivity]. }
    assert (G : forall f x, tokens f None (st ++ ks ++ en ++ x) = emit_all (OStart t a :: EK ++ [OEnd t]) (tokens f None x)).
    { intros f x. rewrite (start_tokens f t a st _ ST), CD. cbn [emit_all]. f_equal. rewrite EY. cbn [app]. rewrite PK. change (60 :: y ++ x) with ((60 :: y) ++ x). rewrite <- EY, (end_tokens f t en x EN), emit_all_app. reflexivity. }
    exists ((OStart t a :: EK ++ [OEnd t]) ++ E). split; [|split].
    + rewrite filter_app. cbn [filter counts]. rewrite filter_app. cbn [filter counts flat_map events]. now rewrite EFK, EF, NV.
    + intros f r. rewrite <- !app_assoc, G, P. now rewrite emit_all_app.
    + now rewrite G, then_close_all, Q, emit_all_app.
  - exists ([OStart t a; OEnd t] ++ E). split; [cbn [app filter counts flat_map events]; now rewrite EF, NV|]. split.
    + intros f r. rewrite <- app_assoc, (slashed_tokens f t a st _ ST), P. reflexivity.
    + rewrite (slashed_tokens false t a st _ ST). cbn [then_close]. now rewrite Q.
  - destruct ST as [ST|ST].
    + assert (CD : seqb t (lit "script") || seqb t (lit "style") = false) by (unfold void in V; apply orb_true_iff in V; destruct V as [V|V]; apply seqb_eq in V; subst; reflexivity).
      exists ([OStart t a] ++ E). split; [cbn [app filter counts flat_map events]; now rewrite EF, V|]. split.
      * intros f r. rewrite <- app_assoc, (start_tokens f t a st _ ST), CD, P. reflexivity.
      * rewrite (start_tokens false t a st _ ST), CD. cbn [then_close]. now rewrite Q.
    + exists ([OStart t a; OEnd t] ++ E). split; [cbn [app filter counts flat_map events]; now rewrite EF, V|]. split.
      * intros f r. rewrite <- app_assoc, (slashed_tokens f t a st _ ST), P. reflexivity.
      * rewrite (slashed_tokens false t a st _ ST). cbn [then_close]. now rewrite Q.
  - exists ((OStart t a :: (match s with [] => [] | _ => [OData s] end) ++ [OEnd t]) ++ E). assert (NV : void t = false) by (destruct RE; subst; reflexivity). split; [|split].
    + rewrite filter_app. cbn [filter counts flat_map events]. rewrite filter_app. cbn [filter counts]. rewrite NV, EF. destruct s; reflexivity.
    + intros f r. rewrite <- !app_assoc, (raw_tokens f t a st s en _ RE ST R EN), P. now rewrite emit_all_app.
    + now rewrite (raw_tokens false t a st s en _ RE ST R EN), then_close_all, Q, emit_all_app.
  - exists E. split; [assumption|]. split.
    + intros f r. now rewrite <- app_assoc, aside_tokens.
    + now rewrite aside_tokens.
Qed.

(** ** Delivery *)
Lemma deliver_all : forall g raw l k p, match run g l p with
  | Ok p' => deliver g raw (emit_all l k) p = deliver g raw k p'
  | Err e => exists h, deliver g raw (emit_all l k) p = (h, Some e) end.
Proof.
  intros g raw. induction l as [|o l IH]; intros k p; cbn [run emit_all deliver]; [reflexivity|]. destruct (step g o p) as [p1|e] eqn:S1; cbn [bind].
  - rewrite (step_x_ok _ _ _ _ S1). apply IH.
  - destruct (step_x_err _ _ _ _ S1) as (s' & ->). eauto.
Qed.
(** What a caller sees of feeding (the trace [t]) and closing. *)
Lemma deliver_closed : forall g t raw p E, then_close t = emit_all E (TStop None []) ->
  match deliver g raw t p with
  | (_, Some e) => Err e
  | (h, None) => match finalise g h with
                 | (_, Some e) => Err e
                 | (h', None) => Ok (p_out (h_p h'))
                 end
  end = let* s := run g (E ++ [OClose]) p in Ok (p_out s).
Proof.
  intros g. induction t as [cd r|e|o k IH]; intros raw p E H; cbn [then_close deliver] in *.
  - unfold finalise. cbn [h_raw h_cd h_p]. rewrite H, run_app. pose proof (deliver_all g r E (TStop None []) p) as D. destruct (run g E p) as [p'|e]; cbn [bind].
    + rewrite D. cbn [deliver run step h_p]. unfold close_x. destruct (close g p') as [p2|e]; cbn [bind]; [reflexivity|reflexivity].
    + destruct D as (h & ->). reflexivity.
  - destruct E; discriminate.
  - destruct E as [|o' E]; [discriminate|]. cbn [emit_all] in H. injection H as <- H. cbn [app run]. destruct (step g o p) as [p1|e] eqn:S1; cbn [bind].
    + rewrite (step_x_ok _ _ _ _ S1). now apply IH.
    + destruct (step_x_err _ _ _ _ S1) as (s' & ->). reflexivity.
Qed.
Lemma run_counts : forall g l p, run g (filter counts l) p = run g l p.
Proof.
  intros g. induction l as [|o l IH]; intros p; [reflexivity|]. cbn [filter]. destruct (counts o) eqn:C; cbn [run].
  - destruct (step g o p); cbn [bind]; auto.
  - destruct o as [| t | | |]; try discriminate. cbn [counts] in C. apply negb_false_iff in C. cbn [step bind]. unfold handle_endtag. change (is_void t) with (void t). rewrite C. cbn [bind]. auto.
Qed.
Lemma source_page {sm} : forall o doc src, written sm doc src -> render_text o src = render_doc o (flat_map events doc).
Proof.
  intros o doc src W. destruct (written_tokens _ _ W) as (E & EF & _ & Q). unfold render_text, render_pieces, render_doc. destruct (construct o) as [g|e]; cbn [bind]; [|reflexivity].
  cbn [feed_all]. unfold feed. cbn [parser0 h_raw h_cd h_p app]. pose proof (deliver_closed g _ src pstate0 E Q) as D.
  rewrite <- EF. replace (run g (filter counts E ++ [OClose]) pstate0) with (run g (E ++ [OClose]) pstate0) by (rewrite !run_app, run_counts; reflexivity). rewrite <- D.
  destruct (deliver g src (tokens false None src) pstate0) as [h [e|]]; reflexivity.
Qed.
End M.
Close Scope N_scope.
