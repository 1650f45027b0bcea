(** Tags and other markup: the model against MarkupSpec. *)
From Verif Require Import SourceFacts Tokenizer TokFacts StrFacts BaseFacts MarkupSpec RegexSpec RegexFacts RegexText RegexRefs RegexTags.
From Coq Require Import Lia.
Open Scope N_scope.

Section F.
Context `{U : Uni}.

(** ** Attributes *)
Lemma quote_is : forall q, is_quote q = true <-> quote_mark q.
Proof. intros q. unfold is_quote, quote_mark. rewrite orb_true_iff, !N.eqb_eq. tauto. Qed.
Lemma text_shape : forall s v, text_here s = Some v -> (exists q u, quote_mark q /\ v = q :: u ++ [q]) \/ (forall q r, quote_mark q -> v <> q :: r).
Proof.
  intros [|q t] v H; [right; intros q r _ E; injection H as <-; discriminate|]. cbn [text_here] in H. destruct (is_quote q) eqn:Q.
  - destruct (has_char q t); [|discriminate]. left. injection H as <-. exists q. eexists. split; [now apply quote_is|reflexivity].
  - right. intros q' r Q' E. assert (E2 : take_while RegexTags.bare_char (q :: t) = q' :: r) by congruence. cbn [take_while] in E2. destruct (RegexTags.bare_char q); [|discriminate]. injection E2 as -> _. apply quote_is in Q'. congruence.
Qed.
Lemma value_shape : forall s v p r, attr_value s = Some (v, p, r) -> (exists q u, quote_mark q /\ v = q :: u ++ [q]) \/ (forall q r, quote_mark q -> v <> q :: r).
Proof.
  intros s v p r H. unfold attr_value in H. cbv zeta in H. set (s1 := drop_while is_space s) in *. set (eqs := take_while (N.eqb 61) s1) in *. set (s2 := drop_while (N.eqb 61) s1) in *. set (w2 := take_while is_space s2) in *. set (s3 := drop_while is_space s2) in *. clearbody s3 eqs w2. destruct eqs as [|e0 eqs]; [discriminate|].
  destruct s3 as [|q t].
  - apply (text_shape []). injection H as <- _ _. reflexivity.
  - destruct (is_quote q) eqn:Q.
    + destruct (has_char q t).
      * left. injection H as <- _ _. exists q. eexists. split; [now apply quote_is|reflexivity].
      * destruct (rev w2) as [|x w].
        -- destruct eqs as [|e1 eqs]; [discriminate|]. apply (text_shape (61 :: q :: t)). assert (E : v = take_while RegexTags.bare_char (61 :: q :: t)) by (unfold RegexTags.bare_char; congruence). rewrite E. reflexivity.
        -- right. intros q' r' _ E. congruence.
    + apply (text_shape (q :: t)). assert (E : v = take_while RegexTags.bare_char (q :: t)) by (unfold RegexTags.bare_char; congruence). rewrite E. cbn [text_here]. now rewrite Q.
Qed.
Lemma here_shape : forall p s nm v q r, attr_here p s = Some (nm, Some v, q, r) -> (exists q u, quote_mark q /\ v = q :: u ++ [q]) \/ (forall q r, quote_mark q -> v <> q :: r).
Proof.
  intros p s nm v q r H. destruct s as [|c s]; [discriminate|]. rewrite attr_here_is in H. destruct (_ && _); [|discriminate]. destruct (attr_value (drop_while more_char s)) as [[[v' p'] t]|] eqn:E.
  - destruct (skip_misc p' t). apply value_shape in E. injection H as _ -> _ _. exact E.
  - destruct (skip_misc _ _). discriminate.
Qed.
Definition strip_quotes (v : str) : str := match v with q :: r => if is_quote q && (last v 0 =? q) then removelast r else v | [] => [] end.
Lemma attr_val_is : forall v, attr_val (Some v) = let* x := unescape (strip_quotes v) in Ok (Some x).
Proof. intros v. change (attr_val (Some v)) with (match strip_quotes v with [] => Ok (Some []) | _ => let* x := unescape (strip_quotes v) in Ok (Some x) end). destruct (strip_quotes v); reflexivity. Qed.
Lemma strip_is : forall v, (exists q u, quote_mark q /\ v = q :: u ++ [q]) \/ (forall q r, quote_mark q -> v <> q :: r) -> unquoted v (strip_quotes v).
Proof.
  intros v [(q & u & Q & ->)|H].
  - cbn [strip_quotes]. pose proof Q as Q'. apply quote_is in Q'. rewrite Q'. replace (last (q :: u ++ [q]) 0) with q by (change (q :: u ++ [q]) with ((q :: u) ++ [q]); symmetry; rewrite last_app'; reflexivity). rewrite N.eqb_refl. cbn [andb]. rewrite removelast_last. now constructor.
  - destruct v as [|q r]; [now constructor|]. cbn [strip_quotes]. destruct (is_quote q) eqn:Q; [apply quote_is in Q; now contradiction (H q r Q)|]. cbn [andb]. now constructor.
Qed.
Lemma unquoted_one : forall w a b, unquoted w a -> unquoted w b -> a = b.
Proof.
  intros w a b A B. destruct A as [q v Q|v H].
  - remember (q :: v ++ [q]) as w eqn:E. destruct B as [q' v' Q'|v' H'].
    + injection E as _ E. apply app_inj_tail in E as [E _]. congruence.
    + now contradiction (H' q (v ++ [q])).
  - destruct B as [q' v' Q'|v' H']; [now contradiction (H q' (v' ++ [q']))|reflexivity].
Qed.
Lemma undecoded : forall v e, unescape v = Err e -> e = EValue /\ forall t, ~ decoded (items charref_re v) t.
Proof. intros v e H. split; [now apply unescape_fails in H|]. intros t D. apply unescape_re in D. congruence. Qed.
Lemma undecoded_err : forall v, (forall t, ~ decoded (items charref_re v) t) -> unescape v = Err EValue.
Proof. intros v H. destruct (unescape v) as [t|e] eqn:E; [apply unescape_re in E; now contradiction (H t)|]. apply undecoded in E as [-> _]. reflexivity. Qed.
Lemma attrs_sound : forall f stop b s, (length s <= f)%nat ->
  match read_attrs f stop (hd 0 b) s with
  | Ok (l, k) => attributes stop b s l k
  | Err e => e = EValue /\ attributes_fail stop b s
  end.
Proof.
  induction f as [|f IH]; intros stop b s L.
  - destruct s; [|cbn in L; lia]. cbn [read_attrs]. apply at_end. cbn. lia.
  - cbn [read_attrs]. assert (LL : (len s >? len stop)%Z = true <-> (length stop < length s)%nat) by (unfold len; rewrite Z.gtb_lt; lia). destruct (len s >? len stop)%Z eqn:G.
    2:{ apply at_end. assert (~ (length stop < length s)%nat) by (intros X; apply LL in X; discriminate). lia. }
    assert (LT : (length stop < length s)%nat) by (now apply LL). pose proof (attr_via b s) as V. destruct (attr_here (hd 0 b) s) as [[[[nm v] p] r]|] eqn:EA.
    + destruct V as (w & m & E & NW & M & SM & AM & -> & G1 & G3 & G2). assert (LR : (length r <= f)%nat) by (rewrite E, app_length in L; destruct w; [now contradiction NW|cbn in L; lia]).
      specialize (IH stop (seen m) r LR). destruct v as [v|].
      * rewrite attr_val_is. pose proof (strip_is v (here_shape _ _ _ _ _ _ EA)) as UQ. assert (N2 : group 2 m <> None) by (destruct G2 as (x & y & G2); congruence). destruct (unescape (strip_quotes v)) as [t|e] eqn:EU; cbn [bind].
        -- apply unescape_re in EU. assert (VR : value_read m (Some t)) by (eapply vr_some; eauto). rewrite <- AM in *. destruct (read_attrs f stop (hd 0 (seen m)) (ahead m)) as [[l k]|e]; cbn [bind]; [eapply at_one; eauto|]. destruct IH as [-> IH]. split; [reflexivity|]. eapply af_later; eauto.
        -- apply undecoded in EU as [-> ND]. split; [reflexivity|]. eapply af_here; eauto.
      * cbn [attr_val bind]. assert (VR : value_read m None) by (now apply vr_none). rewrite <- AM in *. destruct (read_attrs f stop (hd 0 (seen m)) (ahead m)) as [[l k]|e]; cbn [bind]; [eapply at_one; eauto|]. destruct IH as [-> IH]. split; [reflexivity|]. eapply af_later; eauto.
    + now apply at_none.
Qed.
Lemma value_one : forall m a b, value_read m a -> value_read m b -> a = b.
Proof.
  intros m a b A B. inversion A as [m1 N1|m1 w1 v1 t1 N1 G1 Q1 D1]; subst; inversion B as [m2 N2|m2 w2 v2 t2 N2 G2 Q2 D2]; subst; try congruence. assert (w1 = w2) by congruence. subst w2. assert (v1 = v2) by (eapply unquoted_one; eauto). subst v2. f_equal. eapply decoded_one; eauto.
Qed.
Lemma attributes_one : forall stop b s l k, attributes stop b s l k -> forall l' k', attributes stop b s l' k' -> l = l' /\ k = k'.
Proof.
  intros stop b s l k A. induction A as [b s L|b s L M|b s m nm v l k L M G V A IH]; intros l' k' B; inversion B as [b2 s2 L2|b2 s2 L2 M2|b2 s2 m2 nm2 v2 l2 k2 L2 M2 G2 V2 A2]; subst; auto; try lia; try congruence.
  assert (m2 = m) by congruence. subst m2. assert (nm2 = nm) by congruence. subst nm2. rewrite (value_one _ _ _ V V2). destruct (IH _ _ A2) as [-> ->]. auto.
Qed.
Lemma attributes_no_fail : forall stop b s l k, attributes stop b s l k -> ~ attributes_fail stop b s.
Proof.
  intros stop b s l k A. induction A as [b s L|b s L M|b s m nm v l k L M G V A IH]; intros B; inversion B as [b2 s2 m2 w2 v2 L2 M2 N2 G2 Q2 D2|b2 s2 m2 nm2 v2 L2 M2 G2 V2 B2]; subst; try lia; try congruence.
  assert (m2 = m) by congruence. subst m2. inversion V as [m1 N1|m1 w1 v1 t1 N1 G1 Q1 D1]; subst; [congruence|]. assert (w2 = w1) by congruence. subst w2. rewrite (unquoted_one _ _ _ Q2 Q1) in D2. exact (D2 _ D1).
Qed.

(** ** Start tags *)
Lemma alpha_is : forall c, is_alpha_ascii c = true <-> ascii_letter c.
Proof. intros c. unfold is_alpha_ascii, is_lower_ascii, is_upper_ascii, ascii_letter. rewrite orb_true_iff, !andb_true_iff, !N.leb_le. tauto. Qed.
Lemma stop_is : forall j r, tag_stop j = Some r <-> tag_ends j r.
Proof.
  intros j r. split.
  - intros H. destruct j as [|c j]; [discriminate|]. cbn [tag_stop] in H. destruct (N.eqb_spec c 62) as [->|N62]; [injection H as <-; constructor|]. destruct (N.eqb_spec c 47) as [->|N47].
    + destruct j as [|d j]; [discriminate|]. destruct (N.eqb_spec d 62) as [->|]; [injection H as <-; constructor|discriminate].
    + destruct (is_alpha_ascii c || (c =? 61)) eqn:E; [discriminate|]. apply orb_false_iff in E as [E1 E2]. apply N.eqb_neq in E2. assert (r = c :: j) by congruence. subst r. apply te_junk; auto. rewrite <- alpha_is. congruence.
  - intros H. destruct H as [r|r|c r N62 N47 N61 NL]; [reflexivity|reflexivity|]. cbn [tag_stop]. destruct (N.eqb_spec c 62); [congruence|]. destruct (N.eqb_spec c 47); [congruence|]. destruct (N.eqb_spec c 61); [congruence|]. rewrite orb_false_r. destruct (is_alpha_ascii c) eqn:E; [now apply alpha_is in E|reflexivity].
Qed.
Lemma start_sound : forall b c t, ascii_letter c -> start_tag b (60 :: c :: t) (parse_starttag (60 :: c :: t)).
Proof.
  intros b c t AL. apply alpha_is in AL. pose proof (start_match b (c :: t)) as SM. destruct (match_at locatestarttagend_tolerant b (60 :: c :: t)) as [m|] eqn:M; [|rewrite (SM c t eq_refl) in AL; discriminate]. destruct SM as [W _]. unfold parse_starttag. rewrite W. destruct (tag_stop (ahead m)) as [stop|] eqn:ST.
  2:{ eapply sg_wait; eauto. intros r H. apply stop_is in H. congruence. }
  apply stop_is in ST. pose proof (tagfind_match (60 :: b) (c :: t)) as TF. cbv beta iota in TF. rewrite AL in TF. cbv zeta in TF. destruct TF as (w & EW & TF & LW).
  set (s := c :: t) in *. set (nm := take_while name_char s) in *. set (s1 := drop_while name_char s) in *.
  assert (ESK : skip_misc (last_of 0 nm) s1 = (last w (last_of 0 nm), snd (skip_misc 0 s1))) by (rewrite !skip_misc_is; cbn [snd]; f_equal; specialize (LW (last_of 0 nm)); rewrite skip_misc_is in LW; exact LW). rewrite ESK.
  set (r := snd (skip_misc 0 s1)) in *. assert (HP : last w (last_of 0 nm) = hd 0 (rev w ++ rev nm ++ 60 :: b)).
  { rewrite !hd_rev. cbn [hd]. f_equal. unfold nm, s, last_of. cbn [take_while]. rewrite (alpha_name c AL), !last_one. reflexivity. }
  rewrite HP. assert (LR : (length r <= length s)%nat). { rewrite <- (take_drop name_char s). fold nm s1. rewrite app_length, EW, app_length. lia. }
  pose proof (attrs_sound (length s) stop (rev w ++ rev nm ++ 60 :: b) r LR) as AS. destruct (read_attrs (length s) stop (hd 0 (rev w ++ rev nm ++ 60 :: b)) r) as [[l k]|e].
  - assert (G1 : group 1 (Spot (rev w ++ rev nm ++ 60 :: b) r [(1%nat, nm)]) = Some nm) by reflexivity. change (upto k stop) with (without k stop). destruct (seqb_spec (strip (without k stop)) (lit ">")) as [E|NE]; [eapply sg_plain; eauto|]. destruct (seqb_spec (strip (without k stop)) (lit "/>")) as [E|NE2]; [eapply sg_closed; eauto|].
    change (upto (60 :: s) stop) with (without (60 :: s) stop). eapply sg_junk; eauto.
  - destruct AS as [-> AS]. eapply sg_fail; eauto.
Qed.
Lemma tag_ends_one : forall j a b, tag_ends j a -> tag_ends j b -> a = b.
Proof. intros j a b A B. apply stop_is in A, B. congruence. Qed.
Lemma start_one : forall b s x y, start_tag b s x -> start_tag b s y -> x = y.
Proof.
  assert (SAME : forall b s m m' stop stop', match_at locatestarttagend_tolerant b s = Some m -> match_at locatestarttagend_tolerant b s = Some m' -> tag_ends (ahead m) stop -> tag_ends (ahead m') stop' -> stop = stop').
  { intros b s m m' stop stop' E E' T T'. assert (m = m') by congruence. subst m'. eapply tag_ends_one; eauto. }
  intros b s x y A B.
  inversion A as [m M NT|m stop m1 M T M1 AF|m stop m1 nm l k M T M1 G AT F|m stop m1 nm l k M T M1 G AT F|m stop m1 nm l k M T M1 G AT F F2]; subst;
  inversion B as [m' M' NT'|m' stop' m1' M' T' M1' AF'|m' stop' m1' nm' l' k' M' T' M1' G' AT' F'|m' stop' m1' nm' l' k' M' T' M1' G' AT' F'|m' stop' m1' nm' l' k' M' T' M1' G' AT' F' F2']; subst; auto;
  try (assert (m' = m) by congruence; subst m'); try (exfalso; eapply NT; eassumption); try (exfalso; eapply NT'; eassumption);
  try (assert (stop' = stop) by (eapply tag_ends_one; eassumption); subst stop'); try (assert (m1' = m1) by congruence; subst m1'); try (exfalso; eapply attributes_no_fail; eassumption);
  try (destruct (attributes_one _ _ _ _ _ AT _ _ AT') as [? ?]; subst l' k'); try (assert (nm' = nm) by congruence; subst nm'); auto; try congruence; rewrite F in F'; discriminate F'.
Qed.

(** ** Places of characters *)
Lemma after_parted : forall c s r, after_char c s = Some r <-> exists x, parted c s x r.
Proof.
  intros c. induction s as [|y s IH]; intros r; cbn [after_char].
  - split; [discriminate|]. intros (x & E & _). destruct x; discriminate E.
  - destruct (N.eqb_spec y c) as [->|NE].
    + split; [intros H; injection H as <-; exists []; split; [reflexivity|intros []]|]. intros ([|z x] & E & NI); [injection E as <-; reflexivity|]. injection E as <- _. contradiction NI. now left.
    + rewrite IH. split; intros (x & E & NI).
      * exists (y :: x). split; [cbn [app]; now rewrite E|]. intros [H|H]; [congruence|now apply NI].
      * destruct x as [|z x]; [injection E as E _; congruence|]. injection E as -> E. exists x. split; [exact E|]. intros H. apply NI. now right.
Qed.
Lemma after_none : forall c s, after_char c s = None <-> ~ In c s.
Proof.
  intros c s. split.
  - intros H I. apply in_split in I as (l1 & l2 & E). assert (X : exists r, after_char c s = Some r).
    { subst s. clear H. induction l1 as [|y l1 IH]; cbn [app after_char]; [rewrite N.eqb_refl; eauto|]. destruct (y =? c); eauto. }
    destruct X as [r X]. congruence.
  - intros H. destruct (after_char c s) as [r|] eqn:E; [|reflexivity]. apply after_parted in E as (x & -> & _). contradiction H. apply in_or_app. right. now left.
Qed.
Lemma parted_one : forall c s x r x' r', parted c s x r -> parted c s x' r' -> x = x' /\ r = r'.
Proof.
  intros c s x. revert s. induction x as [|y x IH]; intros s r x' r' [E NI] [E' NI'].
  - destruct x' as [|z x']; [rewrite E in E'; injection E' as <-; auto|]. rewrite E in E'. injection E' as <- _. contradiction NI'. now left.
  - destruct x' as [|z x']; [rewrite E in E'; injection E' as -> _; contradiction NI; now left|]. rewrite E in E'. injection E' as <- E'. destruct (IH (x ++ c :: r) r x' r') as [-> ->]; auto.
    + split; [reflexivity|]. intros H. apply NI. now right.
    + split; [exact E'|]. intros H. apply NI'. now right.
Qed.
Lemma parted_in : forall c s x r, parted c s x r -> In c s.
Proof. intros c s x r [-> _]. apply in_or_app. right. now left. Qed.
Lemma upto_parted : forall c s x r, parted c s x r -> upto s r = x ++ [c].
Proof.
  intros c s x r [-> _]. unfold upto. rewrite app_length. cbn [length]. replace (length x + S (length r) - length r)%nat with (length x + 1)%nat by lia. rewrite firstn_app, firstn_all2 by lia. replace (length x + 1 - length x)%nat with 1%nat by lia. reflexivity.
Qed.
(** ** End tags *)
Lemma misc_no_gt : forall s, ~ In 62 (misc_of s).
Proof.
  induction s as [|c s IH]; [intros []|]. cbn [misc_of]. destruct (is_space c) eqn:S0; [intros [->|H]; [discriminate S0|auto]|]. destruct (N.eqb_spec c 47) as [->|]; [|intros []]. destruct s as [|d s]; [intros [H|[]]; discriminate H|]. destruct (d =? 62); [intros []|]. intros [H|H]; [discriminate H|auto].
Qed.
Lemma name_no_gt : forall s, ~ In 62 (take_while name_char s).
Proof. intros s I. pose proof (take_all name_char s) as F. rewrite Forall_forall in F. apply F in I. discriminate I. Qed.
Lemma after_app : forall c x s, ~ In c x -> after_char c (x ++ s) = after_char c s.
Proof. intros c. induction x as [|y x IH]; intros s H; [reflexivity|]. cbn [app after_char]. destruct (N.eqb_spec y c) as [->|]; [contradiction H; now left|]. apply IH. intros I. apply H. now right. Qed.
Lemma end_sound : forall raw b t, end_tag raw b t (parse_endtag raw t).
Proof.
  intros raw b t. unfold parse_endtag. destruct (after_char 62 t) as [gt|] eqn:EG; [|apply et_wait; now apply after_none]. pose proof EG as EG2. apply after_parted in EG as (x & P). pose proof (end_match b t) as EM. rewrite (upto_parted _ _ _ _ P).
  destruct (end_tag_name t) as [nm|].
  - destruct EM as (m & M & G). destruct raw as [e|].
    + destruct (seqb_spec (lower nm) e) as [<-|NE]; [eapply et_close; eauto|]. eapply et_inside; eauto. intros m' nm' M' G' E. assert (m' = m) by congruence. subst m'. congruence.
    + eapply et_close; eauto.
  - destruct raw as [e|]; [eapply et_inside; eauto; intros m nm M; congruence|]. destruct t as [|c t]; [destruct P as [P _]; destruct x; discriminate P|].
    pose proof (tagfind_match (47 :: 60 :: b) (c :: t)) as TF. cbv beta iota in TF. destruct (is_alpha_ascii c) eqn:EA.
    + cbv zeta in TF. destruct TF as (w & EW & TF & _). assert (AG : after_char 62 (snd (skip_misc 0 (drop_while name_char (c :: t)))) = Some gt).
      { rewrite <- EG2. rewrite skip_misc_is. cbn [snd]. rewrite <- (take_drop name_char (c :: t)) at 3. rewrite after_app by apply name_no_gt. rewrite (misc_cut (drop_while name_char (c :: t))) at 3. rewrite after_app by apply misc_no_gt. reflexivity. }
      rewrite AG. eapply et_odd; eauto; reflexivity.
    + eapply et_bogus; eauto.
Qed.
Lemma end_one : forall raw b t x y, end_tag raw b t x -> end_tag raw b t y -> x = y.
Proof.
  assert (W : forall t x r, parted 62 t x r -> ~ In 62 t -> False) by (intros t x r P N; apply N; eapply parted_in; eauto).
  intros raw b t x y A B.
  inversion A as [NI|e x1 r1 R1 P1 D1|m1 nm1 x1 r1 M1 G1 P1 R1|m1 nm1 x1 r1 R1 N1 P1 M1 G1|x1 r1 R1 N1 P1 M1]; subst;
  inversion B as [NI'|e' x1' r1' R1' P1' D1'|m1' nm1' x1' r1' M1' G1' P1' R1'|m1' nm1' x1' r1' R1' N1' P1' M1' G1'|x1' r1' R1' N1' P1' M1']; subst; auto; try (exfalso; eapply W; eassumption);
  try (destruct (parted_one _ _ _ _ _ _ P1 P1') as [? ?]; subst x1' r1'); try congruence; try (destruct R1; congruence); try (destruct R1'; congruence).
  - destruct R1' as [R|R]; [discriminate R|]. assert (e = lower nm1') by congruence. subst e. now contradiction (D1 m1' nm1' M1' G1').
  - destruct R1 as [R|R]; [discriminate R|]. assert (e' = lower nm1) by congruence. subst e'. now contradiction (D1' m1 nm1 M1 G1).
Qed.

(** ** Declarations *)
Lemma gt_sound : forall raw t, up_to_gt raw t (match after_char 62 t with Some r => MGo [] raw r | None => MWait end).
Proof. intros raw t. destruct (after_char 62 t) as [r|] eqn:E; [apply after_parted in E as (x & P); eapply ug_done; eauto|apply ug_wait; now apply after_none]. Qed.
Lemma gt_one : forall raw t x y, up_to_gt raw t x -> up_to_gt raw t y -> x = y.
Proof.
  intros raw t x y A B. inversion A as [NI|x1 r1 P1]; subst; inversion B as [NI'|x1' r1' P1']; subst; auto.
  - contradiction NI. eapply parted_in; eauto.
  - contradiction NI'. eapply parted_in; eauto.
  - now destruct (parted_one _ _ _ _ _ _ P1 P1') as [_ ->].
Qed.
Lemma match_sound : forall close p, (forall b s, match_at close b s = None /\ p s = None \/ exists m, match_at close b s = Some m /\ p s = Some (ahead m)) ->
  forall raw b t, up_to_match close raw b t (match search p t with Some r => MGo [] raw r | None => MWait end).
Proof. intros close p H raw b t. rewrite (search_re close p H t b). destruct (search_from close b t) as [[x m]|] eqn:E; [eapply um_done; eauto|now apply um_wait]. Qed.
Lemma match_one : forall close raw b t x y, up_to_match close raw b t x -> up_to_match close raw b t y -> x = y.
Proof. intros close raw b t x y A B. inversion A as [E|x1 m1 E]; subst; inversion B as [E'|x1' m1' E']; subst; congruence. Qed.
Lemma smem_in : forall n l, smem n (map lit l) = true <-> exists k, In k l /\ n = lit k.
Proof.
  intros n. induction l as [|k l IH]; [split; [discriminate|intros (k & [] & _)]|]. unfold smem in *. cbn [map existsb]. rewrite orb_true_iff, IH. split.
  - intros [H|(k' & I & E)]; [exists k; split; [now left|now destruct (seqb_spec n (lit k))]|exists k'; split; [now right|exact E]].
  - intros (k' & [<-|I] & E); [left; subst n; now destruct (seqb_spec (lit k) (lit k))|right; eauto].
Qed.
Lemma drop_none : forall (p : N -> bool) l, Forall (fun c => p c = false) l -> drop_while p l = l.
Proof. intros p l F. destruct F as [|c l H F]; [reflexivity|]. cbn [drop_while]. now rewrite H. Qed.
Lemma decl_not_space : forall c, decl_name_char c = true -> is_space c = false.
Proof. intros c H. destruct (is_space c) eqn:E; [|reflexivity]. destruct (space_not c E) as (_ & _ & Q & _). congruence. Qed.
Lemma drop_all_app : forall (p : N -> bool) a l, Forall (fun c => p c = true) a -> drop_while p (a ++ l) = drop_while p l.
Proof. intros p a l F. induction F as [|c a H F IH]; [reflexivity|]. cbn [app drop_while]. now rewrite H. Qed.
Lemma strip_name : forall t, strip (take_while decl_name_char t ++ take_while is_space (drop_while decl_name_char t)) = take_while decl_name_char t.
Proof.
  intros t. set (a := take_while decl_name_char t). set (w := take_while is_space (drop_while decl_name_char t)). assert (FA : Forall (fun c => is_space c = false) a) by (eapply Forall_impl; [|apply take_all]; exact decl_not_space). assert (FW : Forall (fun c => is_space c = true) w) by apply take_all.
  unfold strip, lstrip, rstrip. destruct a as [|c a'] eqn:EA.
  - cbn [app]. rewrite <- (app_nil_r w) at 1. rewrite drop_all_app by exact FW. reflexivity.
  - rewrite <- EA in *. assert (D : drop_while is_space (a ++ w) = a ++ w) by (rewrite EA; cbn [app drop_while]; rewrite EA in FA; inversion FA as [|? ? H]; now rewrite H). rewrite D, rev_app_distr, drop_all_app by (now apply Forall_rev). rewrite drop_none by (now apply Forall_rev). apply rev_involutive.
Qed.
Lemma section_sound : forall b t, marked_section b t (parse_marked_section t).
Proof.
  intros b t. unfold parse_marked_section. destruct t as [|c t]; [now apply ms_empty|]. pose proof (decl_match b (c :: t)) as DM. cbv beta iota in DM. destruct (is_alpha_ascii c); [|apply ms_no_name; [discriminate|exact DM]]. destruct DM as (m & M & A & E). cbv zeta. rewrite <- A.
  assert (EN : lower (strip (eaten (Spot b (c :: t) []) m)) = lower (take_while decl_name_char (c :: t))) by (now rewrite E, strip_name). rewrite <- EN. set (n := lower (strip _)) in *.
  change [lit "temp"; lit "cdata"; lit "ignore"; lit "include"; lit "rcdata"] with (map lit sections). change [lit "if"; lit "else"; lit "endif"] with (map lit conditions).
  destruct (ahead m) as [|x r] eqn:EA; [eapply ms_wait; eauto|]. assert (NA : ahead m <> []) by (rewrite EA; discriminate).
  destruct (smem n (map lit sections)) eqn:S1; [apply smem_in in S1 as (k & I1 & E1); eapply ms_section; eauto; apply (match_sound _ _ section_re)|].
  destruct (smem n (map lit conditions)) eqn:S2; [apply smem_in in S2 as (k & I1 & E1); eapply ms_condition; eauto; apply (match_sound _ _ ms_re)|].
  eapply ms_unknown; eauto. intros k I1 E1. apply in_app_or in I1 as [I1|I1].
  - assert (smem n (map lit sections) = true) by (apply smem_in; eauto). congruence.
  - assert (smem n (map lit conditions) = true) by (apply smem_in; eauto). congruence.
Qed.
Lemma sections_apart : forall k k', In k sections -> In k' conditions -> lit k <> lit k'.
Proof. intros k k' H H'. repeat destruct H as [<-|H]; try destruct H; repeat destruct H' as [<-|H']; try destruct H'; discriminate. Qed.
Lemma section_one : forall b t x y, marked_section b t x -> marked_section b t y -> x = y.
Proof.
  assert (ND : forall b, match_at declname b [] = None) by (intros b; exact (decl_match b [])).
  intros b t x y A B.
  inversion A as [E|NE M|m M E|m x1 k M NE I1 L1 X1|m x1 k M NE I1 L1 X1|m M NE NK]; subst;
  inversion B as [E'|NE' M'|m' M' E'|m' x1' k' M' NE' I1' L1' X1'|m' x1' k' M' NE' I1' L1' X1'|m' M' NE' NK']; subst; auto; try (rewrite ND in *; discriminate); try congruence;
  try (assert (m' = m) by congruence; subst m'); try contradiction; try (eapply match_one; eassumption);
  try (exfalso; eapply sections_apart; [eassumption|eassumption|congruence]); exfalso; try (apply (NK' _ (in_or_app _ _ _ (or_introl I1)) L1)); try (apply (NK' _ (in_or_app _ _ _ (or_intror I1)) L1)); try (apply (NK _ (in_or_app _ _ _ (or_introl I1')) L1')); try (apply (NK _ (in_or_app _ _ _ (or_intror I1')) L1')).
Qed.
Lemma doctype_same : forall s, seqb (lower (firstn 9 s)) (lit "<!doctype") = true -> after_char 62 (skipn 9 s) = after_char 62 (skipn 2 s).
Proof.
  intros s H. destruct (seqb_spec (lower (firstn 9 s)) (lit "<!doctype")) as [E|]; [|discriminate]. assert (NI : ~ In 62 (firstn 9 s)).
  { intros I0. assert (I1 : In 62 (lower (firstn 9 s))) by (unfold lower; apply in_flat_map; exists 62; split; [exact I0|now left]). rewrite E in I1. vm_compute in I1. repeat destruct I1 as [I1|I1]; try discriminate I1. exact I1. }
  assert (ES : skipn 2 s = skipn 2 (firstn 9 s) ++ skipn 9 s). { rewrite <- (firstn_skipn 9 s) at 1. rewrite skipn_app. f_equal. rewrite firstn_length. destruct (Nat.le_gt_cases 2 (length s)) as [L|L]; [replace (2 - Nat.min 9 (length s))%nat with O by lia; reflexivity|]. rewrite (skipn_all2 s) by lia. now rewrite skipn_nil. }
  rewrite ES. rewrite after_app; [reflexivity|]. intros I0. apply NI. rewrite <- (firstn_skipn 2 (firstn 9 s)). apply in_or_app. now right.
Qed.
Lemma decl_sound : forall t, (forall r, t <> 91 :: r) -> up_to_gt None t (parse_declaration (60 :: 33 :: t)).
Proof.
  intros t N91. unfold parse_declaration. replace (startswith (lit "<![") (60 :: 33 :: t)) with false.
  2:{ symmetry. apply not_true_is_false. intros H. apply startswith_shape in H as (r & E). injection E as E. now apply (N91 r). }
  destruct (seqb (lower (firstn 9 (60 :: 33 :: t))) (lit "<!doctype")) eqn:D; [rewrite (doctype_same _ D)|]; apply gt_sound.
Qed.

(** ** Markup *)
Lemma starts_four : forall t, startswith (lit "<!--") (60 :: 33 :: t) = true <-> exists r, t = 45 :: 45 :: r.
Proof. intros t. split; [intros H; apply startswith_shape in H as (r & E); injection E as ->; eauto|intros (r & ->); reflexivity]. Qed.
Lemma markup_sound : forall raw b c t, raw = None \/ c = 47 -> exists x, parse_markup raw (60 :: c :: t) = Some x /\ markup raw b (60 :: c :: t) x.
Proof.
  intros raw b c t RC. unfold parse_markup. destruct (is_alpha_ascii c) eqn:EA.
  { eexists. split; [reflexivity|]. apply mu_start; [now apply alpha_is|]. apply start_sound. now apply alpha_is. }
  destruct (N.eqb_spec c 47) as [->|N47]; [eexists; split; [reflexivity|]; apply mu_end, end_sound|]. destruct RC as [->|RC]; [|contradiction].
  destruct (startswith (lit "<!--") (60 :: c :: t)) eqn:S4.
  { pose proof S4 as S5. apply startswith_shape in S5 as (r & E). injection E as -> ->. eexists. split; [reflexivity|]. apply mu_comment. change (skipn 4 (60 :: 33 :: 45 :: 45 :: r)) with r. apply (match_sound _ _ comment_re). }
  destruct (N.eqb_spec c 63) as [->|N63]; [eexists; split; [reflexivity|]; apply mu_pi, gt_sound|].
  destruct (N.eqb_spec c 33) as [->|N33].
  - eexists. split; [reflexivity|]. destruct t as [|d t].
    + apply mu_decl; [reflexivity|discriminate|discriminate|]. apply decl_sound. discriminate.
    + destruct (N.eq_dec d 91) as [->|ND].
      * apply mu_section; [reflexivity|]. unfold parse_declaration. change (startswith (lit "<![") (60 :: 33 :: 91 :: t)) with true. cbv iota. change (skipn 3 (60 :: 33 :: 91 :: t)) with t. apply section_sound.
      * apply mu_decl; [reflexivity| |congruence|apply decl_sound; congruence]. intros r E. rewrite E in S4. assert (startswith (lit "<!--") (60 :: 33 :: 45 :: 45 :: r) = true) by (apply starts_four; eauto). congruence.
  - eexists. split; [reflexivity|]. apply mu_lone; auto. rewrite <- alpha_is. congruence.
Qed.
Lemma markup_one : forall raw b s x y, markup raw b s x -> markup raw b s y -> x = y.
Proof.
  assert (L : forall c, ascii_letter c -> c <> 47 /\ c <> 63 /\ c <> 33) by (intros c H; unfold ascii_letter in H; lia).
  intros raw b s x y A B.
  inversion A as [c t x1 AL X|t x1 X|t x1 X|t x1 X|t x1 R X|t x1 R N45 N91 X|c t NL N47 N63 N33]; subst; inversion B as [c' t' x1' AL' X'|t' x1' X'|t' x1' X'|t' x1' X'|t' x1' R' X'|t' x1' R' N45' N91' X'|c' t' NL' N47' N63' N33']; subst; auto; try congruence;
  try (exfalso; now apply L in AL); try (exfalso; now apply L in AL'); try contradiction; try (eapply start_one; eassumption); try (eapply end_one; eassumption); try (eapply match_one; eassumption); try (eapply gt_one; eassumption); try (eapply section_one; eassumption);
  try (exfalso; eapply N45; reflexivity); try (exfalso; eapply N91; reflexivity); try (exfalso; eapply N45'; reflexivity); try (exfalso; eapply N91'; reflexivity).
Qed.

(** ** Unfinished markup, references cut in half, text *)
Lemma has_in : forall c s, has_char c s = true <-> In c s.
Proof. intros c s. unfold has_char. rewrite existsb_exists. split; [intros (y & I0 & E); apply N.eqb_eq in E; now subst y|intros I0; exists c; split; [exact I0|apply N.eqb_refl]]. Qed.
Lemma lt_parted : forall t, In 60 t -> exists r, parted 60 t (take_while Tokenizer.not_lt t) r /\ drop_while Tokenizer.not_lt t = 60 :: r.
Proof.
  intros t. induction t as [|c t IH]; [intros []|]. intros I0. cbn [take_while drop_while]. destruct (Tokenizer.not_lt c) eqn:E; unfold Tokenizer.not_lt in E.
  - destruct (N.eqb_spec c 60) as [|NE]; [discriminate E|]. destruct I0 as [I0|I0]; [congruence|]. destruct (IH I0) as (r & [P Q] & D). exists r. split; [split|exact D]; [cbn [app]; now rewrite P at 1|]. intros [H|H]; [congruence|now apply Q].
  - destruct (N.eqb_spec c 60) as [->|NE]; [|discriminate E]. exists t. split; [split; [reflexivity|intros []]|reflexivity].
Qed.
Lemma lt_none : forall t, ~ In 60 t -> take_while Tokenizer.not_lt t = t /\ drop_while Tokenizer.not_lt t = [].
Proof.
  induction t as [|c t IH]; [auto|]. intros H. cbn [take_while drop_while]. unfold Tokenizer.not_lt at 1 3. destruct (N.eqb_spec c 60) as [->|NE]; [contradiction H; now left|]. cbn [negb]. destruct IH as [-> ->]; [|auto]. intros I0. apply H. now right.
Qed.
Lemma given_sound : forall t, given_up (60 :: t) (fst (unclosed_piece (60 :: t))) (snd (unclosed_piece (60 :: t))).
Proof.
  intros t. unfold unclosed_piece. destruct (has_char 62 t) eqn:E1; cbn [orb].
  - apply has_in in E1. unfold unclosed. destruct (after_char 62 t) as [r|] eqn:A; [|now apply after_none in A]. apply after_parted in A as (x & P). cbn [fst snd].
    replace (upto (60 :: t) r) with (60 :: x ++ [62]); [now apply gu_gt|]. symmetry. apply (upto_parted 62 (60 :: t) (60 :: x) r). destruct P as [-> NI]. split; [reflexivity|]. intros [H|H]; [discriminate H|now apply NI].
  - assert (N62 : ~ In 62 t) by (intros X; apply has_in in X; rewrite X in E1; discriminate E1). destruct (has_char 60 t) eqn:E2.
    + apply has_in in E2. unfold unclosed. rewrite (proj2 (after_none 62 t) N62). cbn [fst snd]. destruct (lt_parted t E2) as (r & P & ->). now apply gu_lt.
    + cbn [fst snd]. apply gu_none; [exact N62|]. intros X; apply has_in in X; rewrite X in E2; discriminate E2.
Qed.
Lemma given_one : forall s a r a' r', given_up s a r -> given_up s a' r' -> a = a' /\ r = r'.
Proof.
  intros s a r a' r' A B. inversion A as [t x y P|t x y NI P|t NI NJ]; subst; inversion B as [t' x' y' P'|t' x' y' NI' P'|t' NI' NJ']; subst; auto; try (exfalso; match goal with H : ~ In ?c ?t, Q : parted ?c ?t _ _ |- _ => apply H; eapply parted_in; exact Q end);
  destruct (parted_one _ _ _ _ _ _ P P') as [-> ->]; auto.
Qed.
Lemma last_some : forall c s t, from_last c s = Some t <-> exists p q, s = p ++ c :: q /\ ~ In c q /\ t = c :: q.
Proof.
  intros c. assert (NO : forall s, from_last c s = None <-> ~ In c s).
  { induction s as [|x s IH]; [split; [intros _ []|reflexivity]|]. cbn [from_last]. destruct (from_last c s) as [t|]; [split; [discriminate|intros H; exfalso]|].
    - assert (~ In c s) by (intros I0; apply H; now right). apply IH in H0. discriminate H0.
    - destruct (N.eqb_spec x c) as [->|NE]; [split; [discriminate|intros H; contradiction H; now left]|]. split; [|reflexivity]. intros _ [H|H]; [congruence|]. now apply IH. }
  induction s as [|x s IH]; intros t; cbn [from_last]; [split; [discriminate|intros (p & q & E & _); destruct p; discriminate E]|].
  destruct (from_last c s) as [t0|] eqn:F.
  - rewrite IH. split; intros (p & q & E & NI & ->).
    + exists (x :: p), q. split; [cbn [app]; now rewrite E|auto].
    + destruct p as [|y p]; [injection E as -> ->; apply NO in NI; congruence|]. injection E as -> E. exists p, q. auto.
  - destruct (N.eqb_spec x c) as [->|NE].
    + split; [intros H; injection H as <-; exists [], s; split; [reflexivity|]; split; [now apply NO|reflexivity]|]. intros ([|y p] & q & E & NI & ->); [now injection E as <-|]. injection E as -> E. exfalso. apply NO in F. apply F. rewrite E. apply in_or_app. right. now left.
    + split; [discriminate|]. intros ([|y p] & q & E & NI & ->); [injection E as E _; congruence|]. injection E as -> E. exfalso. apply NO in F. apply F. rewrite E. apply in_or_app. right. now left.
Qed.
Lemma half_is : forall s, half_reference s = true <-> cut_reference s.
Proof.
  intros s. unfold half_reference, cut_reference. split.
  - destruct (from_last 38 (skipn (length s - 34) s)) as [t|] eqn:F; [|discriminate]. intros H. apply last_some in F as (p & q & E & NI & ->). exists (firstn (length s - 34) s ++ p), q.
    assert (ES : s = firstn (length s - 34) s ++ skipn (length s - 34) s) by (symmetry; apply firstn_skipn). split; [rewrite ES at 1; rewrite E; now rewrite app_assoc|].
    assert (LE : length (skipn (length s - 34) s) = length (p ++ 38 :: q)) by (now rewrite E). rewrite skipn_length, app_length in LE. cbn [length] in LE. split; [lia|]. split; [exact NI|]. apply negb_true_iff in H. cbn [existsb] in H. apply orb_false_iff in H as [_ H].
    assert (X : forall c, In c q -> is_space c = false /\ c <> 59). { intros c I0. destruct (is_space c || (c =? 59)) eqn:E2; [exfalso; assert (existsb (fun c => is_space c || (c =? 59)) q = true) by (apply existsb_exists; eauto); congruence|]. apply orb_false_iff in E2 as [E2 E3]. split; [exact E2|now apply N.eqb_neq]. }
    split; [intros I0; now apply (proj2 (X 59 I0))|]. apply Forall_forall. intros c I0. now apply X.
  - intros (p & q & -> & L & NI & N59 & F). assert (E : skipn (length (p ++ 38 :: q) - 34) (p ++ 38 :: q) = skipn (length (p ++ 38 :: q) - 34) p ++ 38 :: q).
    { rewrite skipn_app. f_equal. rewrite app_length. cbn [length]. replace (length p + S (length q) - 34 - length p)%nat with O by lia. reflexivity. }
    rewrite E. replace (from_last 38 _) with (Some (38 :: q)). 2:{ symmetry. apply last_some. eauto. }
    apply negb_true_iff. cbn [existsb]. change (is_space 38 || (38 =? 59)) with false. cbn [orb]. apply not_true_is_false. intros H. apply existsb_exists in H as (c & I0 & H). rewrite Forall_forall in F. rewrite (F c I0) in H. cbn [orb] in H. apply N.eqb_eq in H. subst c. contradiction.
Qed.
Lemma said_sound : forall a k, said a k (emit a k).
Proof.
  intros a k. unfold emit. destruct (unescape a) as [u|e] eqn:E; [apply sa_text; now apply unescape_re|]. pose proof E as E2. apply unescape_fails in E2 as [-> _]. apply sa_fail. intros u D. apply unescape_re in D. congruence.
Qed.
Lemma said_one : forall a k x y, said a k x -> said a k y -> x = y.
Proof.
  intros a k x y A B. inversion A as [u D|D]; subst; inversion B as [u' D'|D']; subst; auto; try (exfalso; eapply D'; eassumption); try (exfalso; eapply D; eassumption). apply unescape_re in D, D'. congruence.
Qed.

(** ** Reading *)
Definition raw_ok (raw : option str) : Prop := raw = None \/ raw = Some (lit "script") \/ raw = Some (lit "style").
Lemma raw_letters : forall e, raw_ok (Some e) -> Forall (fun p => In p [115; 99; 114; 105; 112; 116; 121; 108; 101]) e /\ e <> [].
Proof. intros e [H|[H|H]]; [discriminate H| |]; injection H as ->; (split; [vm_compute; repeat constructor; tauto|discriminate]). Qed.
Lemma raw_named : forall n, raw_ok (raw_name n).
Proof. intros n. unfold raw_name, raw_ok. destruct (seqb_spec n (lit "script")) as [->|]; cbn [orb]; [auto|]. destruct (seqb_spec n (lit "style")) as [->|]; auto. Qed.
Lemma markup_raw : forall raw b s evs raw' r, raw_ok raw -> markup raw b s (MGo evs raw' r) -> raw_ok raw'.
Proof.
  assert (NN : raw_ok None) by now left.
  intros raw b s evs raw' r O M. inversion M as [c t x AL X|t x X|t x X|t x X|t x R X|t x R N45 N91 X|c t NL N47 N63 N33]; subst; try (inversion X; subst; auto using raw_named; fail); auto.
  inversion X as [| | |m x k M1 NE I1 L1 X1|m x k M1 NE I1 L1 X1|]; subst; inversion X1; subst; auto.
Qed.
Lemma emit_fold : forall l k, emit_all l k = fold_right TEv k l.
Proof. induction l as [|o l IH]; intros k; [reflexivity|]. cbn [emit_all fold_right]. now rewrite IH. Qed.
Lemma lt_said : unescape [60] = Ok [60].
Proof. reflexivity. Qed.
Lemma shut_shape : forall e s, cdata_close e s = true -> exists t, s = 60 :: 47 :: t.
Proof.
  intros e s H. unfold cdata_close in H. destruct s as [|x s]; [discriminate H|]. destruct (N.eq_dec x 60) as [->|NX].
  2:{ exfalso. destruct x as [|p]; [discriminate H|]. repeat (destruct p as [p|p|]; try discriminate H). now apply NX. }
  destruct s as [|y s]; [discriminate H|]. destruct (N.eq_dec y 47) as [->|NY]; [eauto|]. exfalso. destruct y as [|p]; [discriminate H|]. repeat (destruct p as [p|p|]; try discriminate H). now apply NY.
Qed.
Lemma text_shut : forall e s a r, cdata_text e s = Some (a, r) -> exists t, r = 60 :: 47 :: t.
Proof.
  intros e. induction s as [|c s IH]; intros a r H; cbn [cdata_text] in H.
  - destruct (cdata_close e []) eqn:C; [|discriminate H]. injection H as _ <-. eapply shut_shape; eauto.
  - destruct (cdata_close e (c :: s)) eqn:C; [injection H as _ <-; eapply shut_shape; eauto|]. destruct (cdata_text e s) as [[a' r']|]; [|discriminate H]. injection H as _ <-. eapply IH; reflexivity.
Qed.
Lemma at_sound : forall fin raw b c t, raw_ok raw -> raw = None \/ c = 47 ->
  (forall raw' r, raw_ok raw' -> (length r < length (60 :: c :: t)%N)%nat -> reads fin raw' r (tokens fin raw' r)) -> at_lt fin raw b (60 :: c :: t) (at_markup fin raw (60 :: c :: t)).
Proof.
  intros fin raw b c t O RC IH. destruct (markup_sound raw b c t RC) as (x & P & M). unfold at_markup. rewrite P. destruct x as [|evs raw' r|e].
  - destruct fin; [|now apply al_wait]. pose proof (given_sound (c :: t)) as G. destruct (unclosed_piece (60 :: c :: t)) as [a r] eqn:UP. cbn [fst snd] in G. apply unclosed_shorter in UP; [|discriminate]. apply shorter_len in UP. destruct raw as [e|].
    + eapply al_give_up_raw; eauto.
    + eapply al_give_up; eauto. apply said_sound.
  - rewrite emit_fold. pose proof (markup_shorter _ _ _ _ _ P) as L. apply shorter_len in L. eapply al_go; [exact M|]. apply IH; [eapply markup_raw; eauto|exact L].
  - now apply al_fail.
Qed.
Lemma reads_sound : forall n fin raw s, (length s < n)%nat -> raw_ok raw -> reads fin raw s (tokens fin raw s).
Proof.
  induction n as [|n IH]; intros fin raw s L O; [lia|]. rewrite tokens_eq. destruct s as [|c0 s0]; [apply rd_nothing|]. assert (NE : c0 :: s0 <> []) by discriminate. set (s := c0 :: s0) in *. destruct raw as [e|].
  - destruct (raw_letters e O) as [FL NEe]. pose proof (raw_search e FL NEe s []) as RS. destruct (cdata_text e s) as [[a r]|] eqn:C.
    + destruct RS as (m & SF & E). cbn [rev app] in SF. destruct (text_shut _ _ _ _ C) as (t & ->). assert (AT : forall b, at_lt fin (Some e) b (60 :: 47 :: t) (at_markup fin (Some e) (60 :: 47 :: t))).
      { intros b. apply at_sound; auto. intros raw' r O' L'. apply IH; [|exact O']. assert (LL : length s = length (a ++ 60 :: 47 :: t)) by (now rewrite E). rewrite app_length in LL. lia. }
      destruct a as [|x a]; [eapply rd_raw_mark; [exact SF|]; rewrite E; apply AT|]. eapply rd_raw_before; eauto. discriminate.
    + apply rd_raw_wait; auto.
  - destruct (in_dec N.eq_dec 60 s) as [I0|N0].
    + destruct (lt_parted s I0) as (r & P & D). rewrite D. assert (AT : forall b, at_lt fin None b (60 :: r) (at_markup fin None (60 :: r))).
      { intros b. destruct r as [|c r].
        - unfold at_markup. change (parse_markup None [60]) with (@None mark). unfold finish. destruct fin; [unfold emit; rewrite lt_said; now apply al_last_said|apply al_last; now left].
        - apply at_sound; auto. intros raw' r' O' L'. apply IH; [|exact O']. destruct P as [P _]. assert (LL : length s = length (take_while Tokenizer.not_lt s ++ 60 :: c :: r)) by (now rewrite <- P). rewrite app_length in LL. lia. }
      destruct (take_while Tokenizer.not_lt s) as [|x a] eqn:TW; [destruct P as [P _]; cbn [app] in P; rewrite P; apply rd_mark, AT|]. eapply rd_before; [exact P|discriminate|apply AT|apply said_sound].
    + destruct (lt_none s N0) as [-> ->]. destruct (half_reference s) eqn:H.
      * apply half_is in H. unfold finish. subst s. destruct fin; [apply rd_flush; auto; apply said_sound|apply rd_keep; auto].
      * apply rd_text; auto; [|apply said_sound]. rewrite <- half_is. congruence.
Qed.
Scheme reads_ind' := Induction for reads Sort Prop with at_lt_ind' := Induction for at_lt Sort Prop.
Combined Scheme reads_both from reads_ind', at_lt_ind'.
Lemma markup_two : forall raw b x, ~ markup raw b [60] x.
Proof. intros raw b x M. inversion M. Qed.
Lemma raw_nil : forall e b, search_from (raw_close_re e) b [] = None.
Proof. reflexivity. Qed.
Lemma cut_not_nil : ~ cut_reference [].
Proof. intros (p & q & E & _). destruct p; discriminate E. Qed.
Ltac rd_inv R := inversion R as [rw' Er' Es' Et'|s' t' NE' N0' NC' SA'|s' N0' C' F'|s' t' N0' C' F' SA'|r' t' AL'|s' a' r' k' t' P' NE' AL' SA'|e' s' NE' SF'|e' s' m' t' SF' AL'|e' s' a' r' m' k' SF' NE' E' AL']; subst.
Ltac al_inv R := inversion R as [rw' b' D'|b' F'|rw' b' s' evs' raw' r' k' M' RD'|rw' b' s' e' M'|rw' b' s' F' M'|b' s' a' r' k' t' F' M' G' RD' SA'|e' b' s' a' r' k' F' M' G' RD']; subst.
Lemma reads_one_both : forall fin,
  (forall raw s t, reads fin raw s t -> forall t', reads fin raw s t' -> t = t') /\
  (forall raw b s t, at_lt fin raw b s t -> forall t', at_lt fin raw b s t' -> t = t').
Proof.
  assert (W : forall c s x r, parted c s x r -> ~ In c s -> False) by (intros c s x r P N; apply N; eapply parted_in; eauto).
  assert (W2 : forall (r : str), ~ In 60 (60 :: r) -> False) by (intros r H; apply H; now left).
  assert (W3 : forall r x y, parted 60 (60 :: r) x y -> x <> [] -> False) by (intros r [|z x] y [P Q] H; [now apply H|]; injection P as <- _; contradiction Q; now left).
  assert (W4 : forall c x y, parted c [] x y -> False) by (intros c [|z x] y [P _]; discriminate P).
  intros fin. apply (reads_both _ fin (fun raw s t _ => forall t', reads fin raw s t' -> t = t') (fun raw b s t _ => forall t', at_lt fin raw b s t' -> t = t')).
  - intros raw t0 R. rd_inv R; auto; exfalso; eauto using cut_not_nil; try rewrite raw_nil in *; discriminate.
  - intros s t NE N0 NC SA t0 R. rd_inv R; try (exfalso; eauto; fail). eapply said_one; eauto.
  - intros s N0 C F t0 R. rd_inv R; try (exfalso; eauto using cut_not_nil; fail); auto; discriminate.
  - intros s t N0 C F SA t0 R. rd_inv R; try (exfalso; eauto using cut_not_nil; fail); try discriminate. eapply said_one; eauto.
  - intros r t AL IH t0 R. rd_inv R; try (exfalso; eauto; fail). auto.
  - intros s a r k t P NE AL IH SA t0 R. rd_inv R; try (exfalso; eauto; fail). destruct (parted_one _ _ _ _ _ _ P P') as [-> ->]. apply IH in AL'. subst k'. eapply said_one; eauto.
  - intros e s NE SF t0 R. rd_inv R; try (exfalso; eauto; fail); auto; congruence.
  - intros e s m t SF AL IH t0 R. rd_inv R; try (rewrite raw_nil in SF; discriminate SF); auto; congruence.
  - intros e s a r m k SF NE E AL IH t0 R. assert (NN : a ++ r <> []) by (destruct a; [now contradiction NE|discriminate]). rd_inv R; try contradiction; try (rewrite raw_nil in SF; discriminate SF); try congruence. rewrite SF in SF'. injection SF' as <- <-. apply app_inv_head in E'. subst r'. now apply IH in AL' as ->.
  - intros raw b D t0 R. al_inv R; auto; try (exfalso; eapply markup_two; eassumption). destruct D; congruence.
  - intros b F t0 R. al_inv R; auto; try (exfalso; eapply markup_two; eassumption). destruct D'; congruence.
  - intros raw b s evs raw0 r k M RD IH t0 R. al_inv R; try (exfalso; eapply markup_two; eassumption); pose proof (markup_one _ _ _ _ _ M M') as Q; try discriminate Q. injection Q as <- <- <-. now apply IH in RD' as ->.
  - intros raw b s e M t0 R. al_inv R; try (exfalso; eapply markup_two; eassumption); pose proof (markup_one _ _ _ _ _ M M') as Q; try discriminate Q. now injection Q as <-.
  - intros raw b s F M t0 R. al_inv R; try (exfalso; eapply markup_two; eassumption); try (pose proof (markup_one _ _ _ _ _ M M') as Q; discriminate Q); try discriminate; auto.
  - intros b s a r k t F M G RD IH SA t0 R. al_inv R; try (exfalso; eapply markup_two; eassumption); try (pose proof (markup_one _ _ _ _ _ M M') as Q; discriminate Q); try discriminate. destruct (given_one _ _ _ _ _ G G') as [<- <-]. apply IH in RD'. subst k'. eapply said_one; eauto.
  - intros e b s a r k F M G RD IH t0 R. al_inv R; try (exfalso; eapply markup_two; eassumption); try (pose proof (markup_one _ _ _ _ _ M M') as Q; discriminate Q); try discriminate. destruct (given_one _ _ _ _ _ G G') as [<- <-]. now apply IH in RD' as ->.
  Unshelve. all: exact [].
Qed.
Theorem tokens_reads : forall fin raw s t, raw_ok raw -> (tokens fin raw s = t <-> reads fin raw s t).
Proof.
  intros fin raw s t O. pose proof (reads_sound (S (length s)) fin raw s (Nat.lt_succ_diag_r _) O) as R. split; [intros <-; exact R|]. intros R'. eapply (proj1 (reads_one_both fin)); eauto.
Qed.
End F.
Close Scope N_scope.
