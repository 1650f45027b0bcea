(** Tags as they may be written, and what the tokenizer makes of them. *)
From Verif Require Import BaseFacts StrFacts TreeFacts TokFacts CrashFacts.
From Verif Require Export SourceFacts.
Open Scope N_scope.
Section T.
Context `{U : Uni}.

(** Where separators stop: not a blank, and no slash but the one of a closing
    bracket. *)
Definition stops (r : str) : Prop :=
  exists c t, r = c :: t /\ is_space c = false /\ (c <> 47 \/ exists t', t = 62 :: t').
Lemma skip_stops : forall r p, stops r -> skip_misc p r = (p, r).
Proof.
  intros r p (c & t & -> & S0 & H). cbn [skip_misc]. rewrite S0. destruct (N.eqb_spec c 47); [|reflexivity]. destruct H as [H|(t' & ->)]; [contradiction|].
  change (62 =? 62) with true. reflexivity.
Qed.
Lemma skip_blanks : forall w r p, Forall html_blank w -> stops r -> skip_misc p (w ++ r) = (last w p, r).
Proof.
  intros w r p F. revert p. induction F as [|c w B _ IH]; intros p H; [now apply skip_stops|]. cbn [app skip_misc]. destruct (blank_facts c B) as (-> & _). rewrite IH by assumption. now rewrite last_cons_default.
Qed.
Lemma last_name : forall nm p, Forall name_part nm -> nm <> [] -> exists c, last_of p nm = c /\ name_part c.
Proof.
  intros nm p F H. unfold last_of. induction nm as [|c nm IH]; [now elim H|]. inversion F; subst. rewrite last_cons_default. destruct nm as [|d nm]; [eexists; split; [reflexivity|assumption]|].
  rewrite (last_default (d :: nm) c p) by discriminate. apply IH; auto. discriminate.
Qed.

(** ** Attributes *)
Lemma take_quoted : forall q s r, Forall (fun c => c <> q) s -> take_while (fun c => negb (c =? q)) (s ++ q :: r) = s.
Proof.
  intros q s r F. apply (take_app (fun c => negb (c =? q)) s (q :: r)).
  - eapply Forall_impl; [|exact F]. intros c H. cbn beta. destruct (N.eqb_spec c q); [contradiction|reflexivity].
  - right. exists q, r. rewrite N.eqb_refl. split; reflexivity.
Qed.
Lemma has_app : forall c a r, has_char c (a ++ c :: r) = true.
Proof. intros. unfold has_char. rewrite existsb_app. cbn. rewrite N.eqb_refl. now rewrite orb_true_r. Qed.
Lemma quote_is : forall q, quote_mark q -> is_quote q = true /\ is_space q = false /\ q <> 38 /\ q <> 35 /\ q <> 59 /\ q <> 88 /\ q <> 120 /\ q <> 61 /\ ~ hex_char q.
Proof. intros q [->| ->]; unfold hex_char, digit; repeat split; try discriminate; try reflexivity; lia. Qed.
Lemma text_empty {sm} : forall ok m, text_as sm ok m [] -> m = [].
Proof. intros ok m H. inversion H; auto. Qed.
Lemma attr_val_quoted {sm} : forall q v s, quote_mark q -> text_as sm (fun c => c <> q) v s -> attr_val (Some (q :: s ++ [q])) = Ok (Some v).
Proof.
  intros q v s Q T. unfold attr_val. cbv zeta. destruct (quote_is q Q) as (-> & _). rewrite last_cons_default, last_last, N.eqb_refl. cbn [andb].
  rewrite removelast_last. destruct s as [|c s]; [now rewrite (text_empty _ _ T)|]. rewrite (text_unescape _ _ _ T). reflexivity.
Qed.
Lemma bare_not_quote {sm} : forall v s, text_as sm bare_char v s -> Forall (fun c => is_quote c = false /\ is_space c = false /\ c <> 62 /\ c <> 61) s.
Proof.
  intros v s T. assert (Q : forall c, c <> 34 -> c <> 39 -> is_quote c = false) by (intros c A B; unfold is_quote; destruct (N.eqb_spec c 39), (N.eqb_spec c 34); try reflexivity; contradiction).
  (* characters of names in the table may not be equal signs *)
  assert (E : Forall (fun c => c <> 61) s).
  { induction T as [|c m s K N38 H IH|m s H IH NR|k nm x m s I E H IH|ds m s NE F L O H IH|x ds m s X NE F L O H IH]; auto.
    - constructor; auto. apply K.
    - constructor; auto. discriminate.
    - constructor; [discriminate|]. apply Forall_app. split; [|constructor; auto; discriminate].
      assert (TN : forallb (fun kv => forallb (fun c => negb (c =? 61)) (lit (fst kv))) html5 = true) by (vm_compute; reflexivity).
      rewrite forallb_forall in TN. specialize (TN _ I). cbn [fst] in TN. rewrite E, forallb_app in TN. apply andb_true_iff in TN. destruct TN as [TN _]. rewrite forallb_forall in TN.
      apply Forall_forall. intros c C Z. specialize (TN c C). subst c. discriminate.
    - constructor; [discriminate|]. constructor; [discriminate|]. apply Forall_app. split; [|constructor; auto; discriminate]. eapply Forall_impl; [|exact F]. unfold digit. intros; lia.
    - constructor; [discriminate|]. constructor; [discriminate|]. constructor; [destruct X; subst; discriminate|]. apply Forall_app. split; [|constructor; auto; discriminate]. eapply Forall_impl; [|exact F]. unfold hex_char, digit. intros; lia. }
  assert (R : Forall (fun c => is_quote c = false /\ is_space c = false /\ c <> 62) s).
  { eapply text_chars; [exact T|..]; try (repeat split; discriminate).
    - intros c (A & B & _ & _ & D & _). unfold quote_mark in B. split; [apply Q; tauto|]. split; assumption.
    - intros c H. unfold hex_char, digit in H. split; [apply Q; lia|]. split; [unfold is_space; nb|lia].
    - intros c (A & B & _ & D & S0). split; [now apply Q|]. split; assumption. }
  rewrite Forall_forall in *. intros c C. destruct (R c C) as (A & B & D). repeat split; auto.
Qed.
Lemma attr_val_bare {sm} : forall v s, s <> [] -> text_as sm bare_char v s -> attr_val (Some s) = Ok (Some v).
Proof.
  intros v s NE T. pose proof (bare_not_quote _ _ T) as F. unfold attr_val. cbv zeta. destruct s as [|c s]; [now elim NE|]. inversion F; subst. destruct H1 as (-> & _). cbn [andb].
  rewrite (text_unescape _ _ _ T). reflexivity.
Qed.

(** An attribute and its value, before separators [w] and what follows them. *)
Lemma attr_step {sm} : forall prev nm v vs b w r, is_space prev = true -> nm <> [] -> Forall name_part nm -> value_as sm v vs b ->
  Forall html_blank w -> stops r -> (forall t, r <> 61 :: t) -> (w <> [] \/ exists t, r = 62 :: t \/ (b = false /\ r = 47 :: 62 :: t)) ->
  exists raw x, attr_here prev (nm ++ vs ++ w ++ r) = Some (nm, raw, last w x, r) /\ attr_val raw = Ok v.
Proof.
  intros prev nm v vs b w r SP NE FN V FW ST N61 SEP. destruct nm as [|c nm]; [now elim NE|]. inversion FN as [|? ? FC FN']; subst.
  destruct (name_facts c FC) as (C1 & _ & _ & C4 & C5 & C6 & _ & _). cbn [app]. unfold attr_here. rewrite SP, orb_true_r, C1. cbn [orb andb negb].
  destruct (N.eqb_spec c 47); [contradiction|]. destruct (N.eqb_spec c 62); [contradiction|]. cbn [orb andb negb]. cbv zeta.
  set (more := fun c : N => negb (is_space c || (c =? 47) || (c =? 61) || (c =? 62))).
  assert (FM : Forall (fun c => more c = true) nm).
  { eapply Forall_impl; [|exact FN']. intros d D. destruct (name_facts d D) as (D1 & _ & _ & D4 & D5 & D6 & _ & _). unfold more. rewrite D1.
    destruct (N.eqb_spec d 47); [contradiction|]. destruct (N.eqb_spec d 61); [contradiction|]. destruct (N.eqb_spec d 62); [contradiction|]. reflexivity. }
  assert (SR : forall p, skip_misc p (w ++ r) = (last w p, r)) by (intros p; now apply skip_blanks).
  assert (BK : forall c0 t0, html_blank c0 -> exists c r', c0 :: t0 = c :: r' /\ more c = false).
  { intros c0 t0 B. exists c0, t0. split; auto. unfold more. destruct (blank_facts c0 B) as (-> & _). reflexivity. }
  assert (SPB : forall x r', (forall c0 t0, r' = c0 :: t0 -> is_space c0 = false) -> Forall html_blank x -> take_while is_space (x ++ r') = x /\ drop_while is_space (x ++ r') = r').
  { intros x r' H F. apply take_app; [now apply blanks_space|]. destruct r' as [|c0 t0]; [now left|right]. exists c0, t0. split; auto. eauto. }
  assert (RS : forall c0 t0, r = c0 :: t0 -> is_space c0 = false) by (intros c0 t0 E; destruct ST as (c1 & t & -> & S0 & _); congruence).
  inversion V as [|q w1 w2 v' s0 Q F1 F2 NG T|w1 w2 v' s0 F1 F2 NS T]; subst.
  - cbn [app]. destruct (take_app more nm (w ++ r) FM) as [T1 T2].
    { destruct w as [|c0 w']; cbn [app]; [|inversion FW; subst; right; now apply BK]. destruct SEP as [SEP|(t & SEP)]; [now elim SEP|].
      destruct SEP as [->|[_ ->]]; right; eexists; eexists; split; reflexivity. }
    rewrite T1, T2. assert (AV : attr_value (w ++ r) = None).
    { unfold attr_value. cbv zeta. destruct (SPB w r RS FW) as [_ ->]. destruct ST as (c0 & t & -> & S0 & S1). cbn [take_while]. destruct (N.eqb_spec 61 c0); [subst; now elim (N61 t)|]. reflexivity. }
    rewrite AV, SR. eexists. eexists. split; reflexivity.
  - destruct (quote_is q Q) as (Q1 & Q2 & Q3 & Q4 & Q5 & Q6 & Q7 & Q8 & Q9).
    destruct (take_app more nm ((w1 ++ 61 :: w2 ++ q :: s0 ++ [q]) ++ w ++ r) FM) as [T1 T2].
    { right. destruct w1 as [|c0 w']; cbn [app]; [eexists; eexists; split; reflexivity|]. inversion F1; subst. now apply BK. }
    rewrite T1, T2. assert (FS : Forall (fun c => c <> q) s0).
    { eapply text_chars; [exact T|..]; auto; try congruence.
      - intros d (A1 & A2 & _) ->. unfold quote_mark in Q. tauto. }
    assert (AV : attr_value ((w1 ++ 61 :: w2 ++ q :: s0 ++ [q]) ++ w ++ r) = Some (q :: s0 ++ [q], q, w ++ r)).
    { unfold attr_value. cbv zeta. rewrite <- app_assoc. destruct (SPB w1 ((61 :: w2 ++ q :: s0 ++ [q]) ++ w ++ r)) as [_ ->]; [cbn [app]; intros c0 t0 E; injection E as <- _; reflexivity|assumption|].
      cbn [app]. rewrite <- !app_assoc. cbn [app]. rewrite <- !app_assoc. cbn [app take_while drop_while]. change (61 =? 61) with true. cbv iota.
      destruct (take_app (N.eqb 61) [] (w2 ++ q :: s0 ++ q :: w ++ r) ltac:(constructor)) as [E1 E2].
      { right. destruct w2 as [|c0 w']; cbn [app]; eexists; eexists; (split; [reflexivity|]); apply N.eqb_neq; [congruence|]. inversion F2; subst. destruct (blank_facts c0) as (_ & _ & _ & _ & _ & B & _); [assumption|congruence]. }
      cbn [app] in E1, E2. rewrite E1, E2. destruct (SPB w2 (q :: s0 ++ q :: w ++ r)) as [_ ->]; [intros c0 t0 E; injection E as <- _; assumption|assumption|].
      rewrite Q1, has_app, take_quoted by assumption. repeat f_equal. replace (s0 ++ q :: w ++ r) with ((s0 ++ [q]) ++ w ++ r) by (rewrite <- app_assoc; reflexivity).
      replace (S (length s0)) with (length (s0 ++ [q])) by (rewrite app_length; cbn; lia). rewrite skipn_app, skipn_all, Nat.sub_diag. reflexivity. }
    rewrite AV, SR. eexists. eexists. split; [reflexivity|]. now apply (attr_val_quoted (sm := sm)).
  - pose proof (bare_not_quote _ _ T) as FS. destruct s0 as [|c0 s0]; [now elim NS|]. set (s1 := c0 :: s0) in *.
    destruct (take_app more nm ((w1 ++ 61 :: w2 ++ s1) ++ w ++ r) FM) as [T1 T2].
    { right. destruct w1 as [|c1 w']; cbn [app]; [eexists; eexists; split; reflexivity|]. inversion F1; subst. now apply BK. }
    rewrite T1, T2. inversion FS as [|? ? (FQ & FB & F62 & F61) _]; subst.
    assert (AV : exists p, attr_value ((w1 ++ 61 :: w2 ++ s1) ++ w ++ r) = Some (s1, p, w ++ r)).
    { unfold attr_value. cbv zeta. rewrite <- app_assoc. destruct (SPB w1 ((61 :: w2 ++ s1) ++ w ++ r)) as [_ ->]; [cbn [app]; intros x0 t0 E; injection E as <- _; reflexivity|assumption|].
      cbn [app]. rewrite <- app_assoc. cbn [app take_while drop_while]. change (61 =? 61) with true. cbv iota.
      destruct (take_app (N.eqb 61) [] (w2 ++ s1 ++ w ++ r) ltac:(constructor)) as [E1 E2].
      { right. destruct w2 as [|x0 w']; cbn [app]; eexists; eexists; (split; [reflexivity|]); apply N.eqb_neq; [congruence|]. inversion F2; subst. destruct (blank_facts x0) as (_ & _ & _ & _ & _ & B & _); [assumption|congruence]. }
      cbn [app] in E1, E2. rewrite E1, E2. destruct (SPB w2 (s1 ++ w ++ r)) as [_ ->]; [cbn [app]; intros x0 t0 E; injection E as <- _; assumption|assumption|].
      unfold s1 at 1. cbn [app]. rewrite FQ. change (c0 :: s0 ++ w ++ r) with (s1 ++ w ++ r).
      destruct (take_app (fun c => negb ((c =? 62) || is_space c)) s1 (w ++ r)) as [E3 E4].
      - eapply Forall_impl; [|exact FS]. intros d (_ & D1 & D2 & _). rewrite D1. destruct (N.eqb_spec d 62); [contradiction|reflexivity].
      - right. destruct w as [|x0 w']; cbn [app].
        + destruct SEP as [SEP|(t & [->|[SEP _]])]; [now elim SEP|eexists; eexists; split; reflexivity|discriminate].
        + eexists. eexists. split; [reflexivity|]. inversion FW; subst. destruct (blank_facts x0) as (-> & _); [assumption|]. now rewrite orb_true_r.
      - rewrite E3, E4. eexists. reflexivity. }
    destruct AV as (p & AV). rewrite AV, SR. eexists. eexists. split; [reflexivity|]. now apply (attr_val_bare (sm := sm)).
Qed.

(** ** All attributes *)
Definition ending (e : str) : Prop := e = [62] \/ e = [47; 62].
Lemma ending_stops : forall e r, ending e -> stops (e ++ r).
Proof. intros e r [->| ->]; cbn [app]; eexists; eexists; (split; [reflexivity|]); (split; [reflexivity|]); [left; discriminate|right; eauto]. Qed.
Lemma name_stops : forall nm r, nm <> [] -> Forall name_part nm -> stops (nm ++ r).
Proof. intros [|c nm] r H F; [now elim H|]. inversion F; subst. destruct (name_facts c H2) as (A & _ & _ & _ & _ & B & _). exists c, (nm ++ r). repeat split; auto. Qed.
(** Attributes and what follows: separators, and then the next name or the end. *)
Lemma attrs_split {sm} : forall l s b w e r, attrs_as sm l s b -> Forall html_blank w -> ending e ->
  exists w' r', s ++ w ++ e ++ r = w' ++ r' /\ Forall html_blank w' /\ stops r' /\ (forall t, r' <> 61 :: t)
    /\ (l = [] -> w' = w /\ r' = e ++ r) /\ (l <> [] -> w' <> []).
Proof.
  intros l s b w e r H FW EN. inversion H; subst.
  - exists w, (e ++ r). split; [reflexivity|]. split; [assumption|]. split; [now apply ending_stops|]. split; [destruct EN; subst; cbn; discriminate|]. split; [auto|congruence].
  - exists w0, (nm ++ vs ++ s0 ++ w ++ e ++ r). split; [now rewrite <- !app_assoc|]. split; auto. split; [now apply name_stops|]. split; [|split; [discriminate|auto]].
    intros t E. destruct nm as [|c nm]; [contradiction|]. inversion H3; subst. destruct (name_facts c H8) as (_ & _ & _ & _ & A & _). cbn in E. congruence.
Qed.
Lemma map_small_lower : forall nm, Forall name_part nm -> lower nm = map small nm.
Proof. exact lower_small. Qed.
Lemma read_all {sm} : forall l s b, attrs_as sm l s b -> forall w e r prev fuel, Forall html_blank w -> ending e -> (b = true -> w <> [] \/ e = [62]) -> (length l <= fuel)%nat ->
  read_attrs fuel r (fst (skip_misc prev (s ++ w ++ e ++ r))) (snd (skip_misc prev (s ++ w ++ e ++ r))) = Ok (l, e ++ r)
  /\ skip_attrs fuel (fst (skip_misc prev (s ++ w ++ e ++ r))) (snd (skip_misc prev (s ++ w ++ e ++ r))) = e ++ r.
Proof.
  induction 1 as [|w0 nm k v vs b l s b' NW FW0 NN FN K V A IH]; intros w e r prev fuel FW EN BR LF.
  - cbn [app]. rewrite skip_blanks by (auto using ending_stops). cbn [fst snd]. assert (AH : attr_here (last w prev) (e ++ r) = None).
    { destruct EN; subst; cbn [app attr_here]; now rewrite andb_false_r. }
    destruct fuel; cbn [read_attrs skip_attrs]; [split; reflexivity|]. rewrite AH. destruct (_ >? _)%Z; split; reflexivity.
  - destruct (attrs_split l s b' w e r A FW EN) as (w' & r' & E & FW' & ST & N61 & L0 & L1).
    replace ((w0 ++ nm ++ vs ++ s) ++ w ++ e ++ r) with (w0 ++ nm ++ vs ++ w' ++ r') by (rewrite <- E, <- !app_assoc; reflexivity).
    rewrite skip_blanks; [|assumption|now apply name_stops]. cbn [fst snd].
    destruct (attr_step (sm := sm) (last w0 prev) nm v vs b w' r') as (raw & x & AH & AV); auto.
    { now apply last_blank. }
    { destruct l as [|y l]; [|left; apply L1; discriminate]. destruct (L0 eq_refl) as [-> ->]. destruct b.
      - destruct (BR eq_refl) as [?| ->]; [now left|right]. exists r. now left.
      - right. destruct EN; subst; [exists r; now left|exists r; right; split; reflexivity]. }
    destruct fuel as [|fuel]; [cbn in LF; lia|]. cbn [read_attrs skip_attrs]. rewrite AH, AV.
    replace (len (nm ++ vs ++ w' ++ r') >? len r)%Z with true.
    2: { symmetry. rewrite <- E. apply Z.gtb_lt. unfold len. rewrite !app_length. destruct nm; [now elim NN|]. cbn [length]. lia. }
    cbn [bind]. specialize (IH w e r x fuel FW EN). rewrite E, skip_blanks in IH by assumption. cbn [fst snd] in IH. destruct IH as [I1 I2].
    { intros B. destruct l; [|now apply BR]. inversion A; subst. discriminate. }
    { cbn in LF. lia. }
    rewrite I1, I2. cbn [bind]. now rewrite map_small_lower, K.
Qed.
Lemma attrs_length {sm} : forall l s b, attrs_as sm l s b -> (length l <= length s)%nat.
Proof. induction 1; cbn; [lia|]. rewrite !app_length. destruct nm; [contradiction|]. cbn [length]. lia. Qed.

(** ** Start tags *)
Lemma start_read {sm} : forall nm t a s b w e r, spells nm t -> attrs_as sm a s b -> Forall html_blank w -> ending e -> (b = true -> w <> [] \/ e = [62]) ->
  parse_markup None (60 :: nm ++ s ++ w ++ e ++ r) = Some (
    if seqb e [62] then MGo [OStart t a] (if seqb t (lit "script") || seqb t (lit "style") then Some t else None) r
    else MGo [OStart t a; OEnd t] None r).
Proof.
  intros nm t a s b w e r SP A FW EN BR. pose proof (spells_parts _ _ SP) as FN. destruct SP as (c & nm' & -> & CL & FN' & TT). cbn [app]. unfold parse_markup. rewrite (letter_alpha c CL). f_equal.
  set (nm := c :: nm') in *. change (c :: nm' ++ s ++ w ++ e ++ r) with (nm ++ s ++ w ++ e ++ r). unfold parse_starttag.
  set (X := s ++ w ++ e ++ r). assert (X0 : exists d X', X = d :: X' /\ name_char d = false).
  { unfold X. destruct (attrs_split a s b w e r A FW EN) as (w' & r' & -> & FW' & _ & _ & L0 & L1). destruct w' as [|d w']; cbn [app].
    - destruct a as [|y a]; [|elim L1; [discriminate|reflexivity]]. destruct (L0 eq_refl) as [_ ->]. destruct EN; subst; cbn [app]; eexists; eexists; split; reflexivity.
    - inversion FW'; subst. eexists. eexists. split; [reflexivity|]. apply (blank_facts d H1). }
  destruct (take_app name_char nm X) as [T1 T2].
  { eapply Forall_impl; [|exact FN]. intros d D. apply (name_facts d D). }
  { now right. }
  assert (LA : (length a <= length (nm ++ X))%nat) by (pose proof (attrs_length _ _ _ A); unfold X; rewrite !app_length; lia).
  assert (W : whole_start_tag (nm ++ X) = Some r).
  { unfold whole_start_tag. cbv zeta. rewrite T1, T2. destruct a as [|y a].
    - inversion A; subst s. unfold X. cbn [app]. assert (E : exists w2, w ++ e ++ r = w2 ++ 62 :: r /\ Forall (fun c => slash_or_space c = true) w2).
      { destruct EN; subst; [exists w|exists (w ++ [47])]; (split; [now rewrite <- ?app_assoc|]); [|apply Forall_app; split; [|repeat constructor]]; (eapply Forall_impl; [|exact FW]; intros d D; apply (blank_facts d D)). }
      destruct E as (w2 & -> & F2). destruct (take_app slash_or_space w2 (62 :: r) F2) as [E1 E2]; [right; eexists; eexists; split; reflexivity|]. rewrite E1, E2.
      assert (AH : forall f p, skip_attrs f p (62 :: r) = 62 :: r) by (intros [|f] p; cbn [skip_attrs attr_here]; [reflexivity|]; now rewrite andb_false_r).
      rewrite AH. reflexivity.
    - pose proof (read_all _ _ _ A w e r 0 (length (nm ++ X)) FW EN BR LA) as [_ R]. fold X in R.
      inversion A as [|w0 nm0 k v vs b0 l s0 b' NW FW0 NN F0 K V A' E1 E2 E3]; subst. assert (EX : X = w0 ++ nm0 ++ vs ++ s0 ++ w ++ e ++ r) by (unfold X; now rewrite <- !app_assoc). rewrite EX in R |- *.
      rewrite skip_blanks in R by (auto using name_stops). cbn [fst snd] in R.
      destruct (take_app slash_or_space w0 (nm0 ++ vs ++ s0 ++ w ++ e ++ r)) as [E4 E5].
      { eapply Forall_impl; [|exact FW0]. intros d D. apply (blank_facts d D). }
      { right. destruct nm0 as [|d nm0]; [now elim NN|]. eexists. eexists. split; [reflexivity|]. inversion F0; subst. destruct (name_facts d H1) as (B1 & _ & _ & _ & _ & B2 & _). unfold slash_or_space. rewrite B1. now apply N.eqb_neq. }
      rewrite E4, E5. unfold last_of. rewrite (last_default w0 _ 0 NW). rewrite R. destruct EN; subst; reflexivity. }
  rewrite W, T1, T2. destruct (skip_misc (last_of 0 nm) X) as [p q] eqn:SM.
  pose proof (read_all _ _ _ A w e r (last_of 0 nm) (length (nm ++ X)) FW EN BR LA) as [R _]. fold X in R. rewrite SM in R. cbn [fst snd] in R. rewrite R.
  assert (UP : upto (e ++ r) r = e) by (unfold upto; rewrite app_length; replace (length e + length r - length r)%nat with (length e) by lia; rewrite firstn_app, firstn_all, Nat.sub_diag, app_nil_r; reflexivity).
  rewrite UP. rewrite lower_small by assumption. rewrite TT. destruct EN; subst; reflexivity.
Qed.

(** ** End tags *)
Lemma end_chars : forall w1 nm w2 t, Forall html_blank w1 -> spells nm t -> Forall html_blank w2 -> ~ In 62 (w1 ++ nm ++ w2).
Proof.
  intros w1 nm w2 t F1 SP F2 I. apply spells_parts in SP. rewrite Forall_forall in *. rewrite !in_app_iff in I.
  destruct I as [I|[I|I]]; [destruct (blank_facts 62 (F1 _ I)) as (_ & _ & _ & _ & A & _)|destruct (name_facts 62 (SP _ I)) as (_ & _ & _ & A & _)|destruct (blank_facts 62 (F2 _ I)) as (_ & _ & _ & _ & A & _)]; now apply A.
Qed.
Lemma end_read : forall cd t en r, end_as t en -> cd = None \/ cd = Some t -> parse_markup cd (en ++ r) = Some (MGo [OEnd t] None r).
Proof.
  intros cd t en r H CD. destruct H as [w1 nm w2 F1 SP F2]. cbn [app]. unfold parse_markup. change (is_alpha_ascii 47) with false. change (47 =? 47) with true. cbv iota. f_equal.
  replace ((w1 ++ nm ++ w2 ++ [62]) ++ r) with ((w1 ++ nm ++ w2) ++ 62 :: r) by (rewrite <- !app_assoc; reflexivity). unfold parse_endtag.
  rewrite after_app by (eapply end_chars; eauto). pose proof (spells_parts _ _ SP) as FN. destruct SP as (c & nm' & -> & CL & FN' & TT).
  assert (EN : end_tag_name ((w1 ++ (c :: nm') ++ w2) ++ 62 :: r) = Some (c :: nm')).
  { unfold end_tag_name. rewrite <- !app_assoc. cbn [app]. destruct (take_app is_space w1 (c :: nm' ++ w2 ++ 62 :: r)) as [_ ->].
    { now apply blanks_space. }
    { right. eexists. eexists. split; [reflexivity|]. apply (name_facts c). now apply letter_part. }
    rewrite (letter_alpha c CL). destruct (take_app end_name_char nm' (w2 ++ 62 :: r)) as [E1 E2].
    { eapply Forall_impl; [|exact FN']. intros d D. apply (name_facts d D). }
    { right. destruct w2 as [|d w2]; cbn [app]; eexists; eexists; (split; [reflexivity|]); [reflexivity|]. inversion F2; subst. apply (blank_facts d H1). }
    rewrite E1, E2. destruct (take_app is_space w2 (62 :: r)) as [_ ->]; [now apply blanks_space|right; eexists; eexists; split; reflexivity|]. reflexivity. }
  rewrite EN, lower_small, TT by assumption. destruct CD as [->| ->]; [reflexivity|]. now rewrite seqb_refl.
Qed.

(** ** Asides *)
Lemma search_app : forall p a r x, (forall b c, a = b ++ c -> c <> [] -> p (c ++ r) = None) -> p r = Some x -> search p (a ++ r) = Some x.
Proof.
  induction a as [|c a IH]; intros r x H E; cbn [app].
  - destruct r; cbn [search]; now rewrite E.
  - cbn [search]. pose proof (H [] (c :: a) eq_refl ltac:(discriminate)) as H0. cbn [app] in H0. rewrite H0. apply IH; auto. intros b d EQ ND. apply (H (c :: b) d); [now rewrite EQ|assumption].
Qed.
Lemma aside_read : forall x r, aside x -> parse_markup None (x ++ r) = Some (MGo [] None r).
Proof.
  intros x r H. destruct H as [b (B1 & B2)|d b D B|b B].
  - unfold parse_markup. cbn [app]. change (is_alpha_ascii 33) with false. change (33 =? 47) with false. cbv iota.
    replace (startswith (lit "<!--") (60 :: 33 :: 45 :: 45 :: (b ++ [45; 45; 62]) ++ r)) with true by reflexivity. cbv iota. cbn [skipn]. rewrite <- app_assoc. cbn [app].
    rewrite (search_app comment_close b (45 :: 45 :: 62 :: r) r); [reflexivity| |reflexivity].
    intros y z EB NZ. destruct z as [|z1 [|z2 z]]; [now elim NZ|..]; cbn [app]; unfold comment_close, close_at.
    + destruct (N.eqb_spec z1 45); [|reflexivity]. subst z1. elim (B2 y EB).
    + destruct (N.eqb_spec z1 45); [|reflexivity]. destruct (N.eqb_spec z2 45); [|reflexivity]. subst z1 z2. elim (B1 y z EB).
  - assert (LD : exists d1 d2 d3 d4 d5 d6 d7, d = [d1; d2; d3; d4; d5; d6; d7]).
    { apply (f_equal (@length N)) in D. rewrite map_length in D. destruct d as [|d1 [|d2 [|d3 [|d4 [|d5 [|d6 [|d7 [|d8 d]]]]]]]]; try discriminate D. repeat eexists. }
    destruct LD as (d1 & d2 & d3 & d4 & d5 & d6 & d7 & ->). cbn [app]. injection D as D1 D2 D3 D4 D5 D6 D7.
    assert (SL : forall c k, small c = k -> 97 <= k <= 122 -> (c <? 128) = true /\ 65 <= c).
    { intros c k E K. unfold small in E. destruct ((65 <=? c) && (c <=? 90)) eqn:Q; [apply andb_true_iff in Q; rewrite !N.leb_le in Q; split; [apply N.ltb_lt|]; lia|]. subst c. split; [apply N.ltb_lt; lia|lia]. }
    assert (LW : lower (firstn 9 (60 :: 33 :: d1 :: d2 :: d3 :: d4 :: d5 :: d6 :: d7 :: (b ++ [62]) ++ r)) = lit "<!doctype").
    { cbn [firstn]. unfold lower. cbn [flat_map app]. unfold lower_c. rewrite (proj1 (SL _ _ D1 ltac:(lia))), (proj1 (SL _ _ D2 ltac:(lia))), (proj1 (SL _ _ D3 ltac:(lia))), (proj1 (SL _ _ D4 ltac:(lia))), (proj1 (SL _ _ D5 ltac:(lia))), (proj1 (SL _ _ D6 ltac:(lia))), (proj1 (SL _ _ D7 ltac:(lia))).
      fold (small d1) (small d2) (small d3) (small d4) (small d5) (small d6) (small d7). change (60 <? 128) with true. change (33 <? 128) with true. cbn [app].
      change (lit "<!doctype") with [60; 33; 100; 111; 99; 116; 121; 112; 101]. cbv iota. change (is_upper_ascii 60) with false. change (is_upper_ascii 33) with false. cbv iota.
      change (if is_upper_ascii d1 then d1 + 32 else d1) with (small d1). change (if is_upper_ascii d2 then d2 + 32 else d2) with (small d2). change (if is_upper_ascii d3 then d3 + 32 else d3) with (small d3).
      change (if is_upper_ascii d4 then d4 + 32 else d4) with (small d4). change (if is_upper_ascii d5 then d5 + 32 else d5) with (small d5). change (if is_upper_ascii d6 then d6 + 32 else d6) with (small d6).
      change (if is_upper_ascii d7 then d7 + 32 else d7) with (small d7). rewrite D1, D2, D3, D4, D5, D6, D7. reflexivity. }
    pose proof (proj2 (SL _ _ D1 ltac:(lia))) as G1.
    assert (SW1 : startswith (lit "<!--") (60 :: 33 :: d1 :: d2 :: d3 :: d4 :: d5 :: d6 :: d7 :: (b ++ [62]) ++ r) = false).
    { change (lit "<!--") with [60; 33; 45; 45]. cbn [startswith]. change (60 =? 60) with true. change (33 =? 33) with true. cbn [andb]. destruct (N.eqb_spec 45 d1); [lia|]. reflexivity. }
    assert (SW2 : startswith (lit "<![") (60 :: 33 :: d1 :: d2 :: d3 :: d4 :: d5 :: d6 :: d7 :: (b ++ [62]) ++ r) = false).
    { change (lit "<![") with [60; 33; 91]. cbn [startswith]. change (60 =? 60) with true. change (33 =? 33) with true. cbn [andb]. destruct (N.eqb_spec 91 d1); [|reflexivity]. subst d1. discriminate D1. }
    unfold parse_markup. change (is_alpha_ascii 33) with false. change (33 =? 47) with false. change (33 =? 63) with false. change (33 =? 33) with true. cbv iota. rewrite SW1. cbv iota. unfold parse_declaration. rewrite SW2, LW, seqb_refl. cbv iota.
    cbn [skipn]. rewrite <- app_assoc. cbn [app]. rewrite after_app by assumption. reflexivity.
  - unfold parse_markup. cbn [app]. change (is_alpha_ascii 63) with false. change (63 =? 47) with false. cbv iota.
    replace (startswith (lit "<!--") (60 :: 63 :: (b ++ [62]) ++ r)) with false by reflexivity. cbv iota. change (63 =? 63) with true. cbv iota. rewrite <- app_assoc. cbn [app]. now rewrite after_app.
Qed.
End T.
Close Scope N_scope.
