(** Source text in pieces: the pieces together. *)
From Verif Require Import BaseFacts StrFacts TreeFacts TokFacts CrashFacts.
From Verif Require Export ChunkMain SplitFacts.
Open Scope N_scope.

(** ** Text cut in two *)
Lemma from_last_app : forall c a b t, from_last c b = Some t -> from_last c (a ++ b) = Some t.
Proof. intros c a b t H. induction a as [|x a IH]; [exact H|]. cbn [app from_last]. now rewrite IH. Qed.
Lemma half_tail : forall a x, half_reference x = true -> half_reference (a ++ x) = true.
Proof.
  intros a x H. unfold half_reference in *. rewrite app_length. destruct (from_last 38 (skipn (length x - 34) x)) as [t|] eqn:F; [|discriminate].
  assert (exists b, skipn (length a + length x - 34) (a ++ x) = b ++ skipn (length x - 34) x) as (b & ->).
  { rewrite skipn_app. destruct (Nat.le_gt_cases (length x) 34) as [L|L].
    - replace (length x - 34)%nat with 0%nat by lia. replace (length a + length x - 34 - length a)%nat with 0%nat by lia. eexists. reflexivity.
    - replace (length a + length x - 34 - length a)%nat with (length x - 34)%nat by lia. eexists. reflexivity. }
  now rewrite (from_last_app _ _ _ _ F).
Qed.
Lemma half_tail_false : forall a x, half_reference (a ++ x) = false -> half_reference x = false.
Proof. intros a x H. destruct (half_reference x) eqn:E; [|reflexivity]. apply (half_tail a) in E. congruence. Qed.
Definition inner (c : N) : Prop := c <> 38 /\ is_space c = false /\ c <> 59.
Lemma half_true : forall x, Forall inner x -> (length x <= 33)%nat -> half_reference (38 :: x) = true.
Proof.
  intros x F L. unfold half_reference. replace (length (38%N :: x) - 34)%nat with 0%nat by (cbn [length]; lia). cbn [skipn from_last]. assert (N0 : from_last 38 x = None).
  { clear L. induction F as [|c x (H & _) _ IH]; [reflexivity|]. cbn [from_last]. rewrite IH. destruct (N.eqb_spec c 38); [contradiction|reflexivity]. }
  rewrite N0. cbn [N.eqb Pos.eqb]. cbn [existsb]. change (is_space 38 || (38 =? 59)) with false. cbn [orb]. apply negb_true_iff. clear L N0. induction F as [|c x (_ & H & K) _ IH]; [reflexivity|]. cbn [existsb]. rewrite H, IH.
  destruct (N.eqb_spec c 59); [contradiction|reflexivity].
Qed.
Lemma ref_cut : forall body s' x y, Forall inner body -> (length body <= 33)%nat -> 38 :: body ++ 59 :: s' = x ++ y -> half_reference x = false ->
  x = [] \/ exists x', x = 38 :: body ++ 59 :: x' /\ s' = x' ++ y /\ half_reference x' = false.
Proof.
  intros body s' x y F L E H. destruct x as [|c x]; [now left|]. right. injection E as <- E. destruct (prefix_split _ _ _ _ E) as [(z & _ & EB)|(z & -> & EC & NZ)].
  - exfalso. rewrite half_true in H; [discriminate| |].
    + rewrite EB in F. apply Forall_app in F. apply F.
    + rewrite EB, app_length in L. lia.
  - destruct z as [|z0 z]; [now elim NZ|]. injection EC as <- EC. exists z. repeat split; auto.
    replace (38 :: body ++ 59 :: z) with ((38 :: body ++ [59]) ++ z) in H by (cbn [app]; rewrite <- app_assoc; reflexivity). now apply half_tail_false in H.
Qed.
Lemma ref_char_inner : forall c, ref_char c = true -> is_space c = false -> inner c.
Proof.
  intros c H K. unfold inner. split; [intros ->; discriminate|]. split; [exact K|]. intros ->. discriminate.
Qed.
Lemma hex_inner : forall c, hex_char c -> inner c.
Proof.
  intros c H. unfold inner. unfold hex_char, digit in H. split; [lia|]. split; [|lia]. apply (name_facts c). unfold name_part, ascii_letter, digit. lia.
Qed.
Lemma text_cut : forall ok m s, text_as true ok m s -> forall x y, s = x ++ y -> half_reference x = false ->
  exists m1 m2, text_as true ok m1 x /\ text_as true ok m2 y /\ m = m1 ++ m2.
Proof.
  intros ok m s T. induction T as [|c m s K N38 H IH|m s H IH NR|k nm v m s I0 E0 H IH|ds m s NE F L O H IH|h ds m s X NE F L O H IH]; intros x y E HR;
    (destruct x as [|x0 x]; [exists []; eexists; split; [constructor|]; split; [cbn [app] in E; subst y|reflexivity]|]);
    [apply ta_nil|discriminate|apply ta_char; eassumption| |apply ta_amp; eassumption| |eapply ta_named; eassumption| |apply ta_decimal; eassumption| |apply ta_hex; eassumption|].
  - injection E as <- E. destruct (IH x y E) as (m1 & m2 & T1 & T2 & ->); [now apply (half_tail_false [c]) in HR|]. exists (c :: m1), m2. repeat split; auto. now constructor.
  - injection E as <- E. destruct (IH x y E) as (m1 & m2 & T1 & T2 & ->); [now apply (half_tail_false [38]) in HR|]. exists (38 :: m1), m2. repeat split; auto. apply ta_amp; auto.
    destruct x as [|x1 x]; [now left|]. right. destruct NR as [->|(c & r & -> & NR)]; [discriminate|]. injection E as -> _. eauto.
  - destruct (table_name _ _ _ I0 E0) as (_ & FR & LN & FS). assert (FI : Forall inner nm).
    { rewrite Forall_forall in *. intros c Hc. apply ref_char_inner; [now apply FR|]. apply (FS c Hc). }
    destruct (ref_cut nm s (x0 :: x) y FI ltac:(lia) E HR) as [Z|(x' & EX & ES & HX)]; [discriminate|].
    destruct (IH x' y ES HX) as (m1 & m2 & T1 & T2 & ->). exists (v ++ m1), m2. rewrite EX. repeat split; [eapply ta_named; eauto|auto|now rewrite app_assoc].
  - destruct (ref_cut (35 :: ds) s (x0 :: x) y) as [Z|(x' & EX & ES & HX)]; [| |exact E|exact HR| |].
    { constructor; [repeat split; discriminate|]. eapply Forall_impl; [|exact F]. intros c Hc. apply hex_inner. now left. }
    { cbn [length]. cbv iota in L. unfold len in L. lia. }
    { discriminate. }
    destruct (IH x' y ES HX) as (m1 & m2 & T1 & T2 & ->). exists (number 10 ds :: m1), m2. rewrite EX. repeat split; [apply ta_decimal; auto|auto].
  - destruct (ref_cut (35 :: h :: ds) s (x0 :: x) y) as [Z|(x' & EX & ES & HX)]; [| |exact E|exact HR| |].
    { constructor; [repeat split; discriminate|]. constructor; [destruct X; subst; repeat split; discriminate|]. eapply Forall_impl; [|exact F]. intros c Hc. now apply hex_inner. }
    { cbn [length]. specialize (L eq_refl). unfold len in L. lia. }
    { discriminate. }
    destruct (IH x' y ES HX) as (m1 & m2 & T1 & T2 & ->). exists (number 16 ds :: m1), m2. rewrite EX. repeat split; [apply ta_hex; auto|auto].
Qed.
Lemma table_values : forallb (fun kv => match snd kv with [] => false | _ => true end) html5 = true.
Proof. vm_compute. reflexivity. Qed.
Lemma text_nonempty {sm} : forall ok m s, text_as sm ok m s -> s <> [] -> m <> [].
Proof.
  intros ok m s T NE. destruct T; try discriminate; [now elim NE|]. pose proof table_values as TV. rewrite forallb_forall in TV. specialize (TV _ H). cbn [snd] in TV. destruct v; [discriminate|]. discriminate.
Qed.
(** The ends of what is written are the ends of the text. *)
Lemma text_end {sm} : forall ok m s, text_as sm ok m s -> forall x c, s = x ++ [c] -> c <> 59 -> exists m0, m = m0 ++ [c].
Proof.
  assert (R : forall body s x c, 38 :: body ++ 59 :: s = x ++ [c] -> c <> 59 -> exists x', s = x' ++ [c]).
  { intros body s x c E NC. destruct (exists_last (l := 59 :: s)) as (q & z & EQ); [discriminate|].
    assert (Z : z = c) by (rewrite EQ in E; change (38 :: body ++ q ++ [z]) with ((38 :: body) ++ q ++ [z]) in E; rewrite app_assoc in E; apply app_inj_tail in E; apply E). subst z.
    destruct q as [|q0 q]; [injection EQ as <- _; contradiction|]. injection EQ as _ EQ. eauto. }
  intros ok m s T. induction T as [|c m s K N38 H IH|m s H IH NR|k nm v m s I0 E0 H IH|ds m s NE F L O H IH|h ds m s X NE F L O H IH]; intros x d E ND.
  - destruct x; discriminate.
  - destruct x as [|x0 x]; [injection E as <- E2; subst s; inversion H; exists []; reflexivity|]. injection E as <- E. destruct (IH _ _ E ND) as (m0 & ->). now exists (c :: m0).
  - destruct x as [|x0 x]; [injection E as <- E2; subst s; inversion H; exists []; reflexivity|]. injection E as <- E. destruct (IH _ _ E ND) as (m0 & ->). now exists (38 :: m0).
  - destruct (R _ _ _ _ E ND) as (x' & ES). destruct (IH _ _ ES ND) as (m0 & ->). exists (v ++ m0). now rewrite app_assoc.
  - destruct (R (35 :: ds) _ _ _ E ND) as (x' & ES). destruct (IH _ _ ES ND) as (m0 & ->). now exists (number 10 ds :: m0).
  - destruct (R (35 :: h :: ds) _ _ _ E ND) as (x' & ES). destruct (IH _ _ ES ND) as (m0 & ->). now exists (number 16 ds :: m0).
Qed.
Lemma text_start {sm} : forall ok m c s, text_as sm ok m (c :: s) -> c <> 38 -> exists m0, m = c :: m0.
Proof. intros ok m c s T N38. inversion T; subst; try contradiction. eauto. Qed.

Section R.
Context `{U : Uni}.

(** ** Sources as they are read *)
Inductive ready : option str -> str -> list op -> Prop :=
| rd_nil : ready None [] []
| rd_text : forall m s src E, s <> [] -> text_as true (fun c => c <> 60) m s -> at_tag src -> ready None src E -> ready None (s ++ src) (OData m :: E)
| rd_mark : forall M evs cd src E, mark M evs cd -> ready cd src E -> ready None (M ++ src) (evs ++ E)
| rd_raw : forall t s en src E, raw_text s -> end_as t en -> ready None src E ->
    ready (Some t) (s ++ en ++ src) ((match s with [] => [] | _ => [OData s] end) ++ OEnd t :: E).

Lemma at_tag_app : forall a b, at_tag a -> at_tag b -> at_tag (a ++ b).
Proof. intros a b [->|(r & ->)] B; [exact B|]. right. cbn [app]. eauto. Qed.
Lemma mark_tag : forall M evs cd r, mark M evs cd -> at_tag (M ++ r).
Proof. intros M evs cd r H. destruct (mark_first _ _ _ H) as (x & ->). right. cbn [app]. eauto. Qed.
Lemma written_ready : forall doc src, written true doc src -> exists E, filter counts E = flat_map events doc
  /\ forall src2 E2, at_tag src2 -> ready None src2 E2 -> ready None (src ++ src2) (E ++ E2).
Proof.
  intros doc src H. induction H as [|m s rest src NE T AT W (E & EF & P)|t a st kids ks en rest src NR NV ST WK (EK & EFK & PK) EN W (E & EF & P)
    |t a st rest src NV ST W (E & EF & P)|t a st rest src V ST W (E & EF & P)|t a st s en rest src RE ST R EN W (E & EF & P)|x rest src A W (E & EF & P)].
  - exists []. split; auto.
  - exists (OData m :: E). cbn [filter counts flat_map events]. rewrite EF. split; [reflexivity|]. intros src2 E2 A2 R2. rewrite <- app_assoc. cbn [app]. apply rd_text; auto. now apply at_tag_app.
  - assert (CD : seqb t (lit "script") || seqb t (lit "style") = false).
    { unfold raw_element in NR. destruct (seqb t (lit "script")) eqn:E1; [apply seqb_eq in E1; tauto|]. destruct (seqb t (lit "style")) eqn:E2; [apply seqb_eq in E2; tauto|reflexivity]. }
    exists (([OStart t a] ++ EK ++ [OEnd t]) ++ E). split.
    + rewrite filter_app. cbn [app filter counts]. rewrite filter_app. cbn [filter counts flat_map events]. now rewrite EFK, EF, NV.
    + intros src2 E2 A2 R2. rewrite <- !app_assoc. eapply rd_mark; [apply mk_start; exact ST|]. rewrite CD. apply PK; [eapply mark_tag; apply mk_end; exact EN|]. apply (rd_mark en [OEnd t] None); [now apply mk_end|]. auto.
  - exists ([OStart t a; OEnd t] ++ E). split; [cbn [app filter counts flat_map events]; now rewrite EF, NV|].
    intros src2 E2 A2 R2. rewrite <- !app_assoc. eapply rd_mark; [apply mk_slash; exact ST|]. auto.
  - destruct ST as [ST|ST].
    + assert (CD : seqb t (lit "script") || seqb t (lit "style") = false) by (unfold void in V; apply orb_true_iff in V; destruct V as [V|V]; apply seqb_eq in V; subst; reflexivity).
      exists ([OStart t a] ++ E). split; [cbn [app filter counts flat_map events]; now rewrite EF, V|].
      intros src2 E2 A2 R2. rewrite <- !app_assoc. eapply rd_mark; [apply mk_start; exact ST|]. rewrite CD. auto.
    + exists ([OStart t a; OEnd t] ++ E). split; [cbn [app filter counts flat_map events]; now rewrite EF, V|].
      intros src2 E2 A2 R2. rewrite <- !app_assoc. eapply rd_mark; [apply mk_slash; exact ST|]. auto.
  - exists ([OStart t a] ++ ((match s with [] => [] | _ => [OData s] end) ++ OEnd t :: E)). assert (NV : void t = false) by (destruct RE; subst; reflexivity). split.
    + cbn [app filter counts flat_map events]. rewrite filter_app. cbn [filter counts]. rewrite NV, EF. destruct s; cbn [filter counts flat_map events app]; reflexivity.
    + intros src2 E2 A2 R2. rewrite <- !app_assoc. eapply rd_mark; [apply mk_start; exact ST|]. replace (seqb t (lit "script") || seqb t (lit "style")) with true by (destruct RE; subst; reflexivity).
      cbn [app]. apply rd_raw; auto.
  - exists E. split; [assumption|]. intros src2 E2 A2 R2. rewrite <- app_assoc. apply (rd_mark x [] None); [now apply mk_aside|]. auto.
Qed.

Lemma raw_tokens' : forall f t s en x, raw_text s -> end_as t en ->
  tokens f (Some t) (s ++ en ++ x) = emit_all ((match s with [] => [] | _ => [OData s] end) ++ [OEnd t]) (tokens f None x).
Proof.
  intros f t s en x R E. rewrite tokens_eq. assert (NE : exists c z, s ++ en ++ x = c :: z) by (destruct (end_first _ _ E) as (y & ->); destruct s; cbn; eauto).
  destruct NE as (c & z & NE). rewrite NE, <- NE, raw_split by assumption. assert (AM : at_markup f (Some t) (en ++ x) = TEv (OEnd t) (tokens f None x)).
  { pose proof (end_read (Some t) t en x E (or_intror eq_refl)) as P. destruct (end_first _ _ E) as (y & ->). cbn [app] in *. unfold at_markup. now rewrite P. }
  rewrite AM. destruct s; reflexivity.
Qed.
Lemma text_alone : forall f m s, s <> [] -> text_as true (fun c => c <> 60) m s ->
  tokens f None s = if half_reference s then (if f then TEv (OData m) (TStop None []) else TStop None s) else TEv (OData m) (TStop None []).
Proof.
  intros f m s NE T. destruct (take_app Tokenizer.not_lt s [] (text_not_lt _ _ T)) as [E1 E2]; [now left|]. rewrite app_nil_r in E1, E2.
  assert (EM : forall k, emit s k = TEv (OData m) k) by (intros k; unfold emit; now rewrite (text_unescape _ _ _ T)).
  rewrite tokens_eq, E1, E2. destruct s as [|c s]; [now elim NE|]. destruct (half_reference (c :: s)); [|apply EM]. cbn [finish]. destruct f; [apply EM|reflexivity].
Qed.
Lemma ready_close : forall cd s E, ready cd s E -> tokens true cd s = emit_all E (TStop None []).
Proof.
  intros cd s E H. induction H as [|m s src E NE T AT H IH|M evs cd src E MK H IH|t s en src E R EN H IH].
  - now rewrite tokens_eq.
  - destruct AT as [->|(r & ->)].
    + rewrite app_nil_r, (text_alone true m s NE T). rewrite tokens_eq in IH. cbn [emit_all]. rewrite <- IH. now destruct (half_reference s).
    + rewrite (text_tokens true m s r NE T), IH. reflexivity.
  - now rewrite (mark_tokens true M evs cd src MK), IH, emit_all_app.
  - rewrite raw_tokens', IH, <- emit_all_app by assumption. now rewrite <- app_assoc.
Qed.

(** ** One piece *)
Definition sharp (a b : str) : Prop :=
  (exists x c, a = x ++ [c] /\ is_space c = false) \/ (exists c x, b = c :: x /\ is_space c = false).
Definition parted (E E1 E2 : list op) : Prop :=
  E = E1 ++ E2 \/ exists E0 a b rest, E = E0 ++ OData (a ++ b) :: rest /\ E1 = E0 ++ [OData a] /\ E2 = OData b :: rest /\ sharp a b.
Lemma parted_app : forall l E E1 E2, parted E E1 E2 -> parted (l ++ E) (l ++ E1) E2.
Proof.
  intros l E E1 E2 [->|(E0 & a & b & rest & -> & -> & -> & SH)]; [left; now rewrite app_assoc|]. right. exists (l ++ E0), a, b, rest. rewrite <- !app_assoc. auto.
Qed.
Lemma calm_tail : forall a x y, calm (a ++ x) y -> calm x y.
Proof. intros a x y [H|H]; [left|now right]. intros b c ->. apply (H (a ++ b)). now rewrite <- app_assoc. Qed.
Lemma suff_nil : forall x : str, suff [] x.
Proof. intros x. exists x. now rewrite app_nil_r. Qed.
Lemma read_piece : forall cd s E, ready cd s E -> forall x y, s = x ++ y -> calm x y ->
  exists E1 E2 cd' r, tokens false cd x = emit_all E1 (TStop cd' r) /\ ready cd' (r ++ y) E2 /\ parted E E1 E2 /\ suff r x.
Proof.
  intros cd s E H. induction H as [|m s src E NE T AT H IH|M evs cd src E MK H IH|t s en src E R EN H IH]; intros x y EQ CA.
  - exists [], [], None, []. destruct x; [|discriminate]. cbn in EQ. subst y. rewrite tokens_eq. split; [reflexivity|]. split; [apply rd_nil|split; [now left|apply suff_nil]].
  - assert (keep : ready None (s ++ src) (OData m :: E)) by now constructor.
    destruct (prefix_split _ _ _ _ EQ) as [(z & EY & ES)|(z & EX & ES & NZ)].
    + destruct x as [|x0 x'].
      { exists [], (OData m :: E), None, []. rewrite tokens_eq. split; [reflexivity|]. split; [cbn [app] in *; now rewrite <- EQ|split; [now left|first [apply suff_nil|apply suff_refl]]]. }
      set (x := x0 :: x') in *. assert (NX : x <> []) by discriminate. clearbody x. destruct (half_reference x) eqn:HR.
      * exists [], (OData m :: E), None, x. split; [|split; [now rewrite <- EQ|split; [now left|first [apply suff_nil|apply suff_refl]]]].
        assert (F : Forall (fun c => Tokenizer.not_lt c = true) x) by (pose proof (text_not_lt _ _ T) as F; rewrite ES in F; apply Forall_app in F; apply F).
        destruct (take_app Tokenizer.not_lt x [] F) as [_ E2]; [now left|]. rewrite app_nil_r in E2. rewrite tokens_eq, E2, HR. destruct x; [now elim NX|]. reflexivity.
      * destruct (text_cut _ _ _ T x z ES HR) as (m1 & m2 & T1 & T2 & EM). subst m. destruct z as [|z0 z'].
        -- cbn [app] in EY. subst y. rewrite (text_empty _ _ T2), app_nil_r. exists [OData m1], E, None, []. rewrite (text_alone false m1 x NX T1), HR. split; [reflexivity|]. split; [exact H|split; [now left|first [apply suff_nil|apply suff_refl]]].
        -- set (z := z0 :: z') in *. assert (NZ : z <> []) by discriminate. exists [OData m1], (OData m2 :: E), None, []. rewrite (text_alone false m1 x NX T1), HR. split; [reflexivity|]. split.
           ++ cbn [app]. rewrite EY. now constructor.
           ++ split; [|apply suff_nil]. right. exists [], m1, m2, E. repeat split; auto. destruct CA as [CA|CA].
              ** left. destruct (exists_last NX) as (a & c & EX). destruct (CA a c EX) as (S1 & N59). destruct (text_end _ _ _ T1 a c EX N59) as (m0 & ->). eauto.
              ** right. unfold z in EY. cbn [app] in EY. destruct (CA _ _ EY) as (S1 & N38). destruct (text_start _ _ _ _ T2 N38) as (m0 & ->). eauto.
    + subst x. destruct AT as [->|(r & AT)]; [destruct z; [now elim NZ|discriminate]|].
      assert (ZL : exists z', z = 60 :: z') by (destruct z as [|z0 z]; [now elim NZ|]; rewrite AT in ES; injection ES as <- _; eauto). destruct ZL as (z' & ZL).
      destruct (IH z y ES) as (E1 & E2 & cd' & r' & P1 & P2 & P3 & P4); [now apply calm_tail in CA|].
      exists (OData m :: E1), E2, cd', r'. rewrite ZL in *. rewrite (text_tokens false m s z' NE T), P1. split; [reflexivity|]. split; [exact P2|]. split; [apply (parted_app [OData m]); exact P3|]. eapply suff_trans; [exact P4|apply suff_app].
  - destruct (prefix_split _ _ _ _ EQ) as [(z & EY & ES)|(z & EX & ES & NZ)].
    + destruct z as [|z0 z'].
      * rewrite app_nil_r in ES. cbn [app] in EY. subst y x. exists evs, E, cd, []. rewrite <- (app_nil_r M) at 1. rewrite (mark_tokens false M evs cd [] MK). split; [f_equal; now rewrite tokens_eq|]. split; [exact H|split; [now left|first [apply suff_nil|apply suff_refl]]].
      * exists [], (evs ++ E), None, x. rewrite (mark_waits M evs cd x (z0 :: z') MK ES) by discriminate. split; [reflexivity|]. split; [rewrite <- EQ; now econstructor; eauto|split; [now left|first [apply suff_nil|apply suff_refl]]].
    + subst x. destruct (IH z y ES) as (E1 & E2 & cd' & r' & P1 & P2 & P3 & P4); [now apply calm_tail in CA|].
      exists (evs ++ E1), E2, cd', r'. rewrite (mark_tokens false M evs cd z MK), P1, emit_all_app. split; [reflexivity|]. split; [exact P2|]. split; [now apply parted_app|]. eapply suff_trans; [exact P4|apply suff_app].
  - rewrite app_assoc in EQ. destruct (prefix_split _ _ _ _ EQ) as [(z & EY & ES)|(z & EX & ES & NZ)].
    + destruct z as [|z0 z'].
      * rewrite app_nil_r in ES. cbn [app] in EY. subst y x. exists ((match s with [] => [] | _ => [OData s] end) ++ [OEnd t]), E, None, [].
        pose proof (raw_tokens' false t s en [] R EN) as P. rewrite !app_nil_r in P. rewrite P. split; [f_equal; now rewrite tokens_eq|]. split; [exact H|split; [left; now rewrite <- app_assoc|apply suff_nil]].
      * exists [], ((match s with [] => [] | _ => [OData s] end) ++ OEnd t :: E), (Some t), x. split.
        -- rewrite tokens_eq, (raw_waits t s en x (z0 :: z') R EN ES) by discriminate. now destruct x.
        -- split; [rewrite <- EQ, <- app_assoc; now constructor|split; [now left|first [apply suff_nil|apply suff_refl]]].
    + subst x. destruct (IH z y ES) as (E1 & E2 & cd' & r' & P1 & P2 & P3 & P4); [now apply calm_tail in CA|].
      exists (((match s with [] => [] | _ => [OData s] end) ++ [OEnd t]) ++ E1), E2, cd', r'. rewrite <- app_assoc, (raw_tokens' false t s en z R EN), P1, <- emit_all_app. split; [reflexivity|]. split; [exact P2|].
      replace ((match s with [] => [] | _ => [OData s] end) ++ OEnd t :: E) with (((match s with [] => [] | _ => [OData s] end) ++ [OEnd t]) ++ E) by now rewrite <- app_assoc.
      split; [now apply parted_app|]. rewrite app_assoc. eapply suff_trans; [exact P4|apply suff_app].
Qed.

(** ** All the pieces *)
Inductive cut_events : list op -> list op -> Prop :=
| ce_nil : cut_events [] []
| ce_keep : forall o h h', cut_events h h' -> cut_events (o :: h) (o :: h')
| ce_cut : forall a b h h', sharp a b -> cut_events (OData b :: h) h' -> cut_events (OData (a ++ b) :: h) (OData a :: h').
Lemma cut_keep : forall l h h', cut_events h h' -> cut_events (l ++ h) (l ++ h').
Proof. induction l as [|o l IH]; intros h h' H; [exact H|]. cbn [app]. constructor. auto. Qed.
Lemma cut_refl : forall h, cut_events h h.
Proof. induction h; constructor; auto. Qed.
Lemma cut_parted : forall E E1 E2 E', parted E E1 E2 -> cut_events E2 E' -> cut_events E (E1 ++ E').
Proof.
  intros E E1 E2 E' [->|(E0 & a & b & rest & -> & -> & -> & SH)] C; [now apply cut_keep|]. rewrite <- app_assoc. apply cut_keep. cbn [app]. now constructor.
Qed.
Definition closed (g : cfg) (he : parser * option exn) : res str :=
  match he with
  | (_, Some e) => Err e
  | (h, None) => match finalise g h with
                 | (_, Some e) => Err e
                 | (h', None) => Ok (p_out (h_p h'))
                 end
  end.
Lemma read_pieces : forall g l Q cd raw p E, ready cd (raw ++ concat l) E ->
  (forall l1 l2, l = l1 ++ l2 -> calm (Q ++ raw ++ concat l1) (concat l2)) ->
  exists E', cut_events E E' /\ closed g (feed_all g l (Parser raw cd p)) = let* s := run g (E' ++ [OClose]) p in Ok (p_out s).
Proof.
  intros g. induction l as [|x l IH]; intros Q cd raw p E R C.
  - exists E. split; [apply cut_refl|]. cbn [feed_all closed concat] in *. rewrite app_nil_r in R. apply ready_close in R. unfold finalise. cbn [h_raw h_cd h_p]. rewrite R, run_app.
    pose proof (deliver_all g raw E (TStop None []) p) as D. destruct (run g E p) as [p'|e]; cbn [bind].
    + rewrite D. cbn [deliver run step h_p]. unfold close_x. destruct (close g p') as [p2|e]; cbn [bind]; reflexivity.
    + destruct D as (h & ->). reflexivity.
  - assert (CA : calm (raw ++ x) (concat l)).
    { pose proof (C [x] l eq_refl) as H. cbn [concat] in H. rewrite app_nil_r in H. eapply calm_tail; eauto. }
    destruct (read_piece _ _ _ R (raw ++ x) (concat l)) as (E1 & E2 & cd' & r & P1 & P2 & P3 & (a & P4)); [cbn [concat]; now rewrite app_assoc|exact CA|].
    cbn [feed_all]. unfold feed. cbn [h_raw h_cd h_p]. rewrite P1. pose proof (deliver_all g (raw ++ x) E1 (TStop cd' r) p) as D. destruct (run g E1 p) as [p'|e] eqn:R1.
    + rewrite D. cbn [deliver]. destruct (IH (Q ++ a) cd' r p' E2 P2) as (E' & C' & F).
      { intros l1 l2 ->. pose proof (C (x :: l1) l2 eq_refl) as H. cbn [concat] in H. replace ((Q ++ a) ++ r ++ concat l1) with (Q ++ raw ++ x ++ concat l1); [exact H|].
        rewrite <- app_assoc. f_equal. rewrite !app_assoc. now rewrite P4. }
      exists (E1 ++ E'). split; [eapply cut_parted; eauto|]. rewrite F, <- app_assoc, (run_app g E1), R1. reflexivity.
    + destruct D as (h & ->). exists (E1 ++ E2). split; [eapply cut_parted; [exact P3|apply cut_refl]|]. cbn [closed]. rewrite <- app_assoc, (run_app g E1), R1. reflexivity.
Qed.

(** ** In terms of documents *)
Lemma sharp_seam : forall a b, sharp a b -> seam a b /\ forallb is_space (a ++ b) = false.
Proof.
  intros a b [(x & c & -> & H)|(c & x & -> & H)].
  - split; [left; unfold space_last; now rewrite rev_app_distr|]. rewrite !forallb_app. cbn [forallb]. now rewrite H, andb_false_r.
  - split; [right; cbn; exact H|]. rewrite forallb_app. cbn [forallb]. now rewrite H, andb_false_r.
Qed.
Lemma tidy_open : forall B B' h, open_after B = open_after B' -> blank_in_ol B h -> blank_in_ol B' h.
Proof.
  intros B B' h E H h1 m h2 -> K. apply (H h1 m h2 eq_refl). rewrite <- K. unfold open_after in *. rewrite !fold_left_app. now rewrite E.
Qed.
Lemma cut_resplit : forall h h', cut_events h h' -> forall B, blank_in_ol B h -> resplit B h h'.
Proof.
  intros h h' H. induction H as [|o h h' H IH|a b h h' SH H IH]; intros B T.
  - constructor.
  - constructor. apply IH. intros h1 m h2 -> K. apply (T (o :: h1) m h2); [reflexivity|]. now rewrite <- app_assoc in K.
  - destruct (sharp_seam _ _ SH) as (SM & NB). assert (NOL : hd_error (open_after B) <> Some (lit "ol")).
    { intros K. specialize (T [] (a ++ b) h eq_refl). rewrite app_nil_r in T. specialize (T K). unfold all_space in T. congruence. }
    apply rs_cut; auto. apply IH. intros h1 m h2 E K. destruct h1 as [|o h1].
    + exfalso. rewrite app_nil_r in K. contradiction.
    + injection E as <- ->. apply (T (OData (a ++ b) :: h1) m h2); [reflexivity|]. rewrite <- K. unfold open_after. rewrite !fold_left_app. reflexivity.
Qed.
Lemma counts_open : forall l E, fold_left (fun l o => open_step o l) (filter counts E) l = fold_left (fun l o => open_step o l) E l.
Proof.
  intros l E. revert l. induction E as [|o E IH]; intros l; [reflexivity|]. cbn [filter]. destruct (counts o) eqn:C; cbn [fold_left]; [apply IH|]. rewrite IH. f_equal.
  destruct o as [|t| | |]; try discriminate. cbn [counts] in C. apply negb_false_iff in C. cbn [open_step]. rewrite C. now destruct l.
Qed.
Lemma counts_tidy : forall E, blank_in_ol [] (filter counts E) -> blank_in_ol [] E.
Proof.
  intros E H h1 m h2 -> K. apply (H (filter counts h1) m (filter counts h2)); [now rewrite filter_app|]. cbn [app] in *. rewrite <- K. unfold open_after. now rewrite counts_open.
Qed.
Lemma doc_counts : forall o E, render_doc o (filter counts E) = render_doc o E.
Proof. intros o E. unfold render_doc. destruct (construct o) as [g|e]; cbn [bind]; [|reflexivity]. now rewrite !run_app, run_counts. Qed.
Lemma mark_no_close : forall M evs cd, mark M evs cd -> ~ In OClose evs.
Proof. intros M evs cd H. destruct H; cbn; intuition discriminate. Qed.
Lemma ready_no_close : forall cd s E, ready cd s E -> ~ In OClose E.
Proof.
  intros cd s E H. induction H as [|m s src E NE T AT H IH|M evs cd src E MK H IH|t s en src E R EN H IH].
  - intros [].
  - intros [K|K]; [discriminate|contradiction].
  - rewrite in_app_iff. intros [K|K]; [eapply mark_no_close; eauto|contradiction].
  - rewrite in_app_iff. intros [K|[K|K]]; [destruct s; [destruct K|destruct K as [K|[]]; discriminate]|discriminate|contradiction].
Qed.
(** The page does not depend on the pieces. *)
Lemma pieces_page : forall o doc l, o_renderers o = [] -> o_ext o = [] -> written true doc (concat l) -> calm_pieces l -> blank_in_ol [] (flat_map events doc) ->
  render_pieces o l = render_doc o (flat_map events doc).
Proof.
  intros o doc l OR OE W C T. destruct (written_ready _ _ W) as (E & EF & P). specialize (P [] [] (or_introl eq_refl) rd_nil). rewrite !app_nil_r in P.
  rewrite <- EF, doc_counts. unfold render_pieces. destruct (construct o) as [g|e] eqn:CO; cbn [bind]; [|unfold render_doc; now rewrite CO].
  destruct (read_pieces g l [] None [] pstate0 E) as (E' & CE & F); [exact P|exact C|].
  rewrite <- EF in T. apply counts_tidy in T. rewrite (resplit_whole o E E' OR OE); [|now apply cut_resplit|eapply ready_no_close; eauto].
  unfold render_doc. rewrite CO. cbn [bind]. rewrite <- F. reflexivity.
Qed.
End R.
Close Scope N_scope.
