(** The command line as a whole: the model settles it as specified. *)
From Verif Require Import BaseFacts StrFacts UrlFacts.
From Verif Require Export ArgFacts.
Open Scope N_scope.

Section A.
Context `{U : Uni}.
(** ** Negative numbers *)
Definition look (r : str) : bool := all_digits r || match partition 46%N r with (a, true, b) => forallb is_digit a && all_digits b | _ => false end.
Lemma no_point : forall a, forallb is_digit a = true -> ~ In 46 a.
Proof. intros a H I. rewrite forallb_forall in H. now apply H in I. Qed.
Lemma all_digits_is : forall r, all_digits r = true <-> r <> [] /\ forallb is_digit r = true.
Proof. intros [|c r]; cbn [all_digits]; [split; [discriminate|intros [H _]; congruence]|split; [intros H; split; [discriminate|exact H]|intros [_ H]; exact H]]. Qed.
Lemma look_is : forall r, look r = true <-> exists a b, b <> [] /\ forallb is_digit a = true /\ forallb is_digit b = true /\ (r = b \/ r = a ++ 46 :: b).
Proof.
  intros r. unfold look. rewrite orb_true_iff, all_digits_is. split.
  - intros [[A B]|H]; [exists [], r; auto|]. destruct (partition_spec 46 r) as [[_ E]|(a & b & E & _ & P)]; [rewrite E in H; discriminate|]. rewrite P in H. apply andb_prop in H as [HA HB]. apply all_digits_is in HB as [HB HC]. exists a, b. auto.
  - intros (a & b & NB & A & B & [->| ->]); [now left|]. right. rewrite partition_at by now apply no_point. rewrite A. cbn [andb]. now apply all_digits_is.
Qed.
Lemma number_end_is : forall r, (exists x, r = x ++ [10] /\ number_end r = x) \/ number_end r = r.
Proof.
  intros r. unfold number_end. destruct (rev r) as [|c l] eqn:E; [now right|]. destruct (N.eq_dec c 10) as [->|NC].
  - left. exists (rev l). split; [|reflexivity]. rewrite <- (rev_involutive r), E. reflexivity.
  - right. clear E. destruct c as [|p]; [reflexivity|]. repeat (try reflexivity; destruct p as [p|p|]; try reflexivity; try congruence).
Qed.
Lemma number_end_at : forall x, number_end (x ++ [10]) = x.
Proof. intros x. unfold number_end. rewrite rev_app_distr. cbn [rev app]. apply rev_involutive. Qed.
Lemma negative_is : forall s, negative_number s = true <-> looks_negative s.
Proof.
  intros s. split.
  - intros H. assert (E : exists r, s = 45 :: r). { destruct s as [|c r]; [discriminate|]. destruct (N.eq_dec c 45) as [->|NC]; [eauto|]. exfalso. revert H. clear -NC. unfold negative_number. destruct c as [|p]; [discriminate|]. repeat (try discriminate; destruct p as [p|p|]; try discriminate; try congruence). }
    destruct E as (r & ->). change (look r || look (number_end r) = true) in H. apply orb_prop in H as [H|H]; apply look_is in H as (a & b & NB & A & B & H).
    + exists a, b, []. rewrite app_nil_r. repeat (split; auto). destruct H as [->| ->]; auto.
    + destruct (number_end_is r) as [(x & -> & E)|E]; rewrite E in H.
      * exists a, b, [10]. repeat (split; auto). destruct H as [->| ->]; [left; reflexivity|right]. now rewrite <- app_assoc.
      * exists a, b, []. rewrite app_nil_r. repeat (split; auto). destruct H as [->| ->]; auto.
  - intros (a & b & e & HE & NB & A & B & H). assert (R : exists r, s = 45 :: r ++ e /\ look r = true).
    { destruct H as [->| ->]; [exists b|exists (a ++ 46 :: b)]; (split; [rewrite <- ?app_assoc; reflexivity|apply look_is; exists a, b; auto]). }
    destruct R as (r & -> & L). change (look (r ++ e) || look (number_end (r ++ e)) = true). destruct HE as [->| ->]; [rewrite app_nil_r, L; reflexivity|]. rewrite number_end_at, L. apply orb_true_r.
Qed.

(** ** The pieces *)
Definition mm (s : str) : str * meaning := (s, meaning_of negative_number s).
Definition fine (x : str * kind) : Prop := fst x <> lit "--" /\ match snd x with
  | KArg => agrees (fst x) None (meaning_of negative_number (fst x))
  | KDash => False
  | KOpt t => agrees (fst x) (Some t) (meaning_of negative_number (fst x))
  end.
Definition last_part (after : list str) : list (str * kind) := match after with [] => [] | s :: r => (s, KDash) :: map (fun x => (x, KArg)) r end.
Lemma classified : forall before after, ~ In (lit "--") before -> (after = [] \/ exists l, after = lit "--" :: l) ->
  match classify (before ++ after) with
  | Err _ => existsb is_ambiguous (map mm before) = true
  | Ok l => existsb is_ambiguous (map mm before) = false /\ exists pre, map fst pre = before /\ Forall fine pre /\ l = pre ++ last_part after
  end.
Proof.
  induction before as [|s before IH]; intros after NI HA.
  - cbn [app]. destruct HA as [->|(l & ->)].
    + cbn. split; [reflexivity|]. exists []. auto.
    + cbn [classify]. rewrite seqb_refl. split; [reflexivity|]. exists []. auto.
  - cbn [app classify]. destruct (seqb s (lit "--")) eqn:ES; [apply seqb_eq in ES; subst s; elim NI; now left|]. assert (NS : s <> lit "--") by (intros ->; elim NI; now left).
    pose proof (one_argument s NS) as OA. specialize (IH after ltac:(intros I0; apply NI; now right) HA). cbn [map existsb]. unfold is_ambiguous at 1 3. cbn [mm snd].
    destruct (parse_optional s) as [o|e]; cbn [bind]; [|rewrite OA; reflexivity].
    assert (OM : match meaning_of negative_number s with Ambiguous => true | _ => false end = false) by (destruct o as [t|]; cbn in OA; [destruct OA as (l & -> & _)|rewrite OA]; reflexivity).
    destruct (classify (before ++ after)) as [l|e]; cbn [bind]; [|rewrite IH; apply orb_true_r]. destruct IH as [IA (pre & EM & F & ->)]. rewrite IA, OM. split; [reflexivity|].
    exists ((s, match o with Some t => KOpt t | None => KArg end) :: pre). split; [cbn; now rewrite EM|]. split; [|reflexivity]. constructor; [|exact F]. split; [exact NS|]. cbn [fst snd]. destruct o; exact OA.
Qed.
Definition ka (s : str) : str * kind := (s, KArg).
Inductive runs : list (str * kind) -> Prop :=
  | runs_nil : runs []
  | runs_more : forall w s t l, runs l -> runs (map ka w ++ (s, KOpt t) :: l).
Lemma in_runs : forall pre, Forall fine pre -> exists l w, pre = l ++ map ka w /\ runs l.
Proof.
  induction pre as [|[s k] pre IH]; intros F; [exists [], []; split; [reflexivity|constructor]|]. inversion F as [|? ? [_ G] F']; subst. destruct (IH F') as (l & w & -> & R).
  destruct k as [| |t]; [|contradiction G|].
  - destruct R as [|w0 s0 t0 l R].
    + exists [], (s :: w). split; [reflexivity|constructor].
    + exists (map ka (s :: w0) ++ (s0, KOpt t0) :: l), w. split; [reflexivity|now constructor].
  - exists ((s, KOpt t) :: l), w. split; [reflexivity|]. now apply (runs_more [] s t l).
Qed.
Definition marks (l : list (str * kind)) : list mark := flat_map (fun x => marks_of (snd x)) (map mm (map fst l)).
Definition spoken (l : list (str * kind)) : list str := words (map mm (map fst l)).
Definition finish (l : list (str * kind)) (st : astate) : start :=
  let '(st1, r) := positionals l st in
  match as_extras st1 ++ map fst r, as_values st1 with
  | [], [s; d] => Given s d (as_dump st1)
  | _, _ => UsageError
  end.
Lemma no_options : forall f l st, existsb is_opt l = false -> consume (S f) l st = finish l st.
Proof. intros f l st E. cbn [consume]. rewrite E. reflexivity. Qed.
Lemma taken : forall acts st tail, match take_actions acts st with
  | None => first_end (map mark_act acts ++ tail) = Some HelpShown
  | Some st' => st' = AState (as_values st) (as_dump st || existsb is_dump (map mark_act acts)) (as_extras st)
      /\ first_end (map mark_act acts ++ tail) = first_end tail /\ existsb is_unknown (map mark_act acts) = false
  end.
Proof.
  induction acts as [|a acts IH]; intros st tail; cbn [take_actions map app existsb].
  - rewrite orb_false_r. destruct st; auto.
  - destruct a; cbn [mark_act first_end is_dump is_unknown]; [reflexivity|]. specialize (IH (AState (as_values st) true (as_extras st)) tail). destruct (take_actions acts _); [|exact IH]. cbn [as_values as_dump as_extras] in IH. destruct IH as (-> & IH). cbn [orb]. rewrite orb_true_r. auto.
Qed.
Lemma word_value : forall w, w <> lit "--" -> get_value [w] = Some w.
Proof. intros w NW. unfold get_value. cbn [remove_first]. rewrite (proj2 (seqb_neq w _) NW). reflexivity. Qed.
Lemma no_dashes : forall w s t l, dashes (map ka w ++ (s, KOpt t) :: l) = ([], map ka w ++ (s, KOpt t) :: l).
Proof. intros [|a w] s t l; reflexivity. Qed.
Lemma take_words : forall w s t l st, Forall (fun x => x <> lit "--") w -> (length (as_values st) <= 2)%nat ->
  positionals (map ka w ++ (s, KOpt t) :: l) st
  = (AState (as_values st ++ map Some (firstn (2 - length (as_values st)) w)) (as_dump st) (as_extras st), map ka (skipn (2 - length (as_values st)) w) ++ (s, KOpt t) :: l).
Proof.
  intros w s t l [v d e] F L. cbn [as_values as_dump as_extras] in *. unfold positionals. cbn [as_values as_dump as_extras].
  destruct v as [|v1 [|v2 [|v3 v]]]; [| | |cbn in L; lia]; cbn [length Nat.sub]; (destruct w as [|a w]; [|inversion F as [|? ? Na F1]; subst; destruct w as [|b w]; [|inversion F1 as [|? ? Nb F2]; subst]]);
  cbn [map app match_partial groups group dashes ka firstn skipn]; rewrite ?no_dashes; cbn [map app]; rewrite ?word_value by assumption; rewrite ?app_nil_r; reflexivity.
Qed.
Lemma spoken_cons : forall s k l, spoken ((s, k) :: l) = if is_word_arg (meaning_of negative_number s) then s :: spoken l else spoken l.
Proof. intros s k l. unfold spoken, words. cbn [map filter fst snd mm]. destruct (is_word_arg (meaning_of negative_number s)); reflexivity. Qed.
Lemma marks_cons : forall s k l, marks ((s, k) :: l) = marks_of (meaning_of negative_number s) ++ marks l.
Proof. reflexivity. Qed.
Lemma spoken_words : forall w rest, Forall fine (map ka w) -> spoken (map ka w ++ rest) = w ++ spoken rest /\ marks (map ka w ++ rest) = marks rest /\ Forall (fun x => x <> lit "--") w.
Proof.
  induction w as [|a w IH]; intros rest F; [auto|]. inversion F as [|? ? [NA G] F']; subst. destruct (IH rest F') as (A & B & C). cbn [ka fst snd agrees] in *. change (map ka (a :: w) ++ rest) with ((a, KArg) :: (map ka w ++ rest)). rewrite spoken_cons, marks_cons, G. cbn [is_word_arg marks_of app]. rewrite A, B. auto.
Qed.
Lemma spoken_option : forall s t l, fine (s, KOpt t) -> spoken ((s, KOpt t) :: l) = spoken l /\ exists ms, marks ((s, KOpt t) :: l) = ms ++ marks l /\
   match optional s t with
      | Err _ => ms = [MRefused]
      | Ok (acts, extra) => ms = map mark_act acts ++ match extra with [] => [] | _ => [MUnknown] end
      end.
Proof.
  intros s t l [_ (ms & E & H)]. cbn [fst snd] in *. rewrite spoken_cons, marks_cons, E. cbn [is_word_arg marks_of]. split; [reflexivity|]. exists ms. auto.
Qed.
(** ** Up to the last option *)
Definition up_to (l rest : list (str * kind)) (st : astate) (r : start) : Prop :=
  match first_end (marks l) with
  | Some e => r = e
  | None => exists ex, r = finish rest (AState (as_values st ++ map Some (firstn (2 - length (as_values st)) (spoken l))) (as_dump st || existsb is_dump (marks l)) ex)
      /\ (ex = [] <-> as_extras st = [] /\ existsb is_unknown (marks l) = false /\ (length (spoken l) <= 2 - length (as_values st))%nat)
  end.
Definition take (f : nat) (l : list (str * kind)) (st : astate) : start :=
  match l with
  | (s, KOpt t) :: r =>
      match optional s t with
      | Err _ => UsageError
      | Ok (acts, extra) => match take_actions acts (add_extras extra st) with None => HelpShown | Some st' => consume f r st' end
      end
  | _ => UsageError
  end.
Lemma consume_step : forall f l st, existsb is_opt l = true -> consume (S f) l st = match l with
        | (_, KOpt _) :: _ => take f l st
        | _ => let '(st1, r) := positionals l st in
               if (length r <? length l)%nat then consume f r st1
               else let '(strings, r') := until_option l in take f r' (add_extras strings st1)
        end.
Proof. intros f l st E. cbn [consume]. rewrite E. reflexivity. Qed.
Lemma until_words : forall w s t l, until_option (map ka w ++ (s, KOpt t) :: l) = (w, (s, KOpt t) :: l).
Proof. induction w as [|a w IH]; intros s t l; [reflexivity|]. cbn [map app until_option]. change (is_opt (ka a)) with false. rewrite IH. reflexivity. Qed.
Lemma app_nil : forall (A : Type) (a b : list A), a ++ b = [] <-> a = [] /\ b = [].
Proof. intros A [|x a] b; cbn; split; [auto|intros [_ H]; exact H|discriminate|intros [H _]; discriminate]. Qed.
Lemma first_end_app : forall a b, first_end (a ++ b) = match first_end a with Some r => Some r | None => first_end b end.
Proof. induction a as [|x a IH]; intros b; [reflexivity|]. destruct x; cbn [app first_end]; auto. Qed.
Lemma up_option : forall s t l rest f st,
  (forall st', (length (as_values st') <= 2)%nat -> up_to l rest st' (consume f (l ++ rest) st')) -> fine (s, KOpt t) -> (length (as_values st) <= 2)%nat ->
  up_to ((s, KOpt t) :: l) rest st (take f ((s, KOpt t) :: l ++ rest) st).
Proof.
  intros s t l rest f st IH F L. destruct (spoken_option s t l F) as (ES & ms & EM & H). unfold up_to. rewrite EM, ES. cbn [take]. destruct (optional s t) as [[acts extra]|e].
  2:{ subst ms. reflexivity. }
  subst ms. rewrite <- app_assoc. pose proof (taken acts (add_extras extra st) (match extra with [] => [] | _ => [MUnknown] end ++ marks l)) as T.
  destruct (take_actions acts (add_extras extra st)) as [st'|]; [|rewrite T; reflexivity]. destruct T as (-> & T & NU). rewrite T. cbn [add_extras as_values as_dump as_extras].
  assert (FE : first_end (match extra with [] => [] | _ => [MUnknown] end ++ marks l) = first_end (marks l)) by (destruct extra; reflexivity). rewrite FE.
  specialize (IH (AState (as_values st) (as_dump st || existsb is_dump (map mark_act acts)) (as_extras st ++ extra)) L). unfold up_to in IH. cbn [as_values as_dump as_extras] in IH.
  destruct (first_end (marks l)); [exact IH|]. destruct IH as (ex & -> & HX). exists ex. split.
  - f_equal. f_equal. rewrite existsb_app, orb_assoc. f_equal. rewrite existsb_app. destruct extra; reflexivity.
  - rewrite HX, app_nil, !existsb_app, NU. cbn [orb]. destruct extra as [|x extra]; cbn [existsb is_unknown orb]; [tauto|]. split; [intros ((_ & H) & _); discriminate|intros (_ & H & _); discriminate].
Qed.
Lemma up_runs : forall l, runs l -> Forall fine l -> forall rest, existsb is_opt rest = false -> forall f st, (length (l ++ rest) < f)%nat -> (length (as_values st) <= 2)%nat -> up_to l rest st (consume f (l ++ rest) st).
Proof.
  intros l R. induction R as [|w s t l R IH]; intros F rest NR f st LF LV.
  - destruct f as [|f]; [cbn in LF; lia|]. cbn [app]. rewrite no_options by exact NR. unfold up_to. cbn [marks spoken map flat_map words filter first_end existsb]. exists (as_extras st). split.
    + rewrite firstn_nil, app_nil_r, orb_false_r. destruct st; reflexivity.
    + cbn [length]. split; [intros ->; repeat split; lia|tauto].
  - apply Forall_app in F as [FW F]. inversion F as [|? ? FS F']; subst. specialize (IH F' rest NR).
    assert (EO : forall w0 : list str, existsb is_opt ((map ka w0 ++ (s, KOpt t) :: l) ++ rest) = true) by (intros w0; rewrite !existsb_app; cbn [existsb]; unfold is_opt at 2; cbn [snd orb]; rewrite orb_true_r; reflexivity).
    assert (STEP : forall f st, (length (l ++ rest) < f)%nat -> (length (as_values st) <= 2)%nat -> up_to ((s, KOpt t) :: l) rest st (consume (S f) ((s, KOpt t) :: l ++ rest) st)).
    { intros f0 st0 L0 V0. rewrite consume_step by exact (EO []). apply up_option; [|exact FS|exact V0]. intros st' V'. now apply IH. }
    destruct (spoken_words w ((s, KOpt t) :: l) FW) as (ES & EM & NW).
    rewrite <- app_assoc in *. cbn [app] in *. rewrite app_length, map_length in LF. cbn [length] in LF.
    destruct w as [|a w]; [destruct f as [|f]; [lia|]; apply STEP; [lia|exact LV]|]. destruct f as [|f]; [lia|]. cbn [length] in LF.
    assert (NOK : forall w0 (X : list (str * kind)) st0 g, Forall (fun x => x <> lit "--") w0 -> (length (l ++ rest) < g)%nat -> length (as_values st0) = 2%nat -> w0 <> [] ->
        up_to ((s, KOpt t) :: l) rest (add_extras w0 st0) (consume (S g) (map ka w0 ++ (s, KOpt t) :: l ++ rest) st0)).
    { intros w0 _ st0 g N0 LG V0 NE. rewrite consume_step by (specialize (EO w0); rewrite <- app_assoc in EO; exact EO). rewrite take_words by (try assumption; lia). rewrite V0. cbn [Nat.sub firstn skipn map]. rewrite app_nil_r, Nat.ltb_irrefl, until_words.
      destruct w0 as [|a0 w0]; [congruence|]. cbn [map app ka]. change (AState (as_values st0) (as_dump st0) (as_extras st0)) with (AState (as_values st0) (as_dump st0) (as_extras st0)).
      apply up_option; [|exact FS|cbn; lia]. intros st' V'. now apply IH. }
    (* with room for words or without *)
    destruct (Nat.eq_dec (length (as_values st)) 2) as [V2|V2].
    + specialize (NOK (a :: w) [] st f NW ltac:(lia) V2 ltac:(discriminate)). unfold up_to in *. rewrite EM, ES. destruct (first_end (marks ((s, KOpt t) :: l))); [exact NOK|]. destruct NOK as (ex & -> & HX). exists ex. cbn [add_extras as_values as_dump as_extras] in *. rewrite V2 in *. cbn [Nat.sub firstn] in *. split; [reflexivity|]. rewrite HX, app_nil. split; [intros ((_ & H) & _); discriminate|]. intros (_ & _ & H). cbn in H. lia.
    + rewrite consume_step by (specialize (EO (a :: w)); rewrite <- app_assoc in EO; exact EO). change (map ka (a :: w) ++ (s, KOpt t) :: l ++ rest) with (ka a :: (map ka w ++ (s, KOpt t) :: l ++ rest)). cbv iota beta.
      change (ka a :: (map ka w ++ (s, KOpt t) :: l ++ rest)) with (map ka (a :: w) ++ (s, KOpt t) :: l ++ rest). cbn [ka]. rewrite take_words by assumption.
      set (k := (2 - length (as_values st))%nat) in *. assert (K : (0 < k)%nat) by (unfold k; lia).
      assert (LT : (length (map ka (skipn k (a :: w)) ++ (s, KOpt t) :: l ++ rest) <? length (map ka (a :: w) ++ (s, KOpt t) :: l ++ rest))%nat = true) by (apply Nat.ltb_lt; rewrite !app_length, !map_length, skipn_length; cbn [length]; lia).
      rewrite LT. set (st1 := AState (as_values st ++ map Some (firstn k (a :: w))) (as_dump st) (as_extras st)).
      assert (L1 : (length (as_values st1) = length (as_values st) + min k (length (a :: w)))%nat) by (cbn [st1 as_values]; now rewrite app_length, map_length, firstn_length).
      destruct f as [|f]; [cbn [length] in LF; lia|]. destruct (skipn k (a :: w)) as [|b w'] eqn:EK.
      * change (map ka [] ++ (s, KOpt t) :: l ++ rest) with ((s, KOpt t) :: l ++ rest). assert (LK : (length (a :: w) <= k)%nat) by (rewrite <- (firstn_skipn k (a :: w)), EK, app_nil_r; apply firstn_le_length).
        assert (ST := STEP f st1 ltac:(lia) ltac:(unfold k in *; lia)). unfold up_to in *. rewrite EM, ES. destruct (first_end (marks ((s, KOpt t) :: l))); [exact ST|]. destruct ST as (ex & -> & HX). exists ex. rewrite L1 in HX. cbn [st1 as_values as_dump as_extras] in *. split.
        -- f_equal. f_equal. rewrite (firstn_all2 (a :: w) LK). rewrite (firstn_app k), (firstn_all2 (a :: w) LK). rewrite map_app, app_assoc. f_equal. f_equal. f_equal. rewrite app_length, map_length. unfold k. lia.
        -- rewrite HX. rewrite app_length. unfold k in *. cbn [length] in *. split; intros (A & B & C); repeat split; auto; lia.
      * assert (LK : (k < length (a :: w))%nat). { destruct (Nat.lt_ge_cases k (length (a :: w))); [assumption|]. rewrite skipn_all2 in EK by assumption. discriminate. }
        assert (NW' : Forall (fun x => x <> lit "--") (b :: w')). { rewrite <- EK. rewrite <- (firstn_skipn k (a :: w)) in NW. now apply Forall_app in NW as [_ NW]. }
        specialize (NOK (b :: w') [] st1 f NW' ltac:(lia) ltac:(unfold k in *; lia) ltac:(discriminate)). unfold up_to in *. rewrite EM, ES. destruct (first_end (marks ((s, KOpt t) :: l))); [exact NOK|]. destruct NOK as (ex & -> & HX). exists ex. cbn [add_extras as_values as_dump as_extras] in *.
        assert (Z2 : (2 - length (as_values st1) = 0)%nat) by (unfold k in *; lia). rewrite Z2 in *. cbn [firstn map]. rewrite app_nil_r. split.
        -- f_equal. f_equal. cbn [st1 as_values]. rewrite (firstn_app k). replace (k - length (a :: w))%nat with 0%nat by lia. cbn [firstn]. now rewrite app_nil_r.
        -- rewrite HX, app_nil. cbn [st1 as_extras]. split; [intros ((_ & H) & _); discriminate|]. intros (_ & _ & H). rewrite app_length in H. unfold k in *. lia.
Qed.
(** ** From the last option on *)
Lemma any_value : forall u, get_value [u] = if seqb u (lit "--") then None else Some u.
Proof. intros u. unfold get_value. cbn [remove_first]. destruct (seqb u (lit "--")); reflexivity. Qed.
Lemma first_value : forall u, get_value [lit "--"; u] = Some u.
Proof. intros u. unfold get_value. cbn [remove_first]. rewrite seqb_refl. reflexivity. Qed.
Lemma last_value : forall w, w <> lit "--" -> get_value [w; lit "--"] = Some w.
Proof. intros w NW. unfold get_value. cbn [remove_first]. rewrite (proj2 (seqb_neq w _) NW), seqb_refl. reflexivity. Qed.
Definition ended_so (vs w : list str) (after : list str) (d : bool) : start :=
  let last := match w, vs with [], _ :: _ => true | _, _ => false end in
  match vs ++ w ++ tl after with
  | [a; b] => match after, last with
              | [_], true => UsageError
              | _, _ => Given (Some a) (if seqb b (lit "--") && negb last then None else Some b) d
              end
  | _ => UsageError
  end.
Lemma finished : forall vs w after d ex, (length vs <= 2)%nat -> Forall (fun x => x <> lit "--") vs -> Forall (fun x => x <> lit "--") w -> (after = [] \/ exists l, after = lit "--" :: l) ->
  finish (map ka w ++ last_part after) (AState (map Some vs) d ex) = match ex with [] => ended_so vs w after d | _ => UsageError end.
Proof.
  intros vs w after d ex LV FV FW HA. unfold finish, positionals. cbn [as_values as_dump as_extras]. rewrite map_length. destruct ex as [|x ex].
  2:{ destruct (match_partial _ _) as [gs r]. reflexivity. }
  assert (NV : forall a, In a vs -> seqb a (lit "--") = false) by (intros a I0; apply seqb_neq; rewrite Forall_forall in FV; now apply FV).
  assert (NW : forall a, In a w -> seqb a (lit "--") = false) by (intros a I0; apply seqb_neq; rewrite Forall_forall in FW; now apply FW).
  unfold ended_so.
  destruct vs as [|v1 [|v2 [|v3 vs]]]; [| | |cbn in LV; lia];
  (destruct w as [|a [|b [|c w]]]);
  (destruct HA as [->|(us & ->)]; [|destruct us as [|u1 [|u2 [|u3 us]]]]);
  cbn [length Nat.sub map app last_part ka match_partial groups group dashes tl fst as_values as_extras as_dump andb negb]; try reflexivity;
  rewrite ?first_value, ?last_value, ?word_value by (inversion FW as [|? ? X1 Y1]; inversion Y1; assumption); rewrite ?any_value;
  cbn [length Nat.sub map app]; rewrite ?(NV v2), ?(NW a), ?(NW b) by (cbn [In]; auto); cbn [andb]; rewrite ?andb_true_r, ?andb_false_r; try reflexivity.
Qed.
(** ** The whole *)
Lemma spoken_app : forall a b, spoken (a ++ b) = spoken a ++ spoken b.
Proof. induction a as [|[s k] a IH]; intros b; [reflexivity|]. change (((s, k) :: a) ++ b) with ((s, k) :: (a ++ b)). rewrite !spoken_cons, IH. destruct (is_word_arg _); reflexivity. Qed.
Lemma marks_app : forall a b, marks (a ++ b) = marks a ++ marks b.
Proof. intros a b. unfold marks. rewrite !map_app. apply flat_map_app. Qed.
Lemma spoken_fine : forall l, Forall fine l -> Forall (fun x => x <> lit "--") (spoken l).
Proof. induction l as [|[s k] l IH]; intros F; [constructor|]. inversion F as [|? ? [NS _] F']; subst. rewrite spoken_cons. destruct (is_word_arg _); [constructor; auto|auto]. Qed.
Lemma ends_runs : forall l, runs l -> Forall fine l -> l <> [] -> exists l' s t, l = l' ++ [(s, KOpt t)] /\ fine (s, KOpt t).
Proof.
  intros l R. induction R as [|w s t l R IH]; intros F NE; [congruence|]. apply Forall_app in F as [_ F]. inversion F as [|? ? FS F']; subst. destruct l as [|x l].
  - exists (map ka w), s, t. auto.
  - destruct (IH F' ltac:(discriminate)) as (l' & s' & t' & E & FT). exists (map ka w ++ (s, KOpt t) :: l'), s', t'. split; [|exact FT]. rewrite E, <- app_assoc. reflexivity.
Qed.
Lemma ends_is : forall l w, runs l -> Forall fine l -> Forall fine (map ka w) ->
  ends_in_option (map mm (map fst (l ++ map ka w))) = match w, l with [], _ :: _ => true | _, _ => false end.
Proof.
  intros l w R F FW. unfold ends_in_option. destruct w as [|a w].
  - rewrite app_nil_r. destruct l as [|x l]; [reflexivity|]. destruct (ends_runs _ R F ltac:(discriminate)) as (l' & s & t & E & [_ (ms & EM & _)]). rewrite E, !map_app, rev_app_distr. cbn [map rev app fst mm]. cbn [fst] in EM. unfold mm. rewrite EM. reflexivity.
  - assert (EL : exists w' b, a :: w = w' ++ [b]) by (exists (removelast (a :: w)), (last (a :: w) []); apply app_removelast_last; discriminate). destruct EL as (w' & b & EL). rewrite EL in *. rewrite !map_app, !rev_app_distr. cbn [map rev app fst mm ka].
    rewrite map_app in FW. apply Forall_app in FW as [_ FW]. inversion FW as [|? ? [_ G] _]; subst. cbn [fst snd ka agrees] in G. unfold mm. rewrite G. reflexivity.
Qed.
Lemma settled : forall before after, ~ In (lit "--") before -> (after = [] \/ exists l, after = lit "--" :: l) ->
  parse_args (before ++ after) = settle (map mm before) after.
Proof.
  intros before after NI HA. unfold parse_args. pose proof (classified before after NI HA) as C. destruct (classify (before ++ after)) as [k|e]; [|unfold settle; rewrite C; reflexivity].
  destruct C as [NA (pre & <- & F & ->)]. unfold settle. rewrite NA. destruct (in_runs pre F) as (l & w & -> & R). apply Forall_app in F as [FL FW].
  assert (NR : existsb is_opt (map ka w ++ last_part after) = false).
  { rewrite existsb_app. assert (Z : forall x, existsb is_opt (map ka x) = false) by (induction x; auto). rewrite Z. destruct after as [|s r]; [reflexivity|]. cbn [last_part existsb]. apply Z. }
  rewrite <- app_assoc. pose proof (up_runs l R FL _ NR (S (length (l ++ map ka w ++ last_part after))) (AState [] false []) (Nat.lt_succ_diag_r _) (Nat.le_0_l _)) as UP. unfold up_to in UP. cbn [as_values as_dump as_extras length Nat.sub app orb] in UP.
  destruct (spoken_words w [] FW) as (SW & MW & NW). rewrite !app_nil_r in SW, MW.
  fold (marks (l ++ map ka w)). fold (spoken (l ++ map ka w)).
  assert (EM : marks (l ++ map ka w) = marks l) by (rewrite marks_app, MW; apply app_nil_r).
  rewrite EM, spoken_app, SW. cbn [spoken map words filter] in *. change (words (map mm (map fst (@nil (str * kind))))) with (@nil str). rewrite ?app_nil_r.
  destruct (first_end (marks l)) as [e|]; [exact UP|]. destruct UP as (ex & -> & HX). rewrite finished; [|rewrite firstn_length; lia| |exact NW|exact HA].
  2:{ pose proof (spoken_fine l FL) as SF. rewrite <- (firstn_skipn 2 (spoken l)) in SF. now apply Forall_app in SF as [SF _]. }
  rewrite (ends_is l w R FL FW).
  destruct ex as [|x ex].
  - destruct HX as [HX _]. destruct (HX eq_refl) as (_ & -> & LS). rewrite firstn_all2 by exact LS. unfold ended_so. rewrite <- app_assoc.
    destruct (spoken l) as [|v vs] eqn:ES.
    + cbn [app]. destruct (w ++ tl after) as [|a [|b [|c q]]] eqn:EQ; try reflexivity. destruct w as [|w0 w].
      * cbn [app length Nat.eqb negb]. rewrite !andb_false_r. destruct after as [|a0 [|a1 af]]; try discriminate EQ. destruct l; reflexivity.
      * cbn [andb negb]. destruct after as [|? [|? ?]]; reflexivity.
    + destruct l as [|y l]; [discriminate ES|]. destruct w as [|w0 w]; cbn [app length Nat.eqb andb negb].
      * reflexivity.
      * reflexivity.
  - assert (NX : ~ (existsb is_unknown (marks l) = false /\ (length (spoken l) <= 2)%nat)) by (intros [A B]; assert (x :: ex = []) by (apply HX; auto); discriminate).
    destruct (existsb is_unknown (marks l)); [reflexivity|]. destruct (spoken l) as [|a [|b [|c q]]]; cbn [length] in NX; try (exfalso; apply NX; split; [reflexivity|lia]). reflexivity.
Qed.
End A.
Close Scope N_scope.
