(** C92: what the command line tool makes of its arguments. *)
From Verif Require Import BaseFacts StrFacts ArgMain.
From Verif Require Export Args ArgSpec.
From Verif Require Import Fixture.
Open Scope N_scope.

Lemma split_of : forall argv, exists before after, argv = before ++ after /\ ~ In (lit "--") before /\ (after = [] \/ exists l, after = lit "--" :: l).
Proof.
  induction argv as [|s argv (b & a & -> & NI & HA)]; [exists [], []; auto|]. destruct (seqb_spec s (lit "--")) as [->|NS].
  - exists [], (lit "--" :: b ++ a). split; [reflexivity|]. split; [auto|right; eauto].
  - exists (s :: b), a. split; [reflexivity|]. split; [|exact HA]. intros [E|I0]; [now apply NS|contradiction].
Qed.
(** The arguments have exactly one outcome, the specified one. *)
Theorem C92_told : forall `{U : Uni} argv r, told negative_number argv r <-> parse_args argv = r.
Proof.
  intros U argv r. split.
  - intros (before & after & -> & NI & HA & ->). now apply settled.
  - intros <-. destruct (split_of argv) as (before & after & -> & NI & HA). exists before, after. split; [reflexivity|]. split; [exact NI|]. split; [exact HA|]. now apply settled.
Qed.
(** Which arguments are taken for negative numbers, and so for words. *)
Theorem C92_negative : forall `{U : Uni} s, negative_number s = true <-> looks_negative s.
Proof. intros U. exact negative_is. Qed.

Lemma flat_nil : forall (A : Type) (p : A -> bool) (l : list A), existsb p l = false -> Forall (fun x => p x = false) l.
Proof. intros A p l. induction l as [|x l IH]; cbn [existsb]; [constructor|]. destruct (p x) eqn:E; cbn [orb]; [discriminate|]. constructor; auto. Qed.
Lemma no_end : forall l, first_end l = None -> existsb is_unknown l = false -> Forall (fun m => m = MDump) l.
Proof. induction l as [|[| | |] l IH]; cbn [first_end existsb is_unknown orb]; intros A B; try discriminate; constructor; auto. Qed.
Lemma no_marks : forall (l : list (str * meaning)) (P : mark -> Prop), Forall P (flat_map (fun x => marks_of (snd x)) l) -> forall x, In x l -> Forall P (marks_of (snd x)).
Proof. intros l P H x I0. rewrite Forall_forall in *. intros m M. apply H. apply in_flat_map. eauto. Qed.
(** The tool runs only on two words and the flag: [before] are the arguments before
    a first -- and [after] the others. *)
Theorem C92_only : forall `{U : Uni} argv s d dump, parse_args argv = Given s d dump ->
  exists before after a b, argv = before ++ after /\ ~ In (lit "--") before /\ (after = [] \/ exists l, after = lit "--" :: l)
    /\ words (map (fun x => (x, meaning_of negative_number x)) before) ++ tl after = [a; b]
    /\ s = Some a /\ (d = Some b \/ b = lit "--" /\ d = None)
    /\ (forall x, In x before -> meaning_of negative_number x = Word \/ exists n, meaning_of negative_number x = Marks (repeat MDump n))
    /\ (dump = true <-> exists x n, In x before /\ meaning_of negative_number x = Marks (repeat MDump (S n))).
Proof.
  intros U argv s d dump E. apply C92_told in E as (before & after & -> & NI & HA & E). exists before, after. unfold settle in E. set (ms := map (fun x => (x, meaning_of negative_number x)) before) in *.
  destruct (existsb is_ambiguous ms) eqn:EA; [discriminate|]. destruct (first_end (flat_map (fun x => marks_of (snd x)) ms)) as [r|] eqn:EF.
  { exfalso. subst r. revert EF. generalize (flat_map (fun x => marks_of (snd x)) ms). clear. induction l as [|[| | |] l IH]; cbn [first_end]; intros; try discriminate; auto. }
  destruct (existsb is_unknown (flat_map (fun x => marks_of (snd x)) ms)) eqn:EU; [discriminate|]. destruct (words ms ++ tl after) as [|a [|b [|c q]]] eqn:EW; try discriminate. exists a, b.
  pose proof (no_end _ EF EU) as ND. assert (RD : forall l, Forall (fun m => m = MDump) l -> l = repeat MDump (length l)) by (induction l as [|m l IH]; intros F; [reflexivity|]; inversion F; subst; cbn [length repeat]; f_equal; auto).
  assert (GIV : s = Some a /\ (d = Some b \/ b = lit "--" /\ d = None) /\ dump = existsb is_dump (flat_map (fun x => marks_of (snd x)) ms)).
  { destruct after as [|x0 [|x1 after]]; [| destruct (ends_in_option ms); [discriminate|] |]; injection E as -> -> ->; (split; [reflexivity|]); (split; [|reflexivity]);
    (destruct (seqb_spec b (lit "--")) as [->|]; [|left; reflexivity]); cbn [andb]; try match goal with |- context [if ?q then _ else _] => destruct q end; auto. }
  destruct GIV as (-> & GD & ->). repeat (split; [assumption || reflexivity|]). assert (EACH : forall x, In x before -> meaning_of negative_number x = Word \/ exists n, meaning_of negative_number x = Marks (repeat MDump n)).
  { intros x I0. assert (IM : In (x, meaning_of negative_number x) ms) by (unfold ms; apply in_map_iff; eauto). pose proof (no_marks _ _ ND _ IM) as FM. cbn [snd] in FM. apply flat_nil in EA. rewrite Forall_forall in EA. specialize (EA _ IM). unfold is_ambiguous in EA. cbn [snd] in EA. destruct (meaning_of negative_number x); [auto|discriminate|]. right. exists (length l). f_equal. now apply RD. }
  split; [exact EACH|]. rewrite existsb_exists. split.
  - intros (m & IM & _). apply in_flat_map in IM as (y & IY & IM). unfold ms in IY. apply in_map_iff in IY as (x & <- & IX). cbn [snd] in IM. destruct (EACH x IX) as [EW0|(n & EN)]; [rewrite EW0 in IM; destruct IM|]. rewrite EN in IM. cbn [marks_of] in IM. destruct n as [|n]; [destruct IM|]. exists x, n. auto.
  - intros (x & n & IX & EN). exists MDump. split; [|reflexivity]. apply in_flat_map. exists (x, meaning_of negative_number x). split; [unfold ms; apply in_map_iff; eauto|]. cbn [snd]. rewrite EN. now left.
Qed.
(** The whole tool: help and mistakes end it, with status 0 and 2, before any file is
    read; otherwise [main] is run on the source and the flag, and the destination
    makes no difference. *)
Theorem C92_command : forall `{U : Uni} convert files argv r, told negative_number argv r ->
  match r with
  | HelpShown => command convert files argv = Exits 0
  | UsageError => command convert files argv = Exits 2
  | Given s _ dump => exists source, s = Some source /\ forall destination,
      command convert files argv = Runs (fst (main convert source destination dump (files source))) (snd (main convert source destination dump (files source)))
  end.
Proof.
  intros U convert files argv r T. apply C92_told in T. unfold command. rewrite T. destruct r as [s d dump| |]; [|reflexivity|reflexivity]. apply C92_only in T as (_ & _ & a & _ & _ & _ & _ & _ & -> & _). exists a. split; [reflexivity|]. intros destination.
  change (main convert a destination dump (files a)) with (main convert a (match d with Some x => x | None => [] end) dump (files a)). destruct (main convert a _ dump (files a)) as [l e]. reflexivity.
Qed.
(** What a run does: it reads the first of the two words and then only prints.  It ends
    with an exception or after printing at least the page. *)
Theorem C92_effects : forall `{U : Uni} convert files argv l e, command convert files argv = Runs l e ->
  exists source texts, l = ERead source :: map EPrint texts /\ In source argv /\ (e = None -> texts <> []).
Proof.
  intros U convert files argv l e H. destruct (parse_args argv) as [s d dump| |] eqn:T; [|unfold command in H; rewrite T in H; discriminate H|unfold command in H; rewrite T in H; discriminate H].
  assert (TT := T). apply C92_told in TT. apply (C92_command convert files) in TT as (a & -> & E). rewrite (E []) in H. injection H as <- <-.
  apply C92_only in T as (before & after & a' & b & -> & _ & _ & EW & EA & _). injection EA as <-. exists a.
  assert (IA : In a (before ++ after)).
  { assert (I0 : In a (words (map (fun x => (x, meaning_of negative_number x)) before) ++ tl after)) by (rewrite EW; now left). apply in_app_or in I0 as [I0|I0]; apply in_or_app; [left|right].
    - unfold words in I0. apply in_map_iff in I0 as ([x m] & <- & I0). apply filter_In in I0 as [I0 _]. apply in_map_iff in I0 as (y & EY & I0). injection EY as <- _. exact I0.
    - destruct after; [destruct I0|now right]. }
  unfold main. cbv zeta. set (html := if seqb (path_suffix a) (lit ".md") then _ else _). set (w := text_says _ _).
  destruct (render_text cli_options html) as [page|x]; cbn [fst snd].
  - exists ((if dump then [html] else []) ++ w ++ [page]). split; [|split; [exact IA|]].
    + rewrite !map_app. destruct dump; cbn [app map]; rewrite <- ?app_assoc; reflexivity.
    + intros _ N0. apply app_eq_nil in N0 as [_ N0]. apply app_eq_nil in N0 as [_ N0]. discriminate.
  - exists ((if dump then [html] else []) ++ w). split; [|split; [exact IA|discriminate]]. rewrite !map_app. destruct dump; reflexivity.
Qed.
(** ** Cases *)
Definition plain (s : str) : Prop := forall r, s <> 45 :: r.
Lemma plain_word : forall `{U : Uni} s, plain s -> meaning_of negative_number s = Word /\ s <> lit "--".
Proof. intros U s P. split; [|intros ->; exact (P [45] eq_refl)]. destruct s as [|c r]; [reflexivity|]. apply other_first. intros ->. now apply (P r). Qed.
(** Arguments without a hyphen in front: two are needed. *)
Theorem C92_plain : forall `{U : Uni} argv, Forall plain argv -> parse_args argv = match argv with [a; b] => Given (Some a) (Some b) false | _ => UsageError end.
Proof.
  intros U argv F. assert (NI : ~ In (lit "--") argv) by (intros I0; rewrite Forall_forall in F; apply F in I0; exact (I0 [45] eq_refl)).
  rewrite <- (app_nil_r argv) at 1. rewrite settled; [|exact NI|now left]. assert (E : forall l, Forall plain l -> words (map mm l) = l /\ flat_map (fun x => marks_of (snd x)) (map mm l) = [] /\ existsb is_ambiguous (map mm l) = false).
  { induction l as [|s l IH]; intros FL; [auto|]. inversion FL as [|? ? P FL']; subst. destruct (IH FL') as (A & B & C). destruct (plain_word s P) as [W _]. unfold words, mm, is_ambiguous in *. cbn [map filter flat_map existsb snd]. rewrite W. cbn [is_word_arg map fst marks_of app orb]. rewrite A, B, C. auto. }
  destruct (E argv F) as (A & B & C). unfold settle. rewrite B, C. cbn [first_end existsb tl]. rewrite A, app_nil_r. destruct argv as [|a [|b [|c q]]]; try reflexivity. inversion F as [|? ? PA F1]; subst. inversion F1 as [|? ? PB _]; subst. destruct (plain_word b PB) as [_ NB]. rewrite (proj2 (seqb_neq b _) NB). reflexivity.
Qed.
(** Two arguments that mean the same option can be exchanged. *)
Theorem C92_exchange : forall `{U : Uni} x y s1 s2 l, ~ In (lit "--") x -> s1 <> lit "--" -> s2 <> lit "--" -> meaning_of negative_number s1 = Marks l -> meaning_of negative_number s2 = Marks l ->
  parse_args (x ++ s1 :: y) = parse_args (x ++ s2 :: y).
Proof.
  intros U x y s1 s2 l NX N1 N2 E1 E2. destruct (split_of y) as (b & a & -> & NB & HA).
  assert (G : forall s, s <> lit "--" -> meaning_of negative_number s = Marks l -> parse_args (x ++ s :: b ++ a) = settle (map mm x ++ (s, Marks l) :: map mm b) a).
  { intros s NS ES. rewrite app_comm_cons, app_assoc. rewrite settled; [|intros I0; apply in_app_or in I0 as [I0|[I0|I0]]; auto|exact HA]. rewrite map_app. cbn [map]. unfold mm at 2. rewrite ES. reflexivity. }
  rewrite (G s1 N1 E1), (G s2 N2 E2). unfold settle, words, ends_in_option. rewrite !existsb_app, !flat_map_app, !filter_app, !rev_app_distr. cbn [existsb flat_map filter snd is_word_arg rev is_ambiguous]. destruct (rev (map mm b)) as [|[q mq] r]; reflexivity.
Qed.
(** -d, --dump and every beginning of it; so for -h and --help. *)
Theorem C92_spellings : forall `{U : Uni} p, p <> [] -> (begins p (lit "dump") = true -> meaning_of negative_number (lit "--" ++ p) = meaning_of negative_number (lit "-d"))
  /\ (begins p (lit "help") = true -> meaning_of negative_number (lit "--" ++ p) = meaning_of negative_number (lit "-h")).
Proof.
  intros U p NP. assert (B : forall w, begins p w = true -> exists n, p = firstn n w) by (intros w H; apply seqb_eq in H; exists (length p); exact H).
  split; intros H; destruct (B _ H) as (n & E); clear H B; do 5 (destruct n as [|n]; [subst p; vm_compute in NP; first [congruence|reflexivity]|]); change (lit "dump") with [100; 117; 109; 112] in E; change (lit "help") with [104; 101; 108; 112] in E; cbn [firstn] in E; subst p; reflexivity.
Qed.
(** The flag can stand anywhere, any number of times. *)
Theorem C92_anywhere : forall `{U : Uni} x y z a b, plain a -> plain b -> Forall (fun s => s = lit "-d" \/ s = lit "--dump") (x ++ y ++ z) ->
  parse_args (x ++ a :: y ++ b :: z) = Given (Some a) (Some b) (negb (Nat.eqb (length (x ++ y ++ z)) 0)).
Proof.
  intros U x y z a b PA PB F. destruct (plain_word a PA) as [WA NA]. destruct (plain_word b PB) as [WB NB].
  apply Forall_app in F as [FX F]. apply Forall_app in F as [FY FZ].
  assert (G : forall l, Forall (fun s => s = lit "-d" \/ s = lit "--dump") l -> ~ In (lit "--") l /\ words (map mm l) = [] /\ flat_map (fun x => marks_of (snd x)) (map mm l) = repeat MDump (length l) /\ existsb is_ambiguous (map mm l) = false).
  { induction l as [|s l IH]; intros FL; [repeat split; auto|]. inversion FL as [|? ? P FL']; subst. destruct (IH FL') as (A & B & C & D). assert (MS : meaning_of negative_number s = Marks [MDump] /\ s <> lit "--") by (destruct P as [-> | ->]; split; try reflexivity; vm_compute; discriminate). destruct MS as [MS NS].
    unfold words, is_ambiguous in *. cbn [map filter flat_map existsb snd mm length repeat]. rewrite MS. cbn [is_word_arg marks_of app orb]. rewrite B, C, D. repeat split; auto. intros [E|I0]; [now apply NS|contradiction]. }
  destruct (G x FX) as (X1 & X2 & X3 & X4). destruct (G y FY) as (Y1 & Y2 & Y3 & Y4). destruct (G z FZ) as (Z1 & Z2 & Z3 & Z4).
  rewrite <- (app_nil_r (x ++ a :: y ++ b :: z)). rewrite settled; [| |now left].
  2:{ intros I0. apply in_app_or in I0 as [I0|[I0|I0]]; [auto| now apply NA|]. apply in_app_or in I0 as [I0|[I0|I0]]; auto. }
  unfold settle. assert (EW : words (map mm (x ++ a :: y ++ b :: z)) = [a; b]).
  { unfold words in *. rewrite map_app, filter_app, map_app, X2. cbn [map filter mm snd app]. rewrite WA. cbn [is_word_arg map fst]. rewrite map_app, filter_app, map_app, Y2. cbn [map filter mm snd app]. rewrite WB. cbn [is_word_arg map fst]. now rewrite Z2. }
  assert (EA : existsb is_ambiguous (map mm (x ++ a :: y ++ b :: z)) = false).
  { rewrite map_app, existsb_app, X4. cbn [map existsb]. rewrite map_app, existsb_app, Y4. cbn [map existsb]. rewrite Z4. unfold is_ambiguous, mm. cbn [snd]. now rewrite WA, WB. }
  assert (EM : flat_map (fun x => marks_of (snd x)) (map mm (x ++ a :: y ++ b :: z)) = repeat MDump (length (x ++ y ++ z))).
  { rewrite map_app, flat_map_app, X3. cbn [map flat_map mm snd]. rewrite WA. cbn [marks_of app]. rewrite map_app, flat_map_app, Y3. cbn [map flat_map mm snd]. rewrite WB. cbn [marks_of app]. rewrite Z3, !app_length, !repeat_app. reflexivity. }
  rewrite EA, EM. assert (R1 : forall n, first_end (repeat MDump n) = None) by (induction n; auto). assert (R2 : forall n, existsb is_unknown (repeat MDump n) = false) by (induction n; auto). assert (R3 : forall n, existsb is_dump (repeat MDump n) = negb (Nat.eqb n 0)) by (intros [|n]; reflexivity).
  rewrite R1, R2, R3, EW. cbn [tl app]. rewrite (proj2 (seqb_neq b _) NB). reflexivity.
Qed.
(** After -- every name can be given, except a destination -- that is lost. *)
Theorem C92_any_name : forall `{U : Uni} a b, parse_args [lit "--"; a; b] = Given (Some a) (if seqb b (lit "--") then None else Some b) false
  /\ parse_args [lit "-d"; lit "--"; a; b] = Given (Some a) (if seqb b (lit "--") then None else Some b) true.
Proof.
  intros U a b. split.
  - change [lit "--"; a; b] with ([] ++ [lit "--"; a; b]). rewrite settled; [|auto|right; eauto]. unfold settle. cbn [map existsb flat_map first_end words filter app tl ends_in_option rev length]. rewrite andb_true_r. reflexivity.
  - change [lit "-d"; lit "--"; a; b] with ([lit "-d"] ++ [lit "--"; a; b]). rewrite settled; [|intros [E|[]]; vm_compute in E; discriminate|right; eauto].
    change (map mm [lit "-d"]) with [(lit "-d", Marks [MDump])]. unfold settle. cbn [existsb is_ambiguous snd orb flat_map marks_of app first_end is_unknown is_dump words filter is_word_arg map tl ends_in_option rev length Nat.eqb negb andb]. rewrite andb_true_r. reflexivity.
Qed.
(** Help that is asked for before anything else but words is given, whatever follows
    that is not --= and however many words there are. *)
Theorem C92_help : forall `{U : Uni} x y s, Forall plain x -> s = lit "-h" \/ s = lit "--help" -> Forall (fun s => forall r, s <> lit "--=" ++ r) y -> parse_args (x ++ s :: y) = HelpShown.
Proof.
  intros U x y s FX HS FY. assert (MS : meaning_of negative_number s = Marks [MHelp] /\ s <> lit "--") by (destruct HS as [-> | ->]; split; try reflexivity; vm_compute; discriminate). destruct MS as [MS NS].
  destruct (split_of y) as (b & a & -> & NB & HA). apply Forall_app in FY as [FY _]. rewrite app_comm_cons, app_assoc.
  assert (GX : forall l, Forall plain l -> ~ In (lit "--") l /\ flat_map (fun x => marks_of (snd x)) (map mm l) = [] /\ existsb is_ambiguous (map mm l) = false).
  { induction l as [|q l IH]; intros FL; [repeat split; auto|]. inversion FL as [|? ? P FL']; subst. destruct (IH FL') as (A & B & C). destruct (plain_word q P) as [W NQ]. unfold is_ambiguous in *. cbn [map flat_map existsb snd mm]. rewrite W. cbn [marks_of app orb]. rewrite B, C. repeat split; auto. intros [E|I0]; [now apply NQ|contradiction]. }
  destruct (GX x FX) as (X1 & X2 & X3). rewrite settled; [|intros I0; apply in_app_or in I0 as [I0|[I0|I0]]; auto|exact HA].
  assert (NAM : existsb is_ambiguous (map mm b) = false).
  { clear -FY NB. induction b as [|q b IH]; [reflexivity|]. inversion FY as [|? ? P FY']; subst. cbn [map existsb]. rewrite IH; [|exact FY'|intros I0; apply NB; now right]. rewrite orb_false_r. assert (NQ : q <> lit "--") by (intros ->; apply NB; now left). unfold is_ambiguous, mm. cbn [snd].
    destruct q as [|c0 q]; [reflexivity|]. destruct (N.eq_dec c0 45) as [->|N0]; [|now rewrite other_first]. destruct q as [|c q]; [reflexivity|]. destruct (N.eq_dec c 45) as [->|NC]; [|rewrite short_meaning by exact NC; destruct (ArgSpec.letter c); [reflexivity|destruct (_ || _); reflexivity]].
    unfold meaning_of. cbv zeta. destruct q as [|c q]; [elim NQ; reflexivity|]. cbn [take_while]. destruct (N.eqb_spec c 61) as [->|NE]; [elim (P q); reflexivity|]. cbn [negb]. destruct (long _); [reflexivity|]. destruct (has_char _ _); reflexivity. }
  assert (E1 : existsb is_ambiguous (map mm (x ++ s :: b)) = false) by (rewrite map_app, existsb_app, X3; cbn [map existsb]; rewrite NAM; unfold is_ambiguous, mm; cbn [snd]; rewrite MS; reflexivity).
  assert (E2 : first_end (flat_map (fun x => marks_of (snd x)) (map mm (x ++ s :: b))) = Some HelpShown) by (rewrite map_app, flat_map_app, X2; cbn [map flat_map mm snd app]; rewrite MS; reflexivity).
  unfold settle. rewrite E1, E2. reflexivity.
Qed.

Section Cases.
Local Existing Instance U0.
(** The hypotheses are met: the flag between the words; run together with help; a
    value for the flag; a negative number; an unknown option. *)
Example C92_between : told negative_number [lit "a.md"; lit "--dum"; lit "b"] (Given (Some (lit "a.md")) (Some (lit "b")) true).
Proof. apply C92_told. vm_compute. reflexivity. Qed.
Example C92_run_together : told negative_number [lit "-dh"; lit "--dump=1"] HelpShown /\ told negative_number [lit "--dump=1"; lit "-dh"] UsageError.
Proof. split; apply C92_told; vm_compute; reflexivity. Qed.
Example C92_number : told negative_number [lit "-1.5"; lit "-"] (Given (Some (lit "-1.5")) (Some (lit "-")) false) /\ told negative_number [lit "-x"; lit "a"; lit "b"] UsageError.
Proof. split; apply C92_told; vm_compute; reflexivity. Qed.
(** A -- at the very end is refused after an option and accepted after a word. *)
Example C92_trailing : told negative_number [lit "a"; lit "b"; lit "-d"; lit "--"] UsageError /\ told negative_number [lit "-d"; lit "a"; lit "b"; lit "--"] (Given (Some (lit "a")) (Some (lit "b")) true).
Proof. split; apply C92_told; vm_compute; reflexivity. Qed.
(** A destination -- is lost after words, and kept after an option. *)
Example C92_lost : told negative_number [lit "a"; lit "--"; lit "--"] (Given (Some (lit "a")) None false) /\ told negative_number [lit "a"; lit "-d"; lit "--"; lit "--"] (Given (Some (lit "a")) (Some (lit "--")) true).
Proof. split; apply C92_told; vm_compute; reflexivity. Qed.
Example C92_plain_met : Forall plain [lit "a"; lit "b"].
Proof. repeat constructor; intros r E; vm_compute in E; discriminate. Qed.
Example C92_help_met : parse_args [lit "a"; lit "-h"; lit "--wrong"; lit "-d=1"] = HelpShown.
Proof. apply (C92_help [lit "a"] [lit "--wrong"; lit "-d=1"]); [repeat constructor|now left|repeat constructor]; intros r E; vm_compute in E; discriminate. Qed.
Example C92_exchange_met : meaning_of negative_number (lit "--du") = Marks [MDump] /\ meaning_of negative_number (lit "-d") = Marks [MDump] /\ begins (lit "du") (lit "dump") = true.
Proof. repeat split; vm_compute; reflexivity. Qed.
Example C92_run : exists l, command (fun s => s) (fun _ => lit "<p>Hi") [lit "a.html"; lit "-d"; lit "b"] = Runs (ERead (lit "a.html") :: EPrint (lit "<p>Hi") :: l) None.
Proof. eexists. vm_compute. reflexivity. Qed.
End Cases.
Close Scope N_scope.
Print Assumptions C92_told.
Print Assumptions C92_negative.
Print Assumptions C92_only.
Print Assumptions C92_command.
Print Assumptions C92_effects.
Print Assumptions C92_plain.
Print Assumptions C92_exchange.
Print Assumptions C92_spellings.
Print Assumptions C92_anywhere.
Print Assumptions C92_any_name.
Print Assumptions C92_help.
