(** ANSI styling: C41, C42, C43, C59. *)
From Verif Require Import BaseFacts WrapFacts AnsiPure Fixture.
Open Scope N_scope.

(** ** C41 *)
Section Colours.
Context `{U : Uni}.
(** Hexadecimal colours, with or without the hash sign, in either case. *)
Theorem C41_six_digits : forall hash c1 c2 c3 c4 c5 c6 n1 n2 n3 n4 n5 n6,
  hash = [] \/ hash = lit "#" ->
  hex c1 n1 -> hex c2 n2 -> hex c3 n3 -> hex c4 n4 -> hex c5 n5 -> hex c6 n6 ->
  parse_html_colour (hash ++ [c1; c2; c3; c4; c5; c6])
  = Ok (Z.of_N (16 * n1 + n2), Z.of_N (16 * n3 + n4), Z.of_N (16 * n5 + n6)).
Proof. intros hash c1 c2 c3 c4 c5 c6 n1 n2 n3 n4 n5 n6 [-> | ->]; intros; [apply (parse_hex6 0)|apply (parse_hex6 1)]; assumption. Qed.
Theorem C41_three_digits : forall hash c1 c2 c3 n1 n2 n3,
  hash = [] \/ hash = lit "#" -> hex c1 n1 -> hex c2 n2 -> hex c3 n3 ->
  parse_html_colour (hash ++ [c1; c2; c3]) = parse_html_colour (hash ++ [c1; c1; c2; c2; c3; c3])
  /\ parse_html_colour (hash ++ [c1; c2; c3])
     = Ok (Z.of_N (16 * n1 + n1), Z.of_N (16 * n2 + n2), Z.of_N (16 * n3 + n3)).
Proof.
  intros hash c1 c2 c3 n1 n2 n3 HH H1 H2 H3.
  assert (A : parse_html_colour (hash ++ [c1; c1; c2; c2; c3; c3]) = Ok (Z.of_N (16 * n1 + n1), Z.of_N (16 * n2 + n2), Z.of_N (16 * n3 + n3)))
    by (apply C41_six_digits; assumption).
  assert (B : parse_html_colour (hash ++ [c1; c2; c3]) = Ok (Z.of_N (17 * n1), Z.of_N (17 * n2), Z.of_N (17 * n3)))
    by (destruct HH as [-> | ->]; [apply (parse_hex3 0)|apply (parse_hex3 1)]; assumption).
  rewrite A, B. replace (17 * n1) with (16 * n1 + n1) by lia. replace (17 * n2) with (16 * n2 + n2) by lia.
  replace (17 * n3) with (16 * n3 + n3) by lia. auto.
Qed.
(** Every way of writing a colour yields a sequence that makes a terminal use
    that colour (and changes nothing else). *)
Theorem C41_colour_codes : forall v c is_background, colour_value v c -> v <> VNone ->
  exists x, colour_sequence v is_background = Ok x
  /\ forall s, display s (ansi_seq x) = ([], (if is_background then set_bg else set_fg) c s).
Proof.
  intros v c bg H N. destruct (colour_shown v c bg H N) as (x & E & S). exists x. split; [exact E|].
  intros s. specialize (S s []). rewrite app_nil_r in S. exact S.
Qed.
End Colours.
Print Assumptions C41_six_digits.
Print Assumptions C41_three_digits.
Print Assumptions C41_colour_codes.
Example C41_case : colour_value (VStr (lit "#fA0")) (CRgb 255 170 0)
  /\ colour_sequence (U := U0) (VStr (lit "#fA0")) true = Ok (lit "48;2;255;170;0")
  /\ colour_value (VStr (lit "bright_blue")) (CBasic 12)
  /\ colour_sequence (U := U0) (VStr (lit "bright_blue")) false = Ok (lit "94").
Proof.
  split; [|split; [|split]]; [|vm_compute; reflexivity| |vm_compute; reflexivity].
  - change 255 with (17 * 15). change 170 with (17 * 10). change 0 with (17 * 0).
    apply (cv_hex3 (lit "#") 102 65 48); unfold hex; lia || auto.
  - apply (cv_name 12 "bright_blue"). reflexivity.
Qed.

(** ** C42, C59 *)
Section Styling.
Context `{U : Uni}.

Lemma ansi_instance : forall d i l pb lk ex r content,
  instantiate d AnsiEscapeCodeRenderer i (Ctx (Some l) pb lk ex) = Ok r ->
  render_inst d r content
  = render_inst (Dom [] []) (Inst KAnsi (dupdate (class_settings AnsiEscapeCodeRenderer) l) (Ctx None None None None) 0 None false) content.
Proof. intros d i l pb lk ex r content H. injection H as <-. reflexivity. Qed.

(** C42: on a terminal in its default state the content of a span is displayed
    with exactly the effects and colours asked for, and the terminal is left in
    its default state. *)
Theorem C42_applied_and_undone_partial : forall d i l pb lk ex r content fg bg,
  span_settings l fg bg -> ~ In 27 content ->
  instantiate d AnsiEscapeCodeRenderer i (Ctx (Some l) pb lk ex) = Ok r ->
  exists out, render_inst d r content = Ok out
  /\ display plain out = (map (fun c => (c, inside l fg bg plain)) content, plain).
Proof.
  intros d i l pb lk ex r content fg bg HS HN HI.
  destruct (ansi_span l fg bg HS) as (en & dis & R & E & D & D').
  exists (en ++ content ++ dis). split; [rewrite (ansi_instance _ _ _ _ _ _ _ _ HI); apply R|].
  unfold display. rewrite E, text_shown by exact HN.
  assert (T : terminal Text (inside l fg bg plain) (dis ++ []) = terminal Text plain []).
  { destruct (asked l "normalise") eqn:NM; [apply D'; reflexivity|apply D; [reflexivity|]].
    unfold untouched. cbn. repeat split. }
  rewrite app_nil_r in T. rewrite T. cbn [terminal]. now rewrite app_nil_r.
Qed.

(** Nested spans. *)
Inductive span := Txt (t : str) | Span (l : settings) (children : list span).
Fixpoint render_span (d : dom) (i : nat) (x : span) : res str :=
  match x with
  | Txt t => Ok t
  | Span l ch =>
      let* parts := (fix go (xs : list span) : res (list str) :=
        match xs with
        | [] => Ok []
        | y :: ys => let* p := render_span d i y in let* ps := go ys in Ok (p :: ps)
        end) ch in
      let* r := instantiate d AnsiEscapeCodeRenderer i (Ctx (Some l) None None None) in
      render_inst d r (concat parts)
  end.
Fixpoint plain_text (x : span) : str :=
  match x with
  | Txt t => t
  | Span _ ch => (fix go (xs : list span) : str := match xs with [] => [] | y :: ys => plain_text y ++ go ys end) ch
  end.
(** What should be seen: each span adds its own effects to those around it. *)
Inductive seen : style -> span -> list (N * style) -> Prop :=
| seen_text : forall s t, ~ In 27 t -> seen s (Txt t) (map (fun c => (c, s)) t)
| seen_span : forall s l ch fg bg o, span_settings l fg bg -> asked l "normalise" = false ->
    untouched l fg bg s -> seen_all (inside l fg bg s) ch o -> seen s (Span l ch) o
with seen_all : style -> list span -> list (N * style) -> Prop :=
| seen_none : forall s, seen_all s [] []
| seen_more : forall s x xs o o', seen s x o -> seen_all s xs o' -> seen_all s (x :: xs) (o ++ o').
Scheme seen_mut := Induction for seen Sort Prop with seen_all_mut := Induction for seen_all Sort Prop.

(** C59: inside nested spans everything asked for is in force, and after a span
    ends the rendition around it is back, provided no span repeats an effect (or
    one sharing its off code, or a colour) of a span around it and none resets
    everything ("normalise"). *)
Theorem C59_nested_partial : forall d i s x o, seen s x o ->
  exists out, render_span d i x = Ok out /\ display s out = (o, s).
Proof.
  intros d i s x o H.
  assert (G : exists out, render_span d i x = Ok out
              /\ forall r, terminal Text s (out ++ r) = let (o', s') := terminal Text s r in (o ++ o', s')).
  { apply (seen_mut (fun s x o _ => exists out, render_span d i x = Ok out
              /\ forall r, terminal Text s (out ++ r) = let (o', s') := terminal Text s r in (o ++ o', s'))
            (fun s xs o _ => exists parts, (fix go (xs : list span) : res (list str) :=
        match xs with
        | [] => Ok []
        | y :: ys => let* p := render_span d i y in let* ps := go ys in Ok (p :: ps)
        end) xs = Ok parts
              /\ forall r, terminal Text s (concat parts ++ r) = let (o', s') := terminal Text s r in (o ++ o', s'))); try assumption; clear.
    - intros s t HN. exists t. split; [reflexivity|]. intros r. apply text_shown, HN.
    - intros s l ch fg bg o HS NM UN _ (parts & HP & IH).
      destruct (ansi_span l fg bg HS) as (en & dis & R & E & D & _).
      exists (en ++ concat parts ++ dis). split.
      + cbn [render_span]. rewrite HP. cbn [bind].
        destruct (instantiate d AnsiEscapeCodeRenderer i (Ctx (Some l) None None None)) as [r|e] eqn:HI; [|discriminate].
        cbn [bind]. rewrite (ansi_instance _ _ _ _ _ _ _ _ HI). apply R.
      + intros r. rewrite <- !app_assoc, E, IH, D by assumption. reflexivity.
    - intros s. exists []. split; [reflexivity|]. intros r. cbn [concat app]. destruct (terminal Text s r); reflexivity.
    - intros s x xs o o' _ (out & HO & IO) _ (parts & HP & IP). exists (out :: parts). split.
      + rewrite HO. cbn [bind]. rewrite HP. reflexivity.
      + intros r. cbn [concat]. rewrite <- app_assoc, IO, IP. destruct (terminal Text s r). now rewrite app_assoc. }
  destruct G as (out & R & T). exists out. split; [exact R|]. specialize (T []). rewrite app_nil_r in T. unfold display. rewrite T.
  cbn [terminal]. now rewrite app_nil_r.
Qed.

(** ** C43 *)
(** The settings are such that rendering succeeds and names real colours; the
    visible text of the span is the visible text of its content, whatever escape
    sequences (complete or not) that contains. *)
Theorem C43_invisible : forall d i l pb lk ex r content out fg bg,
  NoDup (map fst l) ->
  setting l "template" (VStr (lit "{}")) = VStr (lit "{}") ->
  truth (setting l "capitalized" (VBool false)) = false ->
  colour_value (setting l "foreground_colour" VNone) fg ->
  colour_value (setting l "background_colour" VNone) bg ->
  instantiate d AnsiEscapeCodeRenderer i (Ctx (Some l) pb lk ex) = Ok r ->
  render_inst d r content = Ok out ->
  strip_esc out = strip_esc content /\ vlen out = vlen content
  /\ forall p, styled content p -> styled out p.
Proof.
  intros d i l pb lk ex r content out fg bg ND HT HC HF HB HI H.
  rewrite (ansi_instance _ _ _ _ _ _ _ _ HI) in H. unfold render_inst in H. cbn [i_kind i_settings] in H.
  set (s0 := dupdate (class_settings AnsiEscapeCodeRenderer) l) in *.
  assert (INN : inline_render s0 content = Ok content).
  { unfold inline_render, sitem, sattr, s0. rewrite (ansi_lookup l "capitalized" (VBool false)) by (exact ND || vm_compute; reflexivity).
    cbn [bind]. rewrite HC. rewrite (ansi_lookup l "template" (VStr (lit "{}"))) by (exact ND || vm_compute; reflexivity).
    cbn [bind]. rewrite HT. unfold fmt1. cbn [bind want_str]. apply fmt_braces. }
  rewrite INN in H. cbn [bind] in H.
  eapply ansi_render_pure in H as (en & dis & P1 & P2 & ->);
    [|apply ansi_lookup; [exact ND|vm_compute; reflexivity]|apply ansi_lookup; [exact ND|vm_compute; reflexivity]|exact HF|exact HB].
  pose proof (strip_esc_between en content dis P1 P2) as E.
  split; [exact E|]. split; [unfold vlen; now rewrite E|].
  intros p HP. apply escapes_styled in P1, P2. replace p with ([] ++ p ++ []) by apply app_nil_r.
  apply styled_app; auto. apply styled_app; auto.
Qed.

(** Nested spans of any depth. *)
Definition colours_ok (l : settings) : Prop :=
  NoDup (map fst l)
  /\ setting l "template" (VStr (lit "{}")) = VStr (lit "{}")
  /\ truth (setting l "capitalized" (VBool false)) = false
  /\ (exists fg, colour_value (setting l "foreground_colour" VNone) fg)
  /\ (exists bg, colour_value (setting l "background_colour" VNone) bg).
Inductive span_ok : span -> Prop :=
| ok_text : forall t, ~ In 27 t -> span_ok (Txt t)
| ok_span : forall l ch, colours_ok l -> spans_ok ch -> span_ok (Span l ch)
with spans_ok : list span -> Prop :=
| oks_nil : spans_ok []
| oks_cons : forall x xs, span_ok x -> spans_ok xs -> spans_ok (x :: xs).
Scheme span_ok_mut := Induction for span_ok Sort Prop with spans_ok_mut := Induction for spans_ok Sort Prop.
Theorem C43_nested : forall d i x out, span_ok x -> render_span d i x = Ok out ->
  styled out (plain_text x) /\ strip_esc out = plain_text x.
Proof.
  intros d i x out HX.
  assert (G : forall out, render_span d i x = Ok out -> styled out (plain_text x)).
  { apply (span_ok_mut (fun x _ => forall out, render_span d i x = Ok out -> styled out (plain_text x))
      (fun xs _ => forall parts, (fix go (xs : list span) : res (list str) :=
        match xs with
        | [] => Ok []
        | y :: ys => let* p := render_span d i y in let* ps := go ys in Ok (p :: ps)
        end) xs = Ok parts -> styled (concat parts)
          ((fix go (xs : list span) : str := match xs with [] => [] | y :: ys => plain_text y ++ go ys end) xs))); try assumption; clear.
    - intros t HN out H. injection H as <-. apply styled_plain, HN.
    - intros l ch (ND & HT & HC & (fg & HF) & (bg & HB)) _ IH out H. cbn [render_span] in H. inv_bind H. inv_bind H.
      destruct (C43_invisible _ _ _ _ _ _ _ _ _ _ _ ND HT HC HF HB E0 H) as (_ & _ & S). cbn [plain_text]. apply S, IH, E.
    - intros parts H. injection H as <-. constructor.
    - intros x xs _ IX _ IXS parts H. inv_bind H. inv_bind H. injection H as <-. cbn [concat]. apply styled_app; auto. }
  intros H. split; [now apply G|]. now apply styled_strip, G.
Qed.
End Styling.
Print Assumptions C42_applied_and_undone_partial.
Print Assumptions C59_nested_partial.
Print Assumptions C43_invisible.
Print Assumptions C43_nested.

Local Existing Instance U0.
Definition rule_settings : settings :=
  [kv "bold" (VBool true); kv "faint" (VBool true); kv "foreground_colour" (vs "#ff8000"); kv "background_colour" (VInt 17)].
Lemma rule_settings_ok : span_settings rule_settings (CRgb 255 128 0) (CPalette 17).
Proof.
  repeat split; try discriminate.
  - repeat constructor; cbn; intros H; repeat destruct H as [H|H]; vm_compute in H; discriminate || contradiction.
  - cbn. change 255 with (16 * 15 + 15). change 128 with (16 * 8 + 0). change 0 with (16 * 0 + 0).
    apply (cv_hex6 (lit "#") 102 102 56 48 48 48); unfold hex; auto; lia.
  - apply cv_palette. lia.
Qed.
Example C42_case : span_settings rule_settings (CRgb 255 128 0) (CPalette 17)
  /\ exists r, instantiate (Dom [] []) AnsiEscapeCodeRenderer 0 (Ctx (Some rule_settings) None None None) = Ok r
  /\ exists out, render_inst (Dom [] []) r (lit "hi") = Ok out
     /\ fst (display plain out) = map (fun c => (c, Style true true false false false false false false false false false false false (CRgb 255 128 0) (CPalette 17))) (lit "hi").
Proof. split; [apply rule_settings_ok|]. eexists. split; [reflexivity|]. eexists. split; vm_compute; reflexivity. Qed.
Example C59_case : exists o, seen plain (Span rule_settings [Txt (lit "a"); Span [kv "underline" (VBool true)] [Txt (lit "b")]; Txt (lit "c")]) o.
Proof.
  eexists. eapply seen_span; [apply rule_settings_ok|reflexivity| |].
  - unfold untouched. cbn. repeat split.
  - constructor; [apply seen_text; vm_compute; intuition discriminate|].
    constructor; [|constructor; [apply seen_text; vm_compute; intuition discriminate|constructor]].
    eapply (seen_span _ _ _ CDefault CDefault); [| reflexivity | |].
    + repeat split; try discriminate; try constructor. intros []. constructor.
    + unfold untouched. vm_compute. repeat split; congruence.
    + constructor; [apply seen_text; vm_compute; intuition discriminate|constructor].
Qed.

(** C42 fails for a font: the renderer refers to a name that does not exist. *)
Theorem C42_font_refuted : exists l r,
  instantiate (Dom [] []) AnsiEscapeCodeRenderer 0 (Ctx (Some l) None None None) = Ok r
  /\ dget (lit "font") l = Some (VInt 1)
  /\ forall content, render_inst (Dom [] []) r content = Err EName.
Proof.
  exists [kv "font" (VInt 1)]. eexists. split; [reflexivity|]. split; [reflexivity|].
  intros content. unfold render_inst, inline_render. cbn [i_kind i_settings].
  change (sitem _ (lit "capitalized")) with (@Ok val (VBool false)). cbn [bind].
  change (sattr _ (lit "template")) with (@Ok val (VStr (lit "{}"))). cbn [bind].
  unfold fmt1. cbn [want_str bind truth capitalize_if]. rewrite fmt_braces. reflexivity.
Qed.
Print Assumptions C42_font_refuted.
(** C42 fails for palette entry 0 (black): the colour is not applied. *)
Theorem C42_palette_zero_refuted : exists l r out,
  instantiate (Dom [] []) AnsiEscapeCodeRenderer 0 (Ctx (Some l) None None None) = Ok r
  /\ colour_value (setting l "foreground_colour" VNone) (CPalette 0)
  /\ render_inst (Dom [] []) r (lit "x") = Ok out
  /\ display plain out = ([(120, plain)], plain).
Proof.
  exists [kv "foreground_colour" (VInt 0)]. eexists _, _. split; [reflexivity|]. split; [|split; vm_compute; reflexivity].
  change 0%N with (Z.to_N 0). apply cv_palette. lia.
Qed.
Print Assumptions C42_palette_zero_refuted.
(** C59 fails when a span repeats an effect of the span around it: the rest of
    the outer span loses the effect. *)
Theorem C59_repeated_effect_refuted : exists x out,
  render_span (Dom [] []) 0 x = Ok out
  /\ x = Span [kv "bold" (VBool true)] [Txt (lit "a"); Span [kv "bold" (VBool true)] [Txt (lit "b")]; Txt (lit "c")]
  /\ map (fun p => (fst p, st_bold (snd p))) (fst (display plain out)) = [(97, true); (98, true); (99, false)].
Proof. eexists _, _. split; [|split; [reflexivity|]]; vm_compute; reflexivity. Qed.
Print Assumptions C59_repeated_effect_refuted.
Close Scope N_scope.
