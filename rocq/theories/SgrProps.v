(** C82: the control sequences of a styled span, or why there are none. *)
From Verif Require Import BaseFacts StrFacts SgrFacts Renderers Fixture.
From Verif Require Export SgrSpec.
Open Scope Z_scope.

Section Sgr.
Context `{U : Uni}.
(** C82: exactly what a span looks like, for any settings and any text, and
    exactly what is raised instead. *)
Theorem C82_span : forall s x out, ansi_render s x = Ok out <-> ansi_shown s x out.
Proof. intros. apply ansi_iff. Qed.
Theorem C82_trips : forall s x e, ansi_render s x = Err e <-> ansi_trips s e.
Proof. intros. apply ansi_err. Qed.
Theorem C82_one : forall s x a b, ansi_shown s x a -> ansi_shown s x b -> a = b.
Proof. intros s x a b A B. apply ansi_iff in A, B. congruence. Qed.
Theorem C82_or : forall s x, (exists out, ansi_shown s x out) \/ exists e, ansi_trips s e.
Proof.
  intros s x. destruct (ansi_render s x) as [out|e] eqn:E; [left; exists out; now apply ansi_iff|right; exists e; eapply ansi_err; eauto].
Qed.
Theorem C82_not_both : forall s x out e, ansi_shown s x out -> ~ ansi_trips s e.
Proof. intros s x out e A B. apply ansi_iff in A. apply (ansi_err s x) in B. congruence. Qed.
(** The code of a colour. *)
Theorem C82_colour : forall v bg c, colour_sequence v bg = Ok c <-> colour_code bg v c.
Proof. intros. apply code_iff. Qed.
Theorem C82_no_colour : forall v bg e, truth v = true -> (colour_sequence v bg = Err e <-> no_colour v e).
Proof. intros. now apply code_err. Qed.
Theorem C82_html : forall x r g b, parse_html_colour x = Ok (r, g, b) <-> html_colour x r g b.
Proof. intros. apply html_iff. Qed.
(** The text is in there unchanged, and whether it works does not depend on it. *)
Theorem C82_text : forall s x out, ansi_shown s x out -> exists front back, out = front ++ x ++ back /\ forall y, ansi_shown s y (front ++ y ++ back).
Proof.
  intros s x out (norm & ons & offs & fg & f & f' & bg & b & b' & GN & H1 & GF & GG & H2 & GB & H3 & ->).
  exists (concat ons ++ concat f ++ concat b), (if truth norm then control (lit "0") else concat offs ++ concat f' ++ concat b'). split; [now rewrite <- !app_assoc|].
  intros y. exists norm, ons, offs, fg, f, f', bg, b, b'. repeat (split; [assumption|]). now rewrite <- !app_assoc.
Qed.
End Sgr.
Print Assumptions C82_span.
Print Assumptions C82_trips.
Print Assumptions C82_one.
Print Assumptions C82_or.
Print Assumptions C82_not_both.
Print Assumptions C82_colour.
Print Assumptions C82_no_colour.
Print Assumptions C82_html.
Print Assumptions C82_text.

(** ** Cases *)
Definition arabic : Uni := {|
  u_word := fun _ => false; u_decimal := fun c => if ((1632 <=? c) && (c <=? 1641))%N then Some (c - 1632)%N else None;
  u_upper := fun c => [c]; u_lower := fun c => [c]; u_nfkc_bad := fun _ => false; u_bracket_ok := fun _ => true |}.
Local Existing Instance arabic.
Definition styled_with (l : settings) : settings := dupdate set_ansi l.
Ltac shown_case := apply ansi_iff; vm_compute; reflexivity.
Ltac trips_case := apply (ansi_err _ (lit "x")); vm_compute; reflexivity.
Example span_case : ansi_shown (styled_with [kv "bold" (VInt 1); kv "framed" (VBool true); kv "foreground_colour" (vs "##0fA"); kv "background_colour" (vs "bright_blue")]) (lit "x")
  (concat [control (lit "1"); control (lit "51"); control (lit "38;2;0;255;170"); control (lit "104"); lit "x";
           control (lit "22"); control (lit "54"); control (lit "39"); control (lit "49")]).
Proof. shown_case. Qed.
Example normalised_case : ansi_shown (styled_with [kv "bold" (VBool true); kv "normalise" (VBool true); kv "foreground_colour" (VInt 200)]) (lit "x")
  (control (lit "1") ++ control (lit "38;5;200") ++ lit "x" ++ control (lit "0")).
Proof. shown_case. Qed.
(** Two Arabic digits, a minus sign, and a space that is not ASCII. *)
Example digits_case : html_colour ([1635; 1637]%N ++ lit "-f" ++ [160; 52]%N) 53 (-15) 4.
Proof. apply html_iff. vm_compute. reflexivity. Qed.
Example triple_case : colour_code true (VTuple [VInt 1; VStr (lit "2"); VNone; VBool true]) (lit "48;2;1;2;None").
Proof. apply code_iff. vm_compute. reflexivity. Qed.
Example font_case : ansi_trips (styled_with [kv "font" (VInt 0)]) EName.
Proof. trips_case. Qed.
Example colour_case : ansi_trips (styled_with [kv "background_colour" (vs "reddish")]) EValue.
Proof. trips_case. Qed.
Example list_case : ansi_trips (styled_with [kv "foreground_colour" (VList [VInt 1; VInt 2; VInt 3])]) EType.
Proof. trips_case. Qed.
Example short_case : ansi_trips (styled_with [kv "foreground_colour" (VTuple [VInt 1; VInt 2])]) EIndex.
Proof. trips_case. Qed.
Close Scope Z_scope.
