(** Specification vocabulary for text. *)
From Verif Require Export PyStr.

(** The characters of a text that are not whitespace, in order. *)
Definition nonspace (s : str) : str := filter (fun c => negb (is_space c)) s.
(** Only whitespace. *)
Definition all_space (s : str) : bool := forallb is_space s.
(** The text begins (ends) with whitespace. *)
Definition space_first (s : str) : bool := match s with c :: _ => is_space c | [] => false end.
Definition space_last (s : str) : bool := space_first (rev s).
(** The whitespace-separated words, declaratively: [words s l] says that [s] is
    the words [l], each without whitespace, separated by whitespace. *)
Inductive words : str -> list str -> Prop :=
| words_end : forall sp, all_space sp = true -> words sp []
| words_more : forall sp w rest l,
    all_space sp = true -> w <> [] -> forallb (fun c => negb (is_space c)) w = true ->
    (rest = [] \/ space_first rest = true) -> words rest l ->
    words (sp ++ w ++ rest) (w :: l).

(** ** Whitespace normalisation of running text
    A whitespace run containing a newline becomes one space; in any other run
    every stretch of blanks and tabs becomes one space; everything else stays. *)
Definition blank (c : N) : bool := ((c =? 32) || (c =? 9))%N.
Fixpoint single_blanks (after_blank : bool) (s : str) : str :=
  match s with
  | [] => []
  | c :: r => if blank c
              then (if after_blank then single_blanks true r else 32%N :: single_blanks true r)
              else c :: single_blanks false r
  end.
Definition normal_run (w : str) : str :=
  if existsb (N.eqb 10) w then [32%N] else single_blanks false w.
(** [w]: the whitespace read so far, last character first. *)
Fixpoint normalise_from (w : str) (s : str) : str :=
  match s with
  | [] => normal_run (rev w)
  | c :: r => if is_space c then normalise_from (c :: w) r
              else normal_run (rev w) ++ c :: normalise_from [] r
  end.
Definition normalise (s : str) : str := normalise_from [] s.
