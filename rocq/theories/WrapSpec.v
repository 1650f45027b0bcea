(** Specification vocabulary for wrapping and justification. *)
From Verif Require Export TextSpec Textwrap.

(** ** Styled text: plain characters and complete SGR sequences (ESC, bracket,
    digits and semicolons, m).  [styled s p]: [s] is the text [p] with styling. *)
Section Styled.
Context `{U : Uni}.
Inductive styled : str -> str -> Prop :=
| styled_nil : styled [] []
| styled_char : forall c s p, c <> 27%N -> styled s p -> styled (c :: s) (c :: p)
| styled_esc : forall ps s p, forallb esc_param ps = true -> styled s p ->
    styled (27%N :: 91%N :: ps ++ 109%N :: s) p.

(** ** Filling lines greedily with words *)
(** [gap w]: the white space after the word [w] on a line. *)
Fixpoint set_words (gap : str -> str) (ws : list str) : str :=
  match ws with
  | [] => []
  | [w] => w
  | w :: r => w ++ gap w ++ set_words gap r
  end.
(** Visible length of such a line. *)
Fixpoint line_len (gap : str -> str) (ws : list str) : Z :=
  match ws with
  | [] => 0
  | [w] => vlen w
  | w :: r => vlen w + len (gap w) + line_len gap r
  end%Z.
(** [filled gap first rest groups]: each group fits in its line's width
    ([first] for the first line, [rest] for the others), and the first word of
    each group would not have fitted on the line before. *)
Fixpoint filled (gap : str -> str) (first rest : Z) (groups : list (list str)) : Prop :=
  match groups with
  | [] => True
  | g :: r =>
      g <> [] /\ (line_len gap g <= first)%Z
      /\ match r with
         | (w :: _) :: _ => (line_len gap g + len (gap (last g [])) + vlen w > first)%Z
         | _ => True
         end
      /\ filled gap rest rest r
  end.
(** The lines: indent and words. *)
Fixpoint set_lines (gap : str -> str) (first rest : str) (groups : list (list str)) : list str :=
  match groups with
  | [] => []
  | g :: r => (first ++ set_words gap g) :: set_lines gap rest rest r
  end.
(** The white space between words of normalised text: one space, or two after
    the end of a sentence when sentence endings are to be fixed. *)
Definition word_gap (cfg : wcfg) (w : str) : str :=
  if w_fixse cfg && sent_end w then lit "  " else lit " ".
End Styled.

(** The pieces of a text between (ASCII) white space. *)
Fixpoint pieces_aux (cur : str) (s : str) : list str :=
  match s with
  | [] => match cur with [] => [] | _ => [rev cur] end
  | c :: r => if tw_space c
              then match cur with [] => pieces_aux [] r | _ => rev cur :: pieces_aux [] r end
              else pieces_aux (c :: cur) r
  end.
Definition pieces (s : str) : list str := pieces_aux [] s.

(** A word: not empty, no white space. *)
Definition is_word_str (w : str) : Prop := w <> [] /\ forall c, In c w -> is_space c = false.
