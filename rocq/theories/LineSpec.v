(** Specification vocabulary: the lines of a text as [str.splitlines] sees them. *)
From Verif Require Export TextSpec.
Open Scope N_scope.

(** The end of a line: CR LF, a single line break character, or nothing (only
    at the end of the text). *)
Definition line_end (t : str) : Prop :=
  t = [] \/ t = [13; 10] \/ exists c, t = [c] /\ is_linebreak c = true.
Definition no_break (s : str) : Prop := forall c, In c s -> is_linebreak c = false.
(** [lines_of s ls]: [s] consists of the lines [ls], each a body and its end. *)
Inductive lines_of : str -> list (str * str) -> Prop :=
| lines_nil : lines_of [] []
| lines_cons : forall b t r ls,
    no_break b -> line_end t -> b ++ t <> [] -> (t = [] -> r = []) ->
    (t = [13] -> forall r', r <> 10 :: r') ->
    lines_of r ls -> lines_of (b ++ t ++ r) ((b, t) :: ls).
(** [prefixed p s s']: [s'] is [s] with [p] in front of every line. *)
Definition prefixed (p s s' : str) : Prop :=
  exists ls, lines_of s ls /\ s' = concat (map (fun l => p ++ fst l ++ snd l) ls).
Close Scope N_scope.
(** Every line of [s] has at most [w] characters. *)
Definition fits (w : Z) (s : str) : Prop :=
  forall ls, lines_of s ls -> Forall (fun l : str * str => (len (fst l) <= w)%Z) ls.
(** Columns: a character is at column [k] when [k] characters of its line come
    before it.  [within cnt w k s]: in [s], written from column [k] on, every
    character that counts is at a column below [w]. *)
Fixpoint within (cnt : N -> bool) (w k : Z) (s : str) : Prop :=
  match s with
  | [] => True
  | c :: r => if is_linebreak c then within cnt w 0%Z r
              else (cnt c = true -> (k < w)%Z) /\ within cnt w (k + 1)%Z r
  end.
(** The column after [s]. *)
Fixpoint column (k : Z) (s : str) : Z :=
  match s with
  | [] => k
  | c :: r => if is_linebreak c then column 0%Z r else column (k + 1)%Z r
  end.
