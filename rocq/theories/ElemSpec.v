(** Specification vocabulary for elements: markers, padded lines. *)
From Verif Require Export RenderSpec BoxSpec.
Open Scope Z_scope.

(** The marker put on both sides of the content of an inline element. *)
Definition markers : list (string * string) :=
  [("em", "_"); ("i", "_"); ("u", "_"); ("ins", "_"); ("strong", "**"); ("b", "**");
   ("s", "~~"); ("del", "~~"); ("span", "")]%string.
Definition headings : list (string * string) :=
  [("h1", "#"); ("h2", "##"); ("h3", "###"); ("h4", "####"); ("h5", "#####"); ("h6", "######")]%string.

(** A line filled up with spaces to width [w]. *)
Definition pad (w : Z) (l : str) : str := l ++ spaces (w - len l).
(** Lines under each other, filled up. *)
Definition rows (w : Z) (ls : list str) : str := join nl (map (pad w) ls).
(** The width to which the lines of a block in box [bx] are filled up. *)
Definition line_width (bx : box) : Z :=
  b_width bx - both (b_total_margin bx) - both (b_total_border bx) - b_total_ltp bx.
(** The box of a block without side margins, padding and border. *)
Definition inner_box (bx : box) (top bottom : Z) (template : option str) : box :=
  child_box bx (Sides top 0 bottom 0) sides0 sides0 template.
(** The width to which text in box [bx] is wrapped. *)
Definition wrap_width (bx : box) : Z := line_width bx - both (b_total_padding bx).
(** [wrapped w text lines]: textwrap with the settings of running text. *)
Definition text_wrap (w : Z) : wcfg := Wcfg w [] [] true true true true true true true 8 None (lit " [...]").
Definition wrapped `{U : Uni} (w : Z) (text : str) (lines : list str) : Prop := wrap (text_wrap w) text = Ok lines.
(** Lines with a label in front of the first, the others as far to the right. *)
Definition labelled (label : str) (ls : list str) : list str :=
  match ls with
  | [] => [label]
  | l :: r => (label ++ l) :: map (fun x => spaces (len label) ++ x) r
  end.
(** The bodies of the lines. *)
Definition bodies (ls : list (str * str)) : list str := map fst ls.
(** Element [i] directly inside a [t]. *)
Definition directly_in (d : dom) (i : nat) (t : string) : Prop :=
  exists n j m, node_at d i = Some n /\ n_parent n = PNode j /\ is_tagged d j m (lit t).
(** The li elements among the nodes [l]. *)
Definition list_items (d : dom) (l : list nat) : list nat :=
  filter (fun x => match node_at d x with
                   | Some n => match n_tag n with Some t => seqb t (lit "li") | None => false end
                   | None => false end) l.
(** [s] contains [l] as a line between two newlines. *)
Definition shows_line (s l : str) : Prop := exists before after_, s = before ++ nl ++ l ++ nl ++ after_.
(** [k] copies of [x]. *)
Fixpoint copies (k : nat) (x : str) : str := match k with O => [] | S k => x ++ copies k x end.
(** [i] is a quotation; the quotation [j] is [k] quotations further in, each directly in the one before. *)
Inductive quote_chain (d : dom) : nat -> nat -> nat -> Prop :=
| qc_here : forall i n, is_tagged d i n (lit "blockquote") -> quote_chain d 0 i i
| qc_in : forall k i n i' j, is_tagged d i n (lit "blockquote") -> In i' (n_children n) ->
    quote_chain d k i' j -> quote_chain d (S k) i j.
(** [In row (split_on 10 s)]: [row] is a line of [s], newlines being the ends. *)
Definition has_row (s row : str) : Prop := In row (split_on 10%N s).
Close Scope Z_scope.
