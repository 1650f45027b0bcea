(** Specification vocabulary for renderers with settings of their own: what
    templates, borders, padding, margins, heading decoration, indents and
    justification settings make of an element's content. *)
From Verif Require SetSpec FormatSpec.
From Verif Require Export ElemSpec.
Open Scope Z_scope.

(** ** Templates *)
(** A template as its author thinks of it: text, and places to fill.  A place
    has no name, a number, or a name. *)
Inductive piece := PText (s : str) | PNext | PNumber (n : N) | PName (s : str).
(** How it is written: braces that are text are doubled. *)
Definition is_brace (c : N) : bool := ((c =? 123) || (c =? 125))%N.
Definition doubled (s : str) : str := flat_map (fun c => if is_brace c then [c; c] else [c]) s.
Definition written_piece (p : piece) : str :=
  match p with
  | PText s => doubled s
  | PNext => lit "{}"
  | PNumber n => lit "{" ++ str_of_Z (Z.of_N n) ++ lit "}"
  | PName s => lit "{" ++ s ++ lit "}"
  end.
Definition written (t : list piece) : str := concat (map written_piece t).
(** Names: letters and underscores. *)
Definition name_char (c : N) : bool :=
  ((97 <=? c) && (c <=? 122) || (65 <=? c) && (c <=? 90) || (c =? 95))%N.
Definition is_name (s : str) : Prop := s <> [] /\ forallb name_char s = true.
(** [filled k t args kws out]: [out] is [t] with the places filled: the places
    without name by the arguments from number [k] on, in order; numbers are at
    most Python's largest index.  This is how plain templates look; FormatSpec
    says what any template does. *)
Inductive filled (args : list farg) (kws : dict farg) : nat -> list piece -> str -> Prop :=
| fi_nil : forall k, filled args kws k [] []
| fi_text : forall k s t out, filled args kws k t out -> filled args kws k (PText s :: t) (s ++ out)
| fi_next : forall k a t out, nth_error args k = Some a ->
    filled args kws (S k) t out -> filled args kws k (PNext :: t) (FormatSpec.text_of a ++ out)
| fi_number : forall k n a t out, (n <= max_size)%N -> nth_error args (N.to_nat n) = Some a ->
    filled args kws k t out -> filled args kws k (PNumber n :: t) (FormatSpec.text_of a ++ out)
| fi_name : forall k s a t out, is_name s -> dget s kws = Some a ->
    filled args kws k t out -> filled args kws k (PName s :: t) (FormatSpec.text_of a ++ out).
(** Places without names and numbered places are not mixed. *)
Definition unmixed (t : list piece) : Prop := ~ In PNext t \/ forall n, ~ In (PNumber n) t.

(** What a template makes of its arguments: see FormatSpec. *)
Notation formats := FormatSpec.formats.
(** The setting [k] is the template [t]. *)
Definition template_set (s : settings) (k : string) (t : str) : Prop := dget (lit k) s = Some (VStr t).
(** A setting that is on, by Python's truth. *)
Definition switched (s : settings) (k : string) (b : bool) : Prop :=
  exists v, dget (lit k) s = Some v /\ truth v = b.
Definition int_set (s : settings) (k : string) (z : Z) : Prop := dget (lit k) s = Some (VInt z).
Definition str_set (s : settings) (k : string) (x : str) : Prop := dget (lit k) s = Some (VStr x).

Section D.
Context `{U : Uni}.
(** [t] filled with one text. *)
Definition fills (t x out : str) : Prop := formats [FStr x] [] t out.
(** Upper case when [b]. *)
Definition cased (b : bool) (x : str) : str := if b then upper x else x.

(** ** The frame of a block *)
(** A top or bottom border: one row for each of its characters. *)
Definition edge (w : Z) (b : str) : list str := map (fun c => repeat c (Z.to_nat w)) b.
(** Rows in a frame that is [outer] wide, with [inner] between its sides. *)
Definition framed (outer inner : Z) (padding : sides) (bo : borders) (ls : list str) : list str :=
  let row indent l := bo_left bo ++ spaces indent ++ l ++ spaces (inner - indent - len l) ++ bo_right bo in
  edge outer (bo_top bo)
  ++ repeat (row 0 []) (Z.to_nat (sd_top padding))
  ++ map (row (sd_left padding)) ls
  ++ repeat (row 0 []) (Z.to_nat (sd_bottom padding))
  ++ edge outer (bo_bottom bo).
(** Four numbers, in the order top, right, bottom, left; nothing: zeros. *)
Definition sides_set (s : settings) (k : string) (x : sides) : Prop :=
  match dget (lit k) s with
  | None | Some VNone => x = sides0
  | Some v => exists rest, v = VList (VInt (sd_top x) :: VInt (sd_right x) :: VInt (sd_bottom x) :: VInt (sd_left x) :: rest)
  end.
Definition border_set (s : settings) (bo : borders) : Prop :=
  exists rest, let l := VStr (bo_top bo) :: VStr (bo_right bo) :: VStr (bo_bottom bo) :: VStr (bo_left bo) :: rest in
    dget (lit "border") s = Some (VList l) \/ dget (lit "border") s = Some (VTuple l).
(** [dressed page s ls out]: [out] is the rows [ls] in the frame, with the
    margins, that the settings [s] ask for, in a block whose surroundings have
    box [page].  The frame loses to the borders, paddings and labels around it
    only what is between its sides. *)
Record dress := Dress { dr_margin : sides; dr_padding : sides; dr_border : borders }.
Definition wears (s : settings) (x : dress) : Prop :=
  sides_set s "margin" (dr_margin x) /\ sides_set s "padding" (dr_padding x) /\ border_set s (dr_border x).
Definition dressed (page : box) (x : dress) (ls : list str) (out : str) : Prop :=
  let m := dr_margin x in
  let outer := b_width page - both (b_total_margin page) - both m in
  let inner := line_width page - both m - len (bo_left (dr_border x)) - len (bo_right (dr_border x)) in
  exists body, prefixed (spaces (sd_left m)) (join nl (framed outer inner (dr_padding x) (dr_border x) ls)) body
    /\ out = newlines (sd_top m) ++ body ++ newlines (sd_bottom m).
(** The columns for text in such a block beside a label of [label] columns. *)
Definition text_room (page : box) (x : dress) (label : Z) : Z :=
  wrap_width page - both (dr_margin x) - both (dr_padding x)
  - len (bo_left (dr_border x)) - len (bo_right (dr_border x)) - label.

(** ** Headings *)
(** The characters with [gap] between them. *)
Fixpoint spread_out (gap x : str) : str :=
  match x with
  | [] => []
  | [c] => [c]
  | c :: r => c :: gap ++ spread_out gap r
  end.
Definition placed (centre : bool) (w : Z) (x out : str) : Prop := if centre then SetSpec.centred w x out else out = x.
(** The settings of a heading. *)
Record heading_style := HeadingStyle {
  hs_template : str; hs_caps : bool; hs_spread : Z; hs_gap : str; hs_centre : bool;
  hs_underline : option (bool * str) (* as wide as the text or the room; drawn with *) }.
Definition heading_set (s : settings) (h : heading_style) : Prop :=
  template_set s "template" (hs_template h) /\ switched s "capitalized" (hs_caps h)
  /\ int_set s "spread" (hs_spread h) /\ str_set s "spread_char" (hs_gap h)
  /\ switched s "centered" (hs_centre h)
  /\ match hs_underline h with
     | None => switched s "underlined" false
     | Some (full, u) => switched s "underlined" true /\ switched s "underline_full" full
                         /\ str_set s "underline_char" u
     end.
Definition spread_by (n : Z) (gap x : str) : str :=
  if 0 <? n then spread_out (copies (Z.to_nat n) gap) x else x.
(** [heading h w c out]: the text [c] as a heading in [w] columns. *)
Definition heading (h : heading_style) (w : Z) (c out : str) : Prop :=
  exists text, fills (hs_template h) (spread_by (hs_spread h) (hs_gap h) (cased (hs_caps h) c)) text
    /\ match hs_underline h with
       | None => placed (hs_centre h) w text out
       | Some (full, u) => exists line1 line2, placed (hs_centre h) w text line1
           /\ placed (hs_centre h) w (copies (Z.to_nat (if full then w else len text)) u) line2
           /\ out = line1 ++ nl ++ line2
       end.
(** The columns for a heading: labels around it are not taken off. *)
Definition heading_room (page : box) (x : dress) : Z := text_room page x 0 + b_total_ltp page.

(** ** Text *)
(** An optional setting by its truth; [dflt] when absent. *)
Definition chosen (s : settings) (k : string) (dflt b : bool) : Prop :=
  match dget (lit k) s with Some v => truth v = b | None => b = dflt end.
(** The text wrapper the settings ask for. *)
Definition wrapper_set (s : settings) (cfg : wcfg) : Prop :=
  (exists n, int_set s "initial_indent" n /\ w_init cfg = spaces n)
  /\ (exists n, int_set s "subsequent_indent" n /\ w_subs cfg = spaces n)
  /\ chosen s "expand_tabs" true (w_expand cfg) /\ chosen s "replace_whitespace" true (w_replace cfg)
  /\ chosen s "fix_sentence_endings" false (w_fixse cfg) /\ chosen s "break_long_words" true (w_blw cfg)
  /\ chosen s "drop_whitespace" true (w_drop cfg) /\ chosen s "break_on_hyphens" true (w_boh cfg)
  /\ (match dget (lit "break_on_hyphens") s with Some (VBool b) => w_boh_true cfg = b | Some _ => w_boh_true cfg = false
      | None => w_boh_true cfg = true end)
  /\ (match dget (lit "tabsize") s with Some v => v = VInt (w_tabsize cfg) | None => w_tabsize cfg = 8 end)
  /\ w_max_lines cfg = None /\ w_placeholder cfg = lit " [...]" /\ w_width cfg = 0.
Definition justification_set (s : settings) (j : string) : Prop :=
  str_set s "justification" (lit j) /\ In j ["none"; "full"; "center"; "left"; "right"]%string.
(** The columns a label takes, by the text of its template. *)
Definition label_columns (t : str) : Z := match t with [] => 0 | w => len w - 2 end.
(** Rows, taken apart where they contain newlines. *)
Definition rows_of (ls : list str) : list str := split_on 10%N (join nl ls).
(** What stands between newlines is laid out separately, in [w] columns. *)
Definition laid_out (j : string) (cfg : wcfg) (w : Z) (c : str) (ls : list str) : Prop :=
  exists parts, Forall2 (fun x y => SetSpec.set_text cfg w (strip x) (lit j) y) (split_on 10%N c) parts
    /\ ls = rows_of parts.
(** The only child of element [i] is code or pre. *)
Definition only_code_in (d : dom) (i : nat) : Prop :=
  exists n k m t, node_at d i = Some n /\ n_children n = [k] /\ is_tagged d k m t
    /\ (t = lit "code" \/ t = lit "pre").

(** ** Links *)
(** What the parser tells the renderer of a link. *)
Definition told (c : ctx) (l : linkctx) (e : linkextra) : Prop := c_link c = Some l /\ c_extra c = Some e.
Definition title_of (e : linkextra) : option str :=
  match le_title e with Some [] => None | x => x end.
Definition image_title (e : option linkextra) : str :=
  match e with Some e => match title_of e with Some t => t | None => lit "Image" end | None => lit "Image" end.
(** What a template is given for something that may be missing. *)
Definition shown (x : option str) : farg := match x with Some y => FStr y | None => FNone end.
Definition shown_number (x : option Z) : farg := match x with Some y => FInt y | None => FNone end.
(** The templates of links. *)
Definition link_templates (s : settings) (plain titled reference : str) : Prop :=
  exists tp rest, dget (lit "templates") s = Some (VDict tp)
    /\ dget (lit "inline") tp = Some (VList (VStr plain :: VStr titled :: rest))
    /\ dget (lit "reference") tp = Some (VStr reference).
Definition image_templates (s : settings) (plain reference : str) : Prop :=
  exists tp, dget (lit "templates") s = Some (VDict tp)
    /\ dget (lit "inline") tp = Some (VStr plain)
    /\ dget (lit "reference") tp = Some (VStr reference).
(** The templates of listed links. *)
Definition listing_templates (s : settings) (plain titled : str) : Prop :=
  exists rest, dget (lit "templates") s = Some (VList (VStr plain :: VStr titled :: rest)).
(** At most [m] characters of the text, and dots when it is longer. *)
Definition cut_to (m : Z) (text : str) : str :=
  firstn (Z.to_nat m) (strip text) ++ (if m <? len text then lit "..." else []).
(** What can be named in the template of a gophermap line. *)
Definition menu_fields (description : str) (ref : Z) (t : glink) : dict farg :=
  [(lit "description", FStr description); (lit "link_reference", FInt ref); (lit "selector", FStr (gl_selector t));
   (lit "type", FStr (gl_type t)); (lit "host", shown (gl_host t)); (lit "port", shown_number (gl_port t))].
(** And in that of a listed link. *)
Definition listing_fields (description : str) (ref : Z) (href : option str) (title : option str) : dict farg :=
  [(lit "description", FStr description); (lit "link_reference", FInt ref); (lit "href", shown href)]
  ++ match title with Some t => [(lit "title", FStr t)] | None => [] end.
End D.
Close Scope Z_scope.
