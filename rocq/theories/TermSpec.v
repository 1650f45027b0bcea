(** A page on a terminal: which elements pass on the styling of what is inside
    them, and which pages leave nothing switched on. *)
From Verif Require SetSpec SgrSpec.
From Verif Require Export SafeSpec.
Open Scope Z_scope.

Section T.
Context `{U : Uni}.

(** Text without the character that starts a control sequence. *)
Definition clean (x : str) : Prop := ~ In 27%N x.
(** A template that puts text around the text it is given. *)
Definition around (t : str) : Prop :=
  forall x out, fills t x out -> exists a b, clean a /\ clean b /\ out = a ++ x ++ b.
(** Every text in a setting. *)
Fixpoint clean_value (v : val) : Prop :=
  match v with
  | VStr x => clean x
  | VList l | VTuple l => (fix go l := match l with [] => True | v :: r => clean_value v /\ go r end) l
  | VDict d => (fix go d := match d with [] => True | (_, v) :: r => clean_value v /\ go r end) d
  | _ => True
  end.
Definition clean_settings (s : settings) : Prop := forall key v, dget key s = Some v -> clean_value v.
Definition clean_frame (s : settings) : Prop := forall v, dget (lit "border") s = Some v -> clean_value v.
(** A colour there is, or none. *)
Definition real_colour (s : settings) (k : string) : Prop :=
  forall v, dget (lit k) s = Some v -> truth v = true -> exists c, AnsiSpec.colour_value v c.
(** No styled word is cut: words are not broken at all, or the ones with control
    sequences in them fit on a line.  (Control sequences take no columns.) *)
Definition words_fit (s : settings) (page : box) (text : str) : Prop :=
  str_set s "justification" (lit "none")
  \/ forall x t cfg qs, wears s x -> template_set s "line_template" t -> wrapper_set s cfg ->
     let w := text_room page x (label_columns t) in
     w_blw cfg = false
     \/ (SetSpec.text_pieces (SetSpec.widened_to cfg w) text qs ->
         forall q, In q qs -> clean q \/ (vlen q <= w - len (w_init cfg) /\ vlen q <= w - len (w_subs cfg))).
(** [passes k s page content]: a renderer of kind [k] with settings [s] does
    nothing to the control sequences in [content]. *)
Definition passes (k : kind) (s : settings) (page : box) (content : str) : Prop :=
  let fine key := forall t, template_set s key t -> around t in
  match k with
  | KRenderer | KNon => True
  | KInline => fine "template"%string /\ switched s "capitalized" false
  | KAnsi => fine "template"%string /\ switched s "capitalized" false
             /\ real_colour s "foreground_colour" /\ real_colour s "background_colour"
  | KCode => fine "block_template"%string /\ fine "inline_template"%string
  | KBreak => fine "template"%string
  | KBlock => clean_frame s
  | KPre | KQuote => clean_frame s /\ fine "line_template"%string
  | KParagraph => clean_frame s /\ fine "line_template"%string /\ switched s "capitalized" false
                  /\ forall x, In x (split_on 10%N content) -> words_fit s page (strip x)
  | KItem | KOrdered | KDef => clean_frame s /\ fine "line_template"%string /\ switched s "capitalized" false
                  /\ words_fit s page content
  | _ => False
  end.
(** The renderers that add no styling. *)
Definition unstyling (k : kind) : Prop :=
  match k with KAnsi | KOwn _ | KOwnBlock _ => False | _ => True end.

Variables (g : cfg) (F : list tree).
(** What is inside the place [z]: its children, and the links listed after it. *)
Definition contents (listed : bool) (z : site) (inner : box) (content : str) : Prop :=
  exists parts, Forall2 (fun y o => shows g F false y inner o) (inner_spots z) parts
    /\ let links := filter (listed_at g "after_block") (inner_spots z) in
       (content = concat parts
        \/ (listed = false /\ exists entries, Forall2 (fun y o => shows g F true y inner o) links entries
            /\ content = concat parts ++ (match links with [] => [] | _ => nl end) ++ concat entries)).
(** Every element passes the styling on, or there is none inside. *)
Definition tidy_page : Prop :=
  forall listed z page cl s inner content, placed_in g F listed z page -> given g listed z cl s ->
    room_in (rc_kind cl) s page inner -> contents listed z inner content ->
    passes (rc_kind cl) s page content
    \/ (clean content /\ unstyling (rc_kind cl) /\ clean_settings s).
(** That can be seen from what the elements are given.  [steady k s]: with these
    settings the renderer passes everything on; words are not broken. *)
Definition steady (k : kind) (s : settings) : Prop :=
  match k with
  | KParagraph | KItem | KOrdered | KDef =>
      clean_frame s /\ (forall t, template_set s "line_template" t -> around t) /\ switched s "capitalized" false
      /\ (str_set s "justification" (lit "none") \/ exists v, dget (lit "break_long_words") s = Some v /\ truth v = false)
  | _ => forall page content, passes k s page content
  end.
(** Inside an element, at any depth. *)
Inductive inside (z : site) : site -> Prop :=
| in_child : forall y, In y (inner_spots z) -> inside z y
| in_deeper : forall x y, inside z x -> In y (inner_spots x) -> inside z y.
Definition plainly (y : site) : Prop :=
  forall listed cl s, given g listed y cl s -> unstyling (rc_kind cl) /\ clean_settings s.
(** Every element is steady, or neither it nor anything inside it is styled. *)
Definition steady_page : Prop :=
  forall listed z page cl s, placed_in g F listed z page -> given g listed z cl s ->
    steady (rc_kind cl) s \/ (unstyling (rc_kind cl) /\ clean_settings s /\ forall y, inside z y -> plainly y).
(** And from the tables.  The renderers that lay nothing out: *)
Definition flows (k : kind) : Prop :=
  match k with KRenderer | KNon | KInline | KAnsi | KCode | KBreak | KBlock | KPre | KQuote => True | _ => False end.
(** The values that suit them. *)
Definition flow_value (key : str) (v : val) : Prop :=
  (forall k t, In k ["template"; "line_template"; "block_template"; "inline_template"]%string -> key = lit k -> v = VStr t -> around t)
  /\ (key = lit "capitalized" -> truth v = false)
  /\ (forall k, In k ["foreground_colour"; "background_colour"]%string -> key = lit k -> truth v = true -> exists c, AnsiSpec.colour_value v c).
Record tidy_tables : Prop := {
  tt_classes : forall r cl, in_table g r \/ in_list_table g r -> names r cl ->
    clean_settings (class_settings cl)
    /\ (flows (rc_kind cl) -> forall key v, dget key (class_settings cl) = Some v -> flow_value key v)
    /\ match rc_kind cl with
       | KInline | KAnsi => dget (lit "capitalized") (class_settings cl) <> None
       | KOwn _ | KOwnBlock _ => False
       | _ => True
       end;
  tt_rules : forall r key v, in_table g r -> rule_setting key r = Some v -> clean_value v /\ flow_value key v }.
(** Nothing styled is inside a heading, a paragraph, an item, a link or an image. *)
Definition kept_apart : Prop :=
  forall listed z page cl s, placed_in g F listed z page -> given g listed z cl s ->
    flows (rc_kind cl) \/ forall y listed' cl' s', inside z y -> given g listed' y cl' s' -> rc_kind cl' <> KAnsi.
(** The elements whose text is laid out, and those with a class.  [set_apart]: none
    of the latter inside the former. *)
Definition laid_tags : list string := ["h1"; "h2"; "h3"; "h4"; "h5"; "h6"; "p"; "li"; "dt"; "dd"; "a"; "img"]%string.
Definition lays_text (z : site) : Prop := exists before i n a kids after up, In n laid_tags /\ z = Spot before (Tag i (lit n) a kids) after :: up.
Definition marked (z : site) : Prop := exists before i t a kids after up, z = Spot before (Tag i t a kids) after :: up /\ attr "class" a <> None.
Definition set_apart : Prop := forall z y, In z (all_places [] [] F) -> lays_text z -> inside z y -> ~ marked y.
(** Nothing is styled. *)
Definition unstyled_page : Prop :=
  forall z listed cl s, In z (all_places [] [] F) -> given g listed z cl s -> rc_kind cl <> KAnsi.
(** The document is made of plain text. *)
Fixpoint clean_tree (t : tree) : Prop :=
  match t with
  | Text _ s => clean s
  | Tag _ _ a kids => (forall k v, In (k, Some v) a -> clean v)
                      /\ (fix go ts := match ts with [] => True | t :: r => clean_tree t /\ go r end) kids
  end.
Definition clean_page : Prop := Forall clean_tree F.
End T.
(** Changes of case make no control sequences. *)
Definition sane_case `{U : Uni} : Prop := forall c, (128 <= c)%N -> clean (u_upper c) /\ clean (u_lower c).
Close Scope Z_scope.
