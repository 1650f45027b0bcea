(** Tables with which rendering can go wrong in one way only: the places of a
    page, what each of them is given, where text has no room, and which settings
    cannot raise.  The counterpart of TripSpec, which says all that can happen
    under any tables. *)
From Verif Require Export ShapeSpec TripSpec.
Open Scope Z_scope.

Section S.
Context `{U : Uni}.

(** ** Settings that raise nothing *)
(** A template whose fields are all there. *)
Definition fillable (args : list farg) (kws : dict farg) (t : str) : Prop := exists out, formats args kws t out.
(** ... when it is given one text, whatever that is. *)
Definition takes_text (t : str) : Prop := forall x, fillable [FStr x] [] t.
Definition good_templates (k : kind) (v : val) : Prop :=
  match k with
  | KLink => forall d plain titled rest reference, v = VDict d ->
      dget (lit "inline") d = Some (VList (VStr plain :: VStr titled :: rest)) -> dget (lit "reference") d = Some (VStr reference) ->
      (forall c h, fillable [] [(lit "content", FStr c); (lit "href", DressSpec.shown h)] plain)
      /\ (forall c h t, fillable [] [(lit "content", FStr c); (lit "href", DressSpec.shown h); (lit "title", FStr t)] titled)
      /\ (forall c n, fillable [] [(lit "content", FStr c); (lit "link_reference", FInt n)] reference)
  | KImage => forall d plain reference, v = VDict d ->
      dget (lit "inline") d = Some (VStr plain) -> dget (lit "reference") d = Some (VStr reference) ->
      (forall h t, fillable [] [(lit "href", DressSpec.shown h); (lit "title", FStr t)] plain)
      /\ (forall t n, fillable [] [(lit "title", FStr t); (lit "link_reference", FInt n)] reference)
  | KExtLink | KExtImage => forall plain titled rest, v = VList (VStr plain :: VStr titled :: rest) ->
      (forall c n h, fillable [] (listing_fields c n h None) plain)
      /\ (forall c n h t, fillable [] (listing_fields c n h (Some t)) titled)
  | _ => True
  end.
Definition good_value (k : kind) (key : str) (v : val) : Prop :=
  let is := fun names => existsb (fun n => seqb key (lit n)) names in
  if is ["template"; "line_template"; "block_template"; "inline_template"]%string then forall t, v = VStr t -> takes_text t
  else if is ["gophermap_template"]%string then forall t, v = VStr t -> forall c n to, fillable [] (menu_fields c n to) t
  else if is ["templates"]%string then good_templates k v
  else if is ["foreground_colour"; "background_colour"]%string then truth v = true -> forall bg, exists c, SgrSpec.colour_code bg v c
  else if is ["font"]%string then v = VNone
  else True.
(** A class: its settings; the label of numbered items, which is given the number
    and a place for the text; all the effects of ANSI spans; and the method of a
    class written by the caller. *)
Definition good_class (cl : rcls) : Prop :=
  let s := class_settings cl in
  (forall key v, dget key s = Some v -> ~ (rc_kind cl = KOrdered /\ key = lit "line_template") -> good_value (rc_kind cl) key v)
  /\ match rc_kind cl with
     | KOrdered => forall t n, template_set s "line_template" t ->
         exists label, formats [FInt n; FStr (lit "{}")] [] t label /\ takes_text label
     | KAnsi => SgrSpec.effects_set s
         /\ forall key, In key ["normalise"; "font"; "foreground_colour"; "background_colour"]%string -> dget (lit key) s <> None
     | KOwn o | KOwnBlock o => forall v c, exists out, ow_method o v c = Ok out
     | _ => True
     end.
(** Which elements a class is for: links, images and numbered headings; the
    renderers of listed links are for lists only. *)
Definition suits (cl : rcls) (t : str) : Prop :=
  match rc_kind cl with
  | KLink => t = lit "a"
  | KImage => t = lit "img"
  | KMdHeader => exists m, heading_marks t m
  | KExtLink | KExtImage => False
  | _ => True
  end.

Section G.
Variables (g : cfg) (F : list tree).
Definition in_table (r : rspec rcls) : Prop := r = g_default g \/ exists ru, In ru (g_rules g) /\ r = ru_spec ru.
Definition in_list_table (r : rspec rcls) : Prop := g_ext_a g = Some r \/ exists ru, In ru (g_ext_rules g) /\ r = ru_spec ru.
Record good_tables : Prop := {
  (** Elements no rule reaches have a renderer. *)
  gt_default : rule_renderer (g_default g) <> None;
  gt_classes : forall r cl, in_table r -> names r cl ->
    good_class cl /\ forall r' key v, in_table r' -> rule_setting key r' = Some v -> good_value (rc_kind cl) key v;
  gt_any : forall cl t, names (g_default g) cl -> suits cl t;
  gt_suits : forall ru cl sp before i t a kids after up, In ru (g_rules g) -> names (ru_spec ru) cl ->
    reaches (ru_sel ru) (Spot before (Tag i t a kids) after :: up) sp -> suits cl t;
  gt_list_classes : forall r cl, in_list_table r -> names r cl -> good_class cl /\ rc_kind cl <> KMdHeader;
  (** Every link has a renderer for its entry in a list. *)
  gt_listed : forall before i t a kids after up, is_link_tag t = true ->
    ~ silent (g_ext_rules g) (Spot before (Tag i t a kids) after :: up) rule_renderer
    \/ exists cl s, g_ext_a g = Some (RPair (Some cl) s) }.

(** Tables that indent nothing. *)
Definition flush (s : settings) : Prop := forall key n, In key ["initial_indent"; "subsequent_indent"]%string -> int_set s key n -> n <= 0.
Definition flush_tables : Prop :=
  (forall r cl, in_table r \/ in_list_table r -> names r cl -> flush (class_settings cl))
  /\ (forall r key n, in_table r -> In key ["initial_indent"; "subsequent_indent"]%string -> rule_setting (lit key) r = Some (VInt n) -> n <= 0).

(** ** Places *)
(** What the place [z], in the text or in a list of links, is given: a class and
    its settings. *)
Definition given (listed : bool) (z : site) (cl : rcls) (s : settings) : Prop :=
  match z with
  | Spot before (Tag i t a kids) after :: up =>
      if listed then listed_by g z cl /\ settled cl t (length before) [] s
      else exists over, styled (g_rules g) (g_default g) z cl over
             /\ settled cl t (length before) (if shown_inline g t then [] else over) s
  | _ => False
  end.
(** [placed_in listed z page]: [z] is on the page, with the room [page]. *)
Inductive placed_in : bool -> site -> box -> Prop :=
| in_body : forall z, In z (spots [] [] F) -> placed_in false z (g_box g)
| in_foot : forall z, g_link g = lit "footer" -> In z (filter (listed_at g "footer") (all_places [] [] F)) -> placed_in true z (g_box g)
| in_place : forall listed z page cl s inner y, placed_in listed z page -> given listed z cl s ->
    room_in (rc_kind cl) s page inner -> In y (inner_spots z) -> placed_in false y inner
| in_list : forall before i t a kids after up page cl s inner y,
    let z := Spot before (Tag i t a kids) after :: up in
    placed_in false z page -> shown_inline g t = false -> given false z cl s ->
    room_in (rc_kind cl) s page inner -> In y (filter (listed_at g "after_block") (inner_spots z)) -> placed_in true y inner.

(** ** Good for one page *)
(** What the tables give the elements of the page raises nothing. *)
Record good_page : Prop := {
  gp_styled : forall before i t a kids after up, let z := Spot before (Tag i t a kids) after :: up in
    In z (all_places [] [] F) -> ~ unstyled g z;
  gp_classes : forall before i t a kids after up cl over, let z := Spot before (Tag i t a kids) after :: up in
    In z (all_places [] [] F) -> styled (g_rules g) (g_default g) z cl over ->
    good_class cl /\ suits cl t /\ (shown_inline g t = false -> forall key v, dget key over = Some v -> good_value (rc_kind cl) key v);
  gp_listed : forall z, In z (all_places [] [] F) -> at_link z = true -> forall ex, ~ unlisted g z ex;
  gp_list_classes : forall z cl, In z (all_places [] [] F) -> at_link z = true -> listed_by g z cl -> good_class cl /\ rc_kind cl <> KMdHeader }.
(** No text of the page is indented. *)
Definition flush_page : Prop := forall listed z page cl s, placed_in listed z page -> given listed z cl s -> flush s.

(** ** Room *)
(** The elements whose text is laid out in columns. *)
Definition lays_out (k : kind) (s : settings) (z : site) : Prop :=
  match k, z with
  | KParagraph, Spot _ (Tag _ _ _ kids) _ :: _ => exists skip, switched s "skip_for_code_or_pre" skip /\ skip && only_code kids = false
  | (KItem | KOrdered | KDef), _ => True
  | _, _ => False
  end.
(** [columns_for s page w a b]: the columns for text and the indents of its first
    line and the others; text that is not justified needs none. *)
Definition columns_for (s : settings) (page : box) (w a b : Z) : Prop :=
  exists x t j cfg, wears s x /\ template_set s "line_template" t /\ justification_set s j /\ j <> "none"%string /\ wrapper_set s cfg
    /\ w = text_room page x (label_columns t) /\ a = len (w_init cfg) /\ b = len (w_subs cfg).
(** No columns at all: ValueError.  An indent wider than the columns: perhaps no
    end ([EFuel]). *)
Inductive cramped (listed : bool) (z : site) (page : box) : exn -> Prop :=
| cr_none : forall cl s w a b, given listed z cl s -> lays_out (rc_kind cl) s z -> columns_for s page w a b ->
    w <= 0 -> cramped listed z page EValue
| cr_indent : forall cl s w a b, given listed z cl s -> lays_out (rc_kind cl) s z -> columns_for s page w a b ->
    0 < w -> w < a \/ w < b -> cramped listed z page EFuel.
End G.
End S.
Close Scope Z_scope.
