(** Settings of the right shape: for each kind of renderer, which settings it
    reads and what values make sense for them. *)
From Verif Require Export StyleSpec.
Open Scope Z_scope.

(** ** Values *)
(** A template may be any text: what one does is said in FormatSpec. *)
Definition a_template (v : val) : Prop := exists t, v = VStr t.
Definition a_number (v : val) : Prop := exists z, v = VInt z.
Definition a_text (v : val) : Prop := exists x, v = VStr x.
(** Top, right, bottom and left; further numbers are ignored. *)
Definition four_numbers (v : val) : Prop :=
  v = VNone \/ exists t r b l rest, v = VList (VInt t :: VInt r :: VInt b :: VInt l :: rest).
Definition four_texts (v : val) : Prop :=
  exists t r b l, v = VList [VStr t; VStr r; VStr b; VStr l] \/ v = VTuple [VStr t; VStr r; VStr b; VStr l].
(** The first two are templates. *)
Definition two_templates (v : val) : Prop :=
  exists a b rest, v = VList (a :: b :: rest) /\ a_template a /\ a_template b.
Definition a_justification (v : val) : Prop :=
  exists j, v = VStr (lit j) /\ In j ["none"; "full"; "center"; "left"; "right"]%string.
(** For links: [inline] has two templates, [reference] one; for images, one each. *)
Definition templates_for (k : kind) (v : val) : Prop :=
  match k with
  | KLink => exists d a b, v = VDict d /\ dget (lit "inline") d = Some a /\ two_templates a
               /\ dget (lit "reference") d = Some b /\ a_template b
  | KImage => exists d a b, v = VDict d /\ dget (lit "inline") d = Some a /\ a_template a
               /\ dget (lit "reference") d = Some b /\ a_template b
  | KExtLink | KExtImage => two_templates v
  | _ => True
  end.

(** ** Settings *)
(** The settings whose values matter for a renderer of kind [k], beyond truth. *)
Definition shape_of (k : kind) (key : str) (v : val) : Prop :=
  let is := fun names => existsb (fun n => seqb key (lit n)) names in
  if is ["template"; "line_template"; "block_template"; "inline_template"; "gophermap_template"]%string then a_template v
  else if is ["border"]%string then four_texts v
  else if is ["margin"; "padding"]%string then four_numbers v
  else if is ["spread"; "indent"; "initial_indent"; "subsequent_indent"; "tabsize"]%string then a_number v
  else if is ["spread_char"; "underline_char"]%string then a_text v
  else if is ["justification"]%string then a_justification v
  else if is ["max_link_description"]%string then exists z, v = VInt z /\ 0 <= z
  else if is ["templates"]%string then templates_for k v
  else True.
(** The settings a renderer of kind [k] must have. *)
Definition needed (k : kind) : list string :=
  match k with
  | KRenderer | KNon | KOwn _ => []
  | KInline | KAnsi | KBreak => ["template"; "capitalized"]
  | KCode => ["block_template"; "inline_template"]
  | KLink => ["template"; "capitalized"; "templates"]
  | KImage => ["capitalized"; "templates"]
  | KBlock | KOwnBlock _ => ["border"]
  | KHeader | KMdHeader => ["border"; "template"; "capitalized"; "spread"; "spread_char"; "centered";
                            "underlined"; "underline_full"; "underline_char"]
  | KParagraph => ["border"; "line_template"; "justification"; "initial_indent"; "subsequent_indent"; "capitalized";
                   "skip_for_code_or_pre"]
  | KItem | KOrdered | KDef => ["border"; "line_template"; "justification"; "initial_indent"; "subsequent_indent"; "capitalized"]
  | KPre => ["border"; "line_template"; "indent"]
  | KQuote => ["border"; "line_template"]
  | KExtLink | KExtImage => ["border"; "max_link_description"; "templates"; "gophermap_template"]
  end%string.
Definition shaped (k : kind) (s : settings) : Prop :=
  (forall key, In key (needed k) -> dget (lit key) s <> None)
  /\ forall key v, dget key s = Some v -> shape_of k key v.
(** Numbered items have where to begin and by how much to count. *)
Definition class_shaped (cl : rcls) : Prop :=
  let s := class_settings cl in
  shaped (rc_kind cl) s
  /\ (rc_kind cl = KOrdered ->
      (exists v, dget (lit "start_index") s = Some v /\ a_number v) /\ (exists v, dget (lit "step") s = Some v /\ a_number v)).

(** ** Tables *)
(** A rule gives settings of the right shape to renderers of kind [k]. *)
Definition gives_shaped (k : kind) (r : rspec rcls) : Prop :=
  forall key v, rule_setting key r = Some v -> shape_of k key v.
Definition names (r : rspec rcls) (cl : rcls) : Prop := rule_renderer r = Some cl.
(** Every class named has its settings, and the settings of every rule have the
    right shape for every class named. *)
Definition shaped_tables (g : cfg) : Prop :=
  (forall r cl, (r = g_default g \/ exists ru, In ru (g_rules g) /\ r = ru_spec ru) -> names r cl ->
     class_shaped cl
     /\ forall r', (r' = g_default g \/ exists ru, In ru (g_rules g) /\ r' = ru_spec ru) -> gives_shaped (rc_kind cl) r')
  /\ (forall r cl, (g_ext_a g = Some r \/ exists ru, In ru (g_ext_rules g) /\ r = ru_spec ru) -> names r cl -> class_shaped cl).
(** On one page it is enough that the classes used there have their settings, and
    that the settings the rules give an element are right for its class. *)
Definition shaped_page (g : cfg) (F : list tree) : Prop :=
  (forall before i t a kids after up cl over, let z := Spot before (Tag i t a kids) after :: up in
     In z (all_places [] [] F) -> styled (g_rules g) (g_default g) z cl over ->
     class_shaped cl /\ (shown_inline g t = false -> forall key v, dget key over = Some v -> shape_of (rc_kind cl) key v))
  /\ (forall z cl, In z (all_places [] [] F) -> at_link z = true -> listed_by g z cl -> class_shaped cl).
Close Scope Z_scope.
