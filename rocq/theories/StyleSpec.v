(** The page of a document under any rule tables, defined over document trees:
    which rule reaches which element, which settings the element gets, what it
    looks like, and where its links are listed.  It knows nothing of arenas,
    matching functions, sorting, renderer objects or fuel.  The settings of a
    renderer class, boxes, and the layout of one paragraph have properties of
    their own. *)
From Verif Require SetSpec SgrSpec.
From Verif Require Export SettingsSpec JudgeSpec DressSpec.
Open Scope Z_scope.

(** ** The selectors asked *)
(** Closing a document asks, at every place in document order, the selectors of
    the rules in their order; at a link, then those of the rules for links. *)
Definition at_link (z : site) : bool :=
  match z with
  | Spot _ (Tag _ t _ _) _ :: _ => seqb t (lit "a") || seqb t (lit "img")
  | _ => false
  end.
Definition asked_at (g : cfg) (z : site) : list (sel * site) :=
  map (fun s => (sl_tree s, z))
    (flat_map ru_sel (g_rules g) ++ if at_link z then flat_map ru_sel (g_ext_rules g) else []).
Definition asked (g : cfg) (F : list tree) : list (sel * site) := flat_map (asked_at g) (all_places [] [] F).
(** None of them raises. *)
Definition untroubled (g : cfg) (F : list tree) : Prop :=
  forall s z e, In (s, z) (asked g F) -> ~ judged s z (Fails e).
(** The first of them to raise raises [e]. *)
Definition trouble (g : cfg) (F : list tree) (e : exn) : Prop :=
  exists l s z r, asked g F = l ++ (s, z) :: r /\ judged s z (Fails e)
    /\ forall s' z' e', In (s', z') l -> ~ judged s' z' (Fails e').
(** A table whose selectors raise nowhere in the document. *)
Definition quiet_table (F : list tree) (t : table) : Prop :=
  forall k sels r s z e, In (k, (sels, r)) t -> In s sels -> In z (all_places [] [] F) -> ~ judged (sl_tree s) z (Fails e).
(** A table whose settings are dictionaries. *)
Definition table_ok (t : table) : Prop :=
  forall k sels c s, In (k, (sels, RPair c (Some s))) t -> keyed s.

(** ** The cascade *)
(** A group of selectors reaches [z] with the specificity of its most specific
    selector that does. *)
Definition reaches (group : list selector) (z : site) (sp : spec3) : Prop :=
  exists s, In s group /\ judged (sl_tree s) z Yes /\ specificity s = sp
    /\ forall s', In s' group -> judged (sl_tree s') z Yes -> ~ lex_lt sp (specificity s').
Section Cascade.
Context {X : Type}.
(** Among the rules that reach [z] and say [f], the most specific wins, and the
    latest of those equally specific. *)
Definition wins (rules : list (rule rcls)) (z : site) (f : rspec rcls -> option X) (x : X) : Prop :=
  exists k ru sp, nth_error rules k = Some ru /\ reaches (ru_sel ru) z sp /\ f (ru_spec ru) = Some x /\
    forall k' ru' sp', nth_error rules k' = Some ru' -> reaches (ru_sel ru') z sp' -> f (ru_spec ru') <> None ->
      lex_lt sp' sp \/ sp' = sp /\ (k' <= k)%nat.
Definition silent (rules : list (rule rcls)) (z : site) (f : rspec rcls -> option X) : Prop :=
  forall k ru sp, nth_error rules k = Some ru -> reaches (ru_sel ru) z sp -> f (ru_spec ru) = None.
End Cascade.
(** The renderer of an element and the settings the rules give it: those of the
    winning rules; when no rule names a renderer, those of the default. *)
Definition styled (rules : list (rule rcls)) (dflt : rspec rcls) (z : site) (cl : rcls) (over : settings) : Prop :=
  (wins rules z rule_renderer cl
   /\ forall key, match dget key over with
                  | Some v => wins rules z (rule_setting key) v
                  | None => silent rules z (rule_setting key)
                  end)
  \/ (silent rules z rule_renderer
      /\ match dflt with
         | RPlain c => c = Some cl /\ over = []
         | RPair c s => c = Some cl /\ over = match s with Some s => s | None => [] end
         end).
(** The renderer of a listed link; the default must be written with settings. *)
Definition listed_by (g : cfg) (z : site) (cl : rcls) : Prop :=
  wins (g_ext_rules g) z rule_renderer cl
  \/ (silent (g_ext_rules g) z rule_renderer /\ exists s, g_ext_a g = Some (RPair (Some cl) s)).

(** ** The settings of an element *)
(** Numbered items fill their number into the label of their class; the heading
    marks of a markdown heading come from its tag. *)
Definition item_label `{U : Uni} (cl : rcls) (index : nat) (label : str) : Prop :=
  exists t st sp, template_set (class_settings cl) "line_template" t
    /\ int_set (class_settings cl) "start_index" st /\ int_set (class_settings cl) "step" sp
    /\ formats [FInt (st + Z.of_nat index * sp); FStr (lit "{}")] [] t label.
(** The digit [c] of some script stands for [v]. *)
Definition digit_for `{U : Uni} (c v : N) : Prop :=
  ((48 <= c <= 57)%N /\ v = (c - 48)%N) \/ ((128 <= c)%N /\ u_decimal c = Some v).
Definition heading_marks `{U : Uni} (tg : str) (marks : str) : Prop :=
  exists c n v rest, tg = c :: n :: rest /\ digit_for n v /\ marks = copies (N.to_nat v) (lit "#").
(** Settings under, and over, those of the rules. *)
Definition computed `{U : Uni} (cl : rcls) (tg : str) (index : nat) (under above : settings) : Prop :=
  match rc_kind cl with
  | KOrdered => exists label, item_label cl index label /\ under = [(lit "line_template", VStr label)] /\ above = []
  | KMdHeader => exists m, heading_marks tg m /\ under = [] /\ above = [(lit "template", VStr (m ++ lit " {} " ++ m))]
  | _ => under = [] /\ above = []
  end.
Definition settled `{U : Uni} (cl : rcls) (tg : str) (index : nat) (over s : settings) : Prop :=
  exists under above, computed cl tg index under above
    /\ forall key, dget key s = inherited key [above; over; under; class_settings cl].

(** ** Room *)
Definition takes_block (k : kind) : bool :=
  match k with
  | KRenderer | KNon | KInline | KCode | KLink | KImage | KBreak | KAnsi | KOwn _ => false
  | _ => true
  end.
Definition takes_label (k : kind) : bool :=
  match k with KParagraph | KQuote | KItem | KOrdered | KDef => true | _ => false end.
(** The box for what is inside an element: blocks take their frame and label off. *)
Definition room_in (k : kind) (s : settings) (page inner : box) : Prop :=
  if takes_block k then
    exists x label, wears s x
      /\ (let b := dr_border x in
          let l := [VStr (bo_top b); VStr (bo_right b); VStr (bo_bottom b); VStr (bo_left b)] in
          dget (lit "border") s = Some (VList l) \/ dget (lit "border") s = Some (VTuple l))
      /\ (if takes_label k
          then exists t, template_set s "line_template" t /\ label = (match t with [] => None | w => Some w end)
          else label = None)
      /\ inner = child_box page (dr_margin x) (dr_padding x)
           (let b := dr_border x in Sides (len (bo_top b)) (len (bo_right b)) (len (bo_bottom b)) (len (bo_left b))) label
  else inner = page.

Section S.
Context `{U : Uni}.

(** ** What an element looks like *)
(** What the attribute [k] is kept as: class as the list of its words. *)
Definition kept (a : attributes) (k : str) : option aval :=
  match dlast k a with
  | None => None
  | Some None => Some AvNone
  | Some (Some x) => Some (if seqb k (lit "class") then AvList (split_ws x) else AvStr x)
  end.
(** [picture tg a kids pre s page l e content k out]: an element [tg] with
    attributes [a] and children [kids], directly in a pre or not, shown by a
    renderer of kind [k] with settings [s] in the box [page]; [l] and [e] are what
    is known of it as a link. *)
Inductive picture (tg : str) (a : attributes) (kids : list tree) (pre : bool) (s : settings) (page : box) (l : option linkctx) (e : option linkextra)
  (content : str) : kind -> str -> Prop :=
| pi_plain : picture tg a kids pre s page l e content KRenderer content
| pi_nothing : picture tg a kids pre s page l e content KNon []
| pi_inline : forall t caps out, template_set s "template" t -> switched s "capitalized" caps ->
    fills t (cased caps content) out -> picture tg a kids pre s page l e content KInline out
| pi_ansi : forall t caps x out, template_set s "template" t -> switched s "capitalized" caps ->
    fills t (cased caps content) x -> SgrSpec.ansi_shown s x out -> picture tg a kids pre s page l e content KAnsi out
| pi_pre_code : pre = true -> picture tg a kids pre s page l e content KCode content
| pi_code : forall block inline out, pre = false ->
    template_set s "block_template" block -> template_set s "inline_template" inline ->
    fills (if has_char 10%N content then block else inline) content out -> picture tg a kids pre s page l e content KCode out
| pi_break : forall t caps x out, template_set s "template" t -> switched s "capitalized" caps ->
    fills t nl x -> fills t x out -> picture tg a kids pre s page l e content KBreak out
| pi_link : forall l' t caps plain titled reference x out, l = Some l' ->
    template_set s "template" t -> switched s "capitalized" caps -> link_templates s plain titled reference ->
    fills t (cased caps content) x ->
    (if seqb (lc_link_placement l') (lit "inline") then
       exists e', e = Some e' /\
       match title_of e' with
       | Some title => formats [] [(lit "content", FStr (cased caps x)); (lit "href", DressSpec.shown (le_href e')); (lit "title", FStr title)] titled out
       | None => formats [] [(lit "content", FStr (cased caps x)); (lit "href", DressSpec.shown (le_href e'))] plain out
       end
     else formats [] [(lit "content", FStr (cased caps x)); (lit "link_reference", FInt (lc_reference l'))] reference out) ->
    picture tg a kids pre s page l e content KLink out
| pi_image : forall l' caps plain reference out, l = Some l' ->
    switched s "capitalized" caps -> image_templates s plain reference ->
    (if seqb (lc_image_placement l') (lit "inline")
     then exists e', e = Some e' /\ formats [] [(lit "href", DressSpec.shown (le_href e')); (lit "title", FStr (image_title (Some e')))] plain out
     else formats [] [(lit "title", FStr (image_title e)); (lit "link_reference", FInt (lc_reference l'))] reference out) ->
    picture tg a kids pre s page l e content KImage out
| pi_block : forall x out, wears s x -> dressed page x (split_on 10%N content) out -> picture tg a kids pre s page l e content KBlock out
| pi_heading : forall k x h inner out, k = KHeader \/ k = KMdHeader -> wears s x -> heading_set s h ->
    heading h (heading_room page x) content inner -> dressed page x (split_on 10%N inner) out -> picture tg a kids pre s page l e content k out
| pi_paragraph : forall x t j cfg caps skip ls rows out,
    wears s x -> template_set s "line_template" t -> justification_set s j -> wrapper_set s cfg ->
    switched s "capitalized" caps -> switched s "skip_for_code_or_pre" skip -> skip && only_code kids = false ->
    laid_out j cfg (text_room page x (label_columns t)) (cased caps content) ls -> Forall2 (fills t) ls rows ->
    dressed page x (rows_of rows) out -> picture tg a kids pre s page l e content KParagraph out
| pi_code_paragraph : forall x out, wears s x -> switched s "skip_for_code_or_pre" true -> only_code kids = true ->
    dressed page x (split_on 10%N content) out -> picture tg a kids pre s page l e content KParagraph out
| pi_pre : forall x t n rows out, wears s x -> template_set s "line_template" t -> int_set s "indent" n ->
    Forall2 (fun l row => exists y, fills t l y /\ row = spaces n ++ y) (splitlines false content) rows ->
    dressed page x (rows_of rows) out -> picture tg a kids pre s page l e content KPre out
| pi_quote : forall x t rows out, wears s x -> template_set s "line_template" t ->
    Forall2 (fills t) (splitlines false content) rows ->
    dressed page x (rows_of rows) out -> picture tg a kids pre s page l e content KQuote out
| pi_item : forall k x t j cfg caps y first_ rest row out, k = KItem \/ k = KOrdered \/ k = KDef ->
    wears s x -> template_set s "line_template" t -> justification_set s j -> wrapper_set s cfg -> switched s "capitalized" caps ->
    SetSpec.set_text cfg (text_room page x (label_columns t)) (cased caps content) (lit j) y -> split_on 10%N y = first_ :: rest ->
    fills t first_ row -> dressed page x (rows_of (row :: map (fun l => spaces (label_columns t) ++ l) rest)) out ->
    picture tg a kids pre s page l e content k out
| pi_listed_link : forall l' e' x m plain titled inner out, l = Some l' -> e = Some e' -> lc_format l' <> lit "gophermap" ->
    wears s x -> int_set s "max_link_description" m -> 0 <= m -> listing_templates s plain titled ->
    formats [] (listing_fields (cut_to m content) (lc_reference l') (le_href e') (title_of e'))
      (match title_of e' with Some _ => titled | None => plain end) inner ->
    dressed page x (split_on 10%N inner) out -> picture tg a kids pre s page l e content KExtLink out
| pi_menu_link : forall l' e' x m t line, l = Some l' -> e = Some e' -> lc_format l' = lit "gophermap" ->
    wears s x -> int_set s "max_link_description" m -> 0 <= m -> template_set s "gophermap_template" t ->
    formats [] (menu_fields (match le_title e' with Some t => t | None => cut_to m content end) (lc_reference l') (le_gopher e')) t line ->
    picture tg a kids pre s page l e content KExtLink (newlines (sd_top (dr_margin x)) ++ line ++ newlines (sd_bottom (dr_margin x)))
| pi_listed_image : forall l' e' x m plain titled t inner out, l = Some l' -> e = Some e' ->
    wears s x -> int_set s "max_link_description" m -> 0 <= m -> listing_templates s plain titled -> template_set s "gophermap_template" t ->
    (let title := image_title e in
     if seqb (lc_format l') (lit "gophermap") then formats [] (menu_fields (cut_to m title) (lc_reference l') (le_gopher e')) t inner
     else if m <? len title then formats [] (listing_fields (cut_to m title) (lc_reference l') (le_href e') (Some title)) titled inner
     else formats [] (listing_fields (cut_to m title) (lc_reference l') (le_href e') None) plain inner) ->
    dressed page x (split_on 10%N inner) out -> picture tg a kids pre s page l e content KExtImage out
(** The caller's own classes: the method is given the element's name, the
    attributes and settings it asks for, and its boxes; a block is framed. *)
| pi_own : forall o out,
    ow_method o (View tg (map (kept a) (ow_attrs o)) (map (fun k => dget k s) (ow_settings o)) (Some page) None l e) content = Ok out ->
    picture tg a kids pre s page l e content (KOwn o) out
| pi_own_block : forall o x inner out, wears s x ->
    (let room := child_box page (dr_margin x) (dr_padding x)
           (let b := dr_border x in Sides (len (bo_top b)) (len (bo_right b)) (len (bo_bottom b)) (len (bo_left b))) None in
     ow_method o (View tg (map (kept a) (ow_attrs o)) (map (fun k => dget k s) (ow_settings o)) (Some page) (Some room) l e) content = Ok inner) ->
    dressed page x (split_on 10%N inner) out -> picture tg a kids pre s page l e content (KOwnBlock o) out.

(** ** The page *)
Variables (g : cfg) (F : list tree).
Definition is_link_tag (t : str) : bool := is_a t || is_img t.
(** Shown with its target in the text. *)
Definition shown_inline (t : str) : bool := is_link_tag t && seqb (placement g t) (lit "inline").
(** What is known of a link in the text, and when its target is shown. *)
Definition link_context (ref : Z) : linkctx := LinkCtx (g_format g) (g_link g) (g_image g) ref (g_host g) (g_port g).
(** Its number: one more than the numbered links before it.  Nodes are counted in
    document order. *)
Definition reference (i : nat) : Z := 1 + Z.of_nat (length (filter (fun j => Nat.ltb j i) (flat_map (numbered_ids g) F))).
Definition link_details (t : str) (a : attributes) : linkextra :=
  let to := attr (if is_img t then "src" else "href") a in
  LinkExtra to (attr (if is_img t then "alt" else "title") a) (target g to).
Definition listed_at (where_ : string) (z : site) : bool :=
  match z with x :: _ => put g where_ (sp_here x) | [] => false end.
Definition in_pre (up : site) : bool :=
  match up with Spot _ (Tag _ t _ _) _ :: _ => seqb t (lit "pre") | _ => false end.

(** [shows listed z page out]: the text, or the listed link, at [z]. *)
Inductive shows : bool -> site -> box -> str -> Prop :=
| sh_text : forall before i s after up page, shows false (Spot before (Text i s) after :: up) page s
| sh_element : forall before i t a kids after up page cl over s inner parts entries out,
    let z := Spot before (Tag i t a kids) after :: up in
    let links := filter (listed_at "after_block") (inner_spots z) in
    shown_inline t = false ->
    styled (g_rules g) (g_default g) z cl over -> settled cl t (length before) over s -> room_in (rc_kind cl) s page inner ->
    Forall2 (fun y o => shows false y inner o) (inner_spots z) parts ->
    Forall2 (fun y o => shows true y inner o) links entries ->
    picture t a kids (in_pre up) s page (if is_link_tag t then Some (link_context (reference i)) else None) None
      (concat parts ++ (match links with [] => [] | _ => nl end) ++ concat entries) (rc_kind cl) out ->
    shows false z page out
(** A link shown with its target: no settings from rules, its links not listed. *)
| sh_inline : forall before i t a kids after up page cl over s inner parts out,
    let z := Spot before (Tag i t a kids) after :: up in
    shown_inline t = true ->
    styled (g_rules g) (g_default g) z cl over -> settled cl t (length before) [] s -> room_in (rc_kind cl) s page inner ->
    Forall2 (fun y o => shows false y inner o) (inner_spots z) parts ->
    picture t a kids (in_pre up) s page (Some (link_context (reference i))) (Some (link_details t a)) (concat parts) (rc_kind cl) out ->
    shows false z page out
(** A listed link: no settings from rules. *)
| sh_listed : forall before i t a kids after up page cl s inner parts out,
    let z := Spot before (Tag i t a kids) after :: up in
    is_link_tag t = true -> shown_inline t = false ->
    listed_by g z cl -> settled cl t (length before) [] s -> room_in (rc_kind cl) s page inner ->
    Forall2 (fun y o => shows false y inner o) (inner_spots z) parts ->
    picture t a kids (in_pre up) s page (Some (link_context (reference i))) (Some (link_details t a)) (concat parts) (rc_kind cl) out ->
    shows true z page out.

Definition styled_page (out : str) : Prop :=
  exists parts entries,
    let foot := if seqb (g_link g) (lit "footer") then filter (listed_at "footer") (all_places [] [] F) else [] in
    Forall2 (fun z o => shows false z (g_box g) o) (spots [] [] F) parts
    /\ Forall2 (fun z o => shows true z (g_box g) o) foot entries
    /\ out = finished g (concat parts ++ (match foot with [] => [] | _ => nl end) ++ concat entries).
End S.
Close Scope Z_scope.
