(** Which exception rendering raises: templates that cannot be filled, elements
    without a renderer or with one that cannot be set up, and the first place of
    a page where something of the kind happens.  The counterpart of the looks of
    elements and pages in StyleSpec. *)
From Verif Require Export StyleSpec.
Open Scope Z_scope.

(** ** Templates *)
(** Which exception a template raises: see FormatSpec. *)
Notation misformats := FormatSpec.misformats.
(** [t] cannot be filled with one text. *)
Definition misfills `{U : Uni} (t x : str) (ex : exn) : Prop := misformats [FStr x] [] t ex.
(** The first of a list that goes wrong. *)
Definition first_wrong {A B} (right_ : A -> B -> Prop) (wrong : A -> exn -> Prop) (l : list A) (ex : exn) : Prop :=
  exists xs x rest ys, l = xs ++ x :: rest /\ Forall2 right_ xs ys /\ wrong x ex.

(** ** Classes *)
(** A renderer that cannot be set up: the second character of a markdown
    heading's tag is not a digit, or the label of a numbered item cannot be filled. *)
Definition unsettled `{U : Uni} (cl : rcls) (tg : str) (index : nat) (ex : exn) : Prop :=
  match rc_kind cl with
  | KMdHeader => ((length tg < 2)%nat /\ ex = EIndex)
                 \/ (exists c n rest, tg = c :: n :: rest /\ (forall v, ~ digit_for n v) /\ ex = EValue)
  | KOrdered => exists t st sp, template_set (class_settings cl) "line_template" t
      /\ int_set (class_settings cl) "start_index" st /\ int_set (class_settings cl) "step" sp
      /\ misformats [FInt (st + Z.of_nat index * sp); FStr (lit "{}")] [] t ex
  | _ => False
  end.

Section S.
Context `{U : Uni}.

(** ** Elements *)
(** [trips ... k ex]: an element, given as for [picture], makes a renderer of
    kind [k] raise [ex]. *)
Inductive trips (tg : str) (a : attributes) (kids : list tree) (pre : bool) (s : settings) (page : box) (l : option linkctx) (e : option linkextra)
  (content : str) : kind -> exn -> Prop :=
| tr_inline : forall t caps ex, template_set s "template" t -> switched s "capitalized" caps ->
    misfills t (cased caps content) ex -> trips tg a kids pre s page l e content KInline ex
| tr_ansi_text : forall t caps ex, template_set s "template" t -> switched s "capitalized" caps ->
    misfills t (cased caps content) ex -> trips tg a kids pre s page l e content KAnsi ex
| tr_ansi : forall t caps x ex, template_set s "template" t -> switched s "capitalized" caps ->
    fills t (cased caps content) x -> SgrSpec.ansi_trips s ex -> trips tg a kids pre s page l e content KAnsi ex
| tr_code : forall block inline ex, pre = false ->
    template_set s "block_template" block -> template_set s "inline_template" inline ->
    misfills (if has_char 10%N content then block else inline) content ex -> trips tg a kids pre s page l e content KCode ex
(** A break fills its template twice. *)
| tr_break : forall t caps ex, template_set s "template" t -> switched s "capitalized" caps ->
    misfills t nl ex -> trips tg a kids pre s page l e content KBreak ex
| tr_break_again : forall t caps x ex, template_set s "template" t -> switched s "capitalized" caps ->
    fills t nl x -> misfills t x ex -> trips tg a kids pre s page l e content KBreak ex
(** The renderer of links on what is not a link. *)
| tr_link_not : forall caps, l = None -> switched s "capitalized" caps -> trips tg a kids pre s page l e content KLink EKey
| tr_link_text : forall l' t caps plain titled reference ex, l = Some l' ->
    template_set s "template" t -> switched s "capitalized" caps -> link_templates s plain titled reference ->
    misfills t (cased caps content) ex -> trips tg a kids pre s page l e content KLink ex
| tr_link_target : forall l' t caps plain titled reference x, l = Some l' -> lc_link_placement l' = lit "inline" -> e = None ->
    template_set s "template" t -> switched s "capitalized" caps -> link_templates s plain titled reference ->
    fills t (cased caps content) x -> trips tg a kids pre s page l e content KLink EKey
| tr_link : forall l' t caps plain titled reference x ex, l = Some l' ->
    template_set s "template" t -> switched s "capitalized" caps -> link_templates s plain titled reference ->
    fills t (cased caps content) x ->
    (if seqb (lc_link_placement l') (lit "inline") then
       exists e', e = Some e' /\
       match title_of e' with
       | Some title => misformats [] [(lit "content", FStr (cased caps x)); (lit "href", DressSpec.shown (le_href e')); (lit "title", FStr title)] titled ex
       | None => misformats [] [(lit "content", FStr (cased caps x)); (lit "href", DressSpec.shown (le_href e'))] plain ex
       end
     else misformats [] [(lit "content", FStr (cased caps x)); (lit "link_reference", FInt (lc_reference l'))] reference ex) ->
    trips tg a kids pre s page l e content KLink ex
| tr_image_not : forall caps, l = None -> switched s "capitalized" caps -> trips tg a kids pre s page l e content KImage EKey
| tr_image_target : forall l' caps plain reference, l = Some l' -> lc_image_placement l' = lit "inline" -> e = None ->
    switched s "capitalized" caps -> image_templates s plain reference -> trips tg a kids pre s page l e content KImage EKey
| tr_image : forall l' caps plain reference ex, l = Some l' ->
    switched s "capitalized" caps -> image_templates s plain reference ->
    (if seqb (lc_image_placement l') (lit "inline")
     then exists e', e = Some e' /\ misformats [] [(lit "href", DressSpec.shown (le_href e')); (lit "title", FStr (image_title (Some e')))] plain ex
     else misformats [] [(lit "title", FStr (image_title e)); (lit "link_reference", FInt (lc_reference l'))] reference ex) ->
    trips tg a kids pre s page l e content KImage ex
| tr_heading : forall k x h ex, k = KHeader \/ k = KMdHeader -> wears s x -> heading_set s h ->
    misfills (hs_template h) (spread_by (hs_spread h) (hs_gap h) (cased (hs_caps h) content)) ex -> trips tg a kids pre s page l e content k ex
(** Text that cannot be laid out, or lines that cannot be labelled. *)
| tr_paragraph : forall x t j cfg caps skip ex,
    wears s x -> template_set s "line_template" t -> justification_set s j -> wrapper_set s cfg ->
    switched s "capitalized" caps -> switched s "skip_for_code_or_pre" skip -> skip && only_code kids = false ->
    (let w := text_room page x (label_columns t) in
     first_wrong (fun c y => SetSpec.set_text cfg w (strip c) (lit j) y) (fun c ex => SetSpec.unset cfg w (strip c) (lit j) ex)
       (split_on 10%N (cased caps content)) ex) ->
    trips tg a kids pre s page l e content KParagraph ex
| tr_paragraph_label : forall x t j cfg caps skip ls ex,
    wears s x -> template_set s "line_template" t -> justification_set s j -> wrapper_set s cfg ->
    switched s "capitalized" caps -> switched s "skip_for_code_or_pre" skip -> skip && only_code kids = false ->
    laid_out j cfg (text_room page x (label_columns t)) (cased caps content) ls -> first_wrong (fills t) (misfills t) ls ex ->
    trips tg a kids pre s page l e content KParagraph ex
| tr_pre : forall t n ex, template_set s "line_template" t -> int_set s "indent" n ->
    first_wrong (fills t) (misfills t) (splitlines false content) ex -> trips tg a kids pre s page l e content KPre ex
| tr_quote : forall t ex, template_set s "line_template" t ->
    first_wrong (fills t) (misfills t) (splitlines false content) ex -> trips tg a kids pre s page l e content KQuote ex
| tr_item : forall k x t j cfg caps ex, k = KItem \/ k = KOrdered \/ k = KDef ->
    wears s x -> template_set s "line_template" t -> justification_set s j -> wrapper_set s cfg -> switched s "capitalized" caps ->
    SetSpec.unset cfg (text_room page x (label_columns t)) (cased caps content) (lit j) ex -> trips tg a kids pre s page l e content k ex
| tr_item_label : forall k x t j cfg caps y first_ rest ex, k = KItem \/ k = KOrdered \/ k = KDef ->
    wears s x -> template_set s "line_template" t -> justification_set s j -> wrapper_set s cfg -> switched s "capitalized" caps ->
    SetSpec.set_text cfg (text_room page x (label_columns t)) (cased caps content) (lit j) y -> split_on 10%N y = first_ :: rest ->
    misfills t first_ ex -> trips tg a kids pre s page l e content k ex
(** The renderers of listed links on what is not listed. *)
| tr_listed_not : forall k, k = KExtLink \/ k = KExtImage -> l = None \/ e = None -> trips tg a kids pre s page l e content k EKey
| tr_listed_link : forall l' e' m plain titled ex, l = Some l' -> e = Some e' -> lc_format l' <> lit "gophermap" ->
    int_set s "max_link_description" m -> 0 <= m -> listing_templates s plain titled ->
    misformats [] (listing_fields (cut_to m content) (lc_reference l') (le_href e') (title_of e'))
      (match title_of e' with Some _ => titled | None => plain end) ex ->
    trips tg a kids pre s page l e content KExtLink ex
| tr_menu_link : forall l' e' m t ex, l = Some l' -> e = Some e' -> lc_format l' = lit "gophermap" ->
    int_set s "max_link_description" m -> 0 <= m -> template_set s "gophermap_template" t ->
    misformats [] (menu_fields (match le_title e' with Some t => t | None => cut_to m content end) (lc_reference l') (le_gopher e')) t ex ->
    trips tg a kids pre s page l e content KExtLink ex
| tr_listed_image : forall l' e' m plain titled t ex, l = Some l' -> e = Some e' ->
    int_set s "max_link_description" m -> 0 <= m -> listing_templates s plain titled -> template_set s "gophermap_template" t ->
    (let title := image_title e in
     if seqb (lc_format l') (lit "gophermap") then misformats [] (menu_fields (cut_to m title) (lc_reference l') (le_gopher e')) t ex
     else if m <? len title then misformats [] (listing_fields (cut_to m title) (lc_reference l') (le_href e') (Some title)) titled ex
     else misformats [] (listing_fields (cut_to m title) (lc_reference l') (le_href e') None) plain ex) ->
    trips tg a kids pre s page l e content KExtImage ex
(** The method of a class written by the caller raises. *)
| tr_own : forall o ex,
    ow_method o (View tg (map (kept a) (ow_attrs o)) (map (fun k => dget k s) (ow_settings o)) (Some page) None l e) content = Err ex ->
    trips tg a kids pre s page l e content (KOwn o) ex
| tr_own_block : forall o x ex, wears s x ->
    (let room := child_box page (dr_margin x) (dr_padding x)
           (let b := dr_border x in Sides (len (bo_top b)) (len (bo_right b)) (len (bo_bottom b)) (len (bo_left b))) None in
     ow_method o (View tg (map (kept a) (ow_attrs o)) (map (fun k => dget k s) (ow_settings o)) (Some page) (Some room) l e) content = Err ex) ->
    trips tg a kids pre s page l e content (KOwnBlock o) ex.

(** ** Pages *)
Variables (g : cfg) (F : list tree).
(** No rule with a renderer applies and the default has none. *)
Definition unstyled (z : site) : Prop :=
  silent (g_rules g) z rule_renderer /\ match g_default g with RPlain c | RPair c _ => c = None end.
(** The same among the rules for listed links; a default without settings cannot
    be used. *)
Definition unlisted (z : site) (ex : exn) : Prop :=
  silent (g_ext_rules g) z rule_renderer
  /\ match g_ext_a g with
     | Some (RPlain _) => ex = EAttr
     | Some (RPair None _) => ex = EType
     | _ => False
     end.
(** [breaks listed z page ex]: at [z] or inside it [ex] is raised, and all that is
    shown before is shown. *)
Inductive breaks : bool -> site -> box -> exn -> Prop :=
| br_unstyled : forall before i t a kids after up page,
    let z := Spot before (Tag i t a kids) after :: up in
    unstyled z -> breaks false z page EType
| br_unsettled : forall before i t a kids after up page cl over ex,
    let z := Spot before (Tag i t a kids) after :: up in
    styled (g_rules g) (g_default g) z cl over -> unsettled cl t (length before) ex -> breaks false z page ex
| br_inside : forall before i t a kids after up page cl over s inner ys y rest parts ex,
    let z := Spot before (Tag i t a kids) after :: up in
    styled (g_rules g) (g_default g) z cl over -> settled cl t (length before) (if shown_inline g t then [] else over) s ->
    room_in (rc_kind cl) s page inner ->
    inner_spots z = ys ++ y :: rest -> Forall2 (fun y o => shows g F false y inner o) ys parts ->
    breaks false y inner ex ->
    breaks false z page ex
| br_list : forall before i t a kids after up page cl over s inner parts ys y rest entries ex,
    let z := Spot before (Tag i t a kids) after :: up in
    shown_inline g t = false ->
    styled (g_rules g) (g_default g) z cl over -> settled cl t (length before) over s -> room_in (rc_kind cl) s page inner ->
    Forall2 (fun y o => shows g F false y inner o) (inner_spots z) parts ->
    filter (listed_at g "after_block") (inner_spots z) = ys ++ y :: rest ->
    Forall2 (fun y o => shows g F true y inner o) ys entries ->
    breaks true y inner ex ->
    breaks false z page ex
| br_element : forall before i t a kids after up page cl over s inner parts entries ex,
    let z := Spot before (Tag i t a kids) after :: up in
    let links := filter (listed_at g "after_block") (inner_spots z) in
    shown_inline g t = false ->
    styled (g_rules g) (g_default g) z cl over -> settled cl t (length before) over s -> room_in (rc_kind cl) s page inner ->
    Forall2 (fun y o => shows g F false y inner o) (inner_spots z) parts ->
    Forall2 (fun y o => shows g F true y inner o) links entries ->
    trips t a kids (in_pre up) s page (if is_link_tag t then Some (link_context g (reference g F i)) else None) None
      (concat parts ++ (match links with [] => [] | _ => nl end) ++ concat entries) (rc_kind cl) ex ->
    breaks false z page ex
| br_inline : forall before i t a kids after up page cl over s inner parts ex,
    let z := Spot before (Tag i t a kids) after :: up in
    shown_inline g t = true ->
    styled (g_rules g) (g_default g) z cl over -> settled cl t (length before) [] s -> room_in (rc_kind cl) s page inner ->
    Forall2 (fun y o => shows g F false y inner o) (inner_spots z) parts ->
    trips t a kids (in_pre up) s page (Some (link_context g (reference g F i))) (Some (link_details g t a)) (concat parts) (rc_kind cl) ex ->
    breaks false z page ex
| br_unlisted : forall before i t a kids after up page ex,
    let z := Spot before (Tag i t a kids) after :: up in
    is_link_tag t = true -> shown_inline g t = false -> unlisted z ex -> breaks true z page ex
| br_listed_unsettled : forall before i t a kids after up page cl ex,
    let z := Spot before (Tag i t a kids) after :: up in
    is_link_tag t = true -> shown_inline g t = false ->
    listed_by g z cl -> unsettled cl t (length before) ex -> breaks true z page ex
| br_listed_inside : forall before i t a kids after up page cl s inner ys y rest parts ex,
    let z := Spot before (Tag i t a kids) after :: up in
    is_link_tag t = true -> shown_inline g t = false ->
    listed_by g z cl -> settled cl t (length before) [] s -> room_in (rc_kind cl) s page inner ->
    inner_spots z = ys ++ y :: rest -> Forall2 (fun y o => shows g F false y inner o) ys parts ->
    breaks false y inner ex ->
    breaks true z page ex
| br_listed : forall before i t a kids after up page cl s inner parts ex,
    let z := Spot before (Tag i t a kids) after :: up in
    is_link_tag t = true -> shown_inline g t = false ->
    listed_by g z cl -> settled cl t (length before) [] s -> room_in (rc_kind cl) s page inner ->
    Forall2 (fun y o => shows g F false y inner o) (inner_spots z) parts ->
    trips t a kids (in_pre up) s page (Some (link_context g (reference g F i))) (Some (link_details g t a)) (concat parts) (rc_kind cl) ex ->
    breaks true z page ex.
(** The same for the whole page: in the body, or in the list at its foot. *)
Definition broken_page (ex : exn) : Prop :=
  (exists ys y rest parts, spots [] [] F = ys ++ y :: rest
     /\ Forall2 (fun z o => shows g F false z (g_box g) o) ys parts /\ breaks false y (g_box g) ex)
  \/ (exists ys y rest parts entries, g_link g = lit "footer"
     /\ Forall2 (fun z o => shows g F false z (g_box g) o) (spots [] [] F) parts
     /\ filter (listed_at g "footer") (all_places [] [] F) = ys ++ y :: rest
     /\ Forall2 (fun z o => shows g F true z (g_box g) o) ys entries /\ breaks true y (g_box g) ex).
End S.
Close Scope Z_scope.
