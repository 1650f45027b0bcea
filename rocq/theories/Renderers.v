(** Renderers: rendering.py:263-1358. *)
From Verif Require Export Format Dom BoxM Justify Ansi.
Open Scope Z_scope.

(** ** Renderer classes *)

(** ** Classes written by the caller *)
(** What the keyword context of a link tells a renderer besides [linkctx]: the
    entries [link_render] adds (_parser.py:213-219). *)
Record linkextra := LinkExtra {
  le_href : option str; le_title : option str; le_gopher : glink }.
(** What a method of a caller's class can read from [self]: the tag's name
    ([self.tag.tag]), those attributes and settings it asks for by name, the box
    it is shown in ([self.context["parent_box"]]), its own box ([self.box], blocks
    only), and the context of a link.  Simplification: such a method is a function
    of these and of the content, may raise, and reads neither the rest of the tree
    nor global state. *)
Record view := View {
  vw_tag : str; vw_attrs : list (option aval); vw_settings : list (option val);
  vw_page : option box; vw_box : option box;
  vw_link : option linkctx; vw_extra : option linkextra }.
Record own := Own {
  ow_attrs : list str; ow_settings : list str; ow_method : view -> str -> res str }.

(** Which [render]/[_inner_render]/... methods a class has.  [KOwn]: a caller's
    subclass of [Renderer] or of another class without a box that overrides
    [render]; [KOwnBlock]: a caller's subclass of [BlockRenderer] that overrides
    [_inner_render] (rendering.py:343-347, 429-433). *)
Inductive kind :=
| KRenderer | KNon | KInline | KCode | KLink | KImage | KBreak | KAnsi
| KBlock | KHeader | KMdHeader | KParagraph | KPre | KExtLink | KExtImage
| KQuote | KItem | KOrdered | KDef
| KOwn (o : own) | KOwnBlock (o : own).

(** A renderer class: its methods and the [settings] dictionaries along its
    MRO, the class itself first, [Renderer] last ([object] has no settings).
    User subclasses that only override settings are [Rcls] values too. *)
Record rcls := Rcls { rc_kind : kind; rc_mro : list settings }.

Definition kv (k : string) (v : val) : str * val := (lit k, v).
Definition vs (s : string) : val := VStr (lit s).
Definition vints (l : list Z) : val := VList (map VInt l).

(** Own settings of each class (rendering.py, line of the class). *)
Definition set_renderer : settings := [].                                   (* 294 *)
Definition set_inline : settings :=                                         (* 364-367 *)
  [kv "template" (vs "{}"); kv "capitalized" (VBool false)].
Definition set_block : settings :=                                          (* 379-383 *)
  [kv "border" (VList [vs ""; vs ""; vs ""; vs ""]);
   kv "margin" (vints [0; 0; 0; 0]); kv "padding" (vints [0; 0; 0; 0])].
Definition set_header : settings :=                                         (* 482-492 *)
  [kv "template" (vs "{}"); kv "capitalized" (VBool false);
   kv "spread" (VInt 0); kv "spread_char" (vs " ");
   kv "centered" (VBool false); kv "underlined" (VBool false);
   kv "underline_char" (vs "="); kv "underline_full" (VBool false);
   kv "margin" (vints [1; 0; 1; 0])].
Definition set_paragraph : settings :=                                      (* 548-558 *)
  [kv "initial_indent" (VInt 0); kv "subsequent_indent" (VInt 0);
   kv "justification" (vs "left"); kv "capitalized" (VBool false);
   kv "fix_sentence_endings" (VBool true); kv "break_long_words" (VBool true);
   kv "skip_for_code_or_pre" (VBool true); kv "margin" (vints [1; 0; 1; 0]);
   kv "line_template" (vs "{}")].
Definition nl : str := [10%N].
Definition set_code : settings :=                                           (* 651-654 *)
  [kv "block_template" (VStr (lit "```" ++ nl ++ lit "{}" ++ nl ++ lit "```" ++ nl));
   kv "inline_template" (vs "`{}`")].
Definition set_pre : settings :=                                            (* 670-674 *)
  [kv "line_template" (vs "{}"); kv "indent" (VInt 4); kv "margin" (vints [1; 0; 1; 0])].
Definition quote_chr : str := [34%N].
Definition set_link : settings :=                                           (* 693-699 *)
  [kv "templates" (VDict
     [kv "reference" (vs "[{content}][{link_reference}]");
      kv "inline" (VList [vs "[{content}]({href})";
        VStr (lit "[{content}]({href} " ++ quote_chr ++ lit "{title}" ++ quote_chr ++ lit ")")])]);
   kv "capitalized" (VBool false)].
Definition tab_chr : str := [9%N].
Definition set_extlink : settings :=                                        (* 728-732, 836-840 *)
  [kv "templates" (VList
     [VStr (nl ++ lit "[{link_reference}] {description}: {href}");
      VStr (nl ++ lit "[{link_reference}] {description}: {href} "
               ++ quote_chr ++ lit "{title}" ++ quote_chr)]);
   kv "gophermap_template"
     (VStr (lit "{type}[{link_reference}] {description}" ++ tab_chr ++ lit "{selector}"
            ++ tab_chr ++ lit "{host}" ++ tab_chr ++ lit "{port}" ++ nl));
   kv "max_link_description" (VInt 10)].
Definition set_image : settings :=                                          (* 801-807 *)
  [kv "templates" (VDict
     [kv "reference" (vs "[{title}][{link_reference}]");
      kv "inline" (vs "![{title}]({href})")]);
   kv "capitalized" (VBool false)].
Definition set_em : settings := [kv "template" (vs "_{}_")].                (* 891-893 *)
Definition set_strong : settings := [kv "template" (vs "**{}**")].          (* 901-903 *)
Definition set_underline : settings := [kv "template" (vs "_{}_")].         (* 911-913 *)
Definition set_strike : settings := [kv "template" (vs "~~{}~~")].          (* 921-923 *)
Definition set_break : settings := [kv "template" (vs "{}")].               (* 933-935 *)
Definition set_quote : settings :=                                          (* 946-949 *)
  [kv "line_template" (vs "> {}"); kv "margin" (vints [1; 0; 1; 0])].
Definition set_list : settings :=                                           (* 991-994, 1099-1102 *)
  [kv "margin" (vints [1; 0; 1; 0]); kv "padding" (vints [0; 0; 0; 0])].
Definition set_item : settings :=                                           (* 998-1007 *)
  [kv "line_template" (vs "* {}"); kv "margin" (vints [1; 0; 0; 0]);
   kv "initial_indent" (VInt 0); kv "subsequent_indent" (VInt 0);
   kv "justification" (vs "left"); kv "capitalized" (VBool false);
   kv "fix_sentence_endings" (VBool true); kv "break_long_words" (VBool true)].
Definition set_ordered : settings :=                                        (* 1074-1078 *)
  [kv "line_template" (vs "{0}. {1}"); kv "start_index" (VInt 1); kv "step" (VInt 1)].
Definition set_term : settings :=                                           (* 1106-1109 *)
  [kv "margin" (vints [2; 0; 0; 0]); kv "padding" (vints [0; 0; 0; 0])].
Definition set_def : settings :=                                            (* 1113-1122 *)
  [kv "line_template" (vs ": {}"); kv "margin" (vints [1; 0; 0; 0]);
   kv "initial_indent" (VInt 0); kv "subsequent_indent" (VInt 0);
   kv "justification" (vs "left"); kv "capitalized" (VBool false);
   kv "fix_sentence_endings" (VBool true); kv "break_long_words" (VBool true)].
Definition set_ansi : settings :=                                           (* 1279-1297 *)
  [kv "foreground_colour" VNone; kv "background_colour" VNone; kv "font" VNone;
   kv "bold" (VBool false); kv "underline" (VBool false); kv "invert" (VBool false);
   kv "italic" (VBool false); kv "faint" (VBool false); kv "slow_blink" (VBool false);
   kv "rapid_blink" (VBool false); kv "conceal" (VBool false);
   kv "crossed_out" (VBool false); kv "fraktur" (VBool false);
   kv "framed" (VBool false); kv "encircled" (VBool false);
   kv "overlined" (VBool false); kv "normalise" (VBool false)].

(** The library's classes with their MROs. *)
Definition Renderer : rcls := Rcls KRenderer [set_renderer].
Definition NonRenderer : rcls := Rcls KNon [[]; set_renderer].
Definition InlineRenderer : rcls := Rcls KInline [set_inline; set_renderer].
Definition BlockRenderer : rcls := Rcls KBlock [set_block; set_renderer].
Definition HeaderRenderer : rcls := Rcls KHeader [set_header; set_block; set_renderer].
Definition MarkdownHeaderRenderer : rcls :=
  Rcls KMdHeader [[]; set_header; set_block; set_renderer].
Definition ParagraphRenderer : rcls := Rcls KParagraph [set_paragraph; set_block; set_renderer].
Definition CodeRenderer : rcls := Rcls KCode [set_code; set_inline; set_renderer].
Definition PreRenderer : rcls := Rcls KPre [set_pre; set_block; set_renderer].
Definition LinkRenderer : rcls := Rcls KLink [set_link; set_inline; set_renderer].
Definition ExtractedLinkRenderer : rcls := Rcls KExtLink [set_extlink; set_block; set_renderer].
Definition ImageRenderer : rcls := Rcls KImage [set_image; set_inline; set_renderer].
Definition ExtractedImageLinkRenderer : rcls :=
  Rcls KExtImage [set_extlink; set_block; set_renderer].
Definition EmRenderer : rcls := Rcls KInline [set_em; set_inline; set_renderer].
Definition StrongRenderer : rcls := Rcls KInline [set_strong; set_inline; set_renderer].
Definition UnderlineRenderer : rcls := Rcls KInline [set_underline; set_inline; set_renderer].
Definition StrikethroughRenderer : rcls := Rcls KInline [set_strike; set_inline; set_renderer].
Definition BreakRenderer : rcls := Rcls KBreak [set_break; set_inline; set_renderer].
Definition BlockQuoteRenderer : rcls := Rcls KQuote [set_quote; set_block; set_renderer].
Definition ListRenderer : rcls := Rcls KBlock [set_list; set_block; set_renderer].
Definition ListItemRenderer : rcls := Rcls KItem [set_item; set_block; set_renderer].
Definition OrderedListItemRenderer : rcls :=
  Rcls KOrdered [set_ordered; set_item; set_block; set_renderer].
Definition DefinitionListRenderer : rcls := Rcls KBlock [set_list; set_block; set_renderer].
Definition DefinitionListTermHeaderRenderer : rcls :=
  Rcls KHeader [set_term; set_header; set_block; set_renderer].
Definition DefinitionListItemRenderer : rcls := Rcls KDef [set_def; set_block; set_renderer].
Definition AnsiEscapeCodeRenderer : rcls := Rcls KAnsi [set_ansi; set_inline; set_renderer].

(** ** Instantiation *)

(** [klass.settings not in all_bases] is membership up to [==]. *)
Definition settings_eqb (a b : settings) : bool := val_eqb (VDict a) (VDict b).

(** The loop of [Renderer.__new__] over the reversed MRO, rendering.py:303-307. *)
Fixpoint all_bases (acc : list settings) (rmro : list settings) : list settings :=
  match rmro with
  | [] => acc
  | s :: r => all_bases (if existsb (settings_eqb s) acc then acc else acc ++ [s]) r
  end.
(** [Renderer.__new__], rendering.py:296-314: the instance's initial settings. *)
Definition class_settings (c : rcls) : settings :=
  fold_left dupdate (all_bases [] (rev (rc_mro c))) [].

(** The renderer's keyword context: [parent_box], [settings], the LinkParser's
    own context, and what [link_render] adds (_parser.py:69-75, 213-219). *)
Record ctx := Ctx {
  c_settings : option settings;
  c_parent_box : option box;
  c_link : option linkctx;
  c_extra : option linkextra }.

(** A renderer object. *)
Record inst := Inst {
  i_kind : kind; i_settings : settings; i_ctx : ctx; i_tag : nat; i_box : option box;
  i_block : bool  (* has a [box] attribute *) }.

Definition is_block (k : kind) : bool :=
  match k with
  | KRenderer | KNon | KInline | KCode | KLink | KImage | KBreak | KAnsi | KOwn _ => false
  | _ => true
  end.
(** Kinds whose [_generate_box] passes [line_template] to Box. *)
Definition has_line_template (k : kind) : bool :=
  match k with KParagraph | KQuote | KItem | KOrdered | KDef => true | _ => false end.

(** [borders[side]] for the four sides, rendering.py:388-389, 435-466.  A string
    setting is a sequence of one-character borders.  Simplification: elements
    that are not strings are a TypeError. *)
Record borders := Borders { bo_top : str; bo_right : str; bo_bottom : str; bo_left : str }.
Definition borders_of_val (v : val) : res borders :=
  let go (l : list str) :=
    match l with
    | t :: r :: b :: lf :: _ => Ok (Borders t r b lf)
    | _ => Err EIndex
    end in
  match v with
  | VList l | VTuple l =>
      let* ss := mapM (fun x => match x with VStr s => Ok s | _ => Err EType end) l in go ss
  | VStr s => go (map (fun c => [c]) s)
  | _ => Err EType
  end.
Definition border_sides (b : borders) : sides :=
  Sides (len (bo_top b)) (len (bo_right b)) (len (bo_bottom b)) (len (bo_left b)).

(** [settings.get('line_template', None)] as Box uses it: [len] of the string
    when truthy. *)
Definition template_of_val (v : option val) : res (option str) :=
  match v with
  | None => Ok None
  | Some x => if truth x
              then match x with VStr s => Ok (Some s) | _ => Err EType end
              else Ok None
  end.

(** [_generate_box], rendering.py:392-413, 561-584 (and the other copies). *)
Definition generate_box (k : kind) (s : settings) (b : borders) (parent : option box)
  : res (option box) :=
  match parent with
  | None => Ok None
  | Some p =>
      let* m := sides_of_val (dget (lit "margin") s) in
      let* pd := sides_of_val (dget (lit "padding") s) in
      let* t := if has_line_template k
                then template_of_val (dget (lit "line_template") s) else Ok None in
      Ok (Some (child_box p m pd (border_sides b) t))
  end.

Section Render.
Context `{U : Uni}.

(** [_get_ordinal], rendering.py:1094-1095: the position among all children of
    the parent, text included. *)
Fixpoint nat_index (i : nat) (l : list nat) : option nat :=
  match l with
  | [] => None
  | x :: r => if Nat.eqb i x then Some O
              else match nat_index i r with Some k => Some (S k) | None => None end
  end.
Definition ordinal (d : dom) (i : nat) (start step : Z) : res Z :=
  match node_at d i with
  | None => Err EAttr
  | Some n =>
      match n_parent n with
      | PNone => Err EAttr
      | p => match nat_index i (children_of d p) with
             | Some k => Ok (Z.of_nat k * step + start)
             | None => Err EValue
             end
      end
  end.

(** [MarkdownHeaderRenderer._adjust_settings], rendering.py:537-539. *)
Definition md_template (d : dom) (i : nat) : res str :=
  match node_at d i with
  | None => Err EAttr
  | Some n =>
      match n_tag n with
      | None => Err EType
      | Some t =>
          match nth_error t 1 with
          | None => Err EIndex
          | Some c =>
              match uni_decimal c with
              | None => Err EValue
              | Some h =>
                  let hashes := srep (lit "#") (Z.of_N h) in
                  Ok (hashes ++ lit " {} " ++ hashes)
              end
          end
      end
  end.

(** [_adjust_settings], rendering.py:333-341. *)
Definition adjust (s : settings) (c : ctx) : settings :=
  match c_settings c with Some l => dupdate s l | None => s end.

(** [Renderer(tag, **context)]: __new__ followed by the __init__ chain
    (rendering.py:296-320, 385-390, 531-539, 1080-1092). *)
Definition instantiate (d : dom) (cl : rcls) (i : nat) (c : ctx) : res inst :=
  let s0 := class_settings cl in
  let k := rc_kind cl in
  let* s1 :=
    match k with
    | KOrdered =>
        let* st := sattr s0 (lit "start_index") in
        let* sp := sattr s0 (lit "step") in
        let* st := want_int st in
        let* sp := want_int sp in
        let* o := ordinal d i st sp in
        let* t := sattr s0 (lit "line_template") in
        let* t := want_str t in
        let* t := format t [FInt o; FStr (lit "{}")] [] in
        Ok (dset (lit "line_template") (VStr t) s0)
    | _ => Ok s0
    end in
  let s2 := adjust s1 c in
  let* s3 :=
    match k with
    | KMdHeader => let* t := md_template d i in Ok (dset (lit "template") (VStr t) s2)
    | _ => Ok s2
    end in
  if is_block k then
    let* bv := sattr s3 (lit "border") in
    let* b := borders_of_val bv in
    let* bx := generate_box k s3 b (c_parent_box c) in
    Ok (Inst k s3 c i bx true)
  else Ok (Inst k s3 c i None false).

(** ** Rendering helpers *)
Definition fmt1 (t : val) (x : str) : res str :=
  let* t := want_str t in format t [FStr x] [].

(** [self.box], an AttributeError on None's attributes. *)
Definition the_box (r : inst) : res box :=
  match i_box r with Some b => Ok b | None => Err EAttr end.

(** [l[i]] for a setting. *)
Definition val_index (v : val) (i : nat) : res val :=
  match v with
  | VList l | VTuple l => match nth_error l i with Some x => Ok x | None => Err EIndex end
  | VStr s => match nth_error s i with Some c => Ok (VStr [c]) | None => Err EIndex end
  | VDict _ => Err EKey
  | _ => Err EType
  end.
(** [v[key]] for a string key. *)
Definition val_key (v : val) (k : str) : res val :=
  match v with
  | VDict d => match dget k d with Some x => Ok x | None => Err EKey end
  | _ => Err EType
  end.

(** Optional context values as arguments of templates. *)
Definition opt_str (o : option str) : farg := match o with Some s => FStr s | None => FNone end.
Definition opt_int (o : option Z) : farg := match o with Some z => FInt z | None => FNone end.

(** [s[:n]] with Python's negative bounds. *)
Definition py_slice_to (n : Z) (s : str) : str :=
  if n <? 0 then slice_to (len s + n) s else slice_to n s.

Definition ctx_link (r : inst) : res linkctx :=
  match c_link (i_ctx r) with Some l => Ok l | None => Err EKey end.
Definition ctx_extra (r : inst) : res linkextra :=
  match c_extra (i_ctx r) with Some l => Ok l | None => Err EKey end.
(** ["title" in self.context and self.context["title"]] *)
Definition ctx_title (r : inst) : option str :=
  match c_extra (i_ctx r) with
  | Some e => match le_title e with Some (c :: t) => Some (c :: t) | _ => None end
  | None => None
  end.

(** ** Inline renderers *)

(** [InlineRenderer.render], rendering.py:369-374. *)
Definition inline_render (s : settings) (content : str) : res str :=
  let* cap := sitem s (lit "capitalized") in
  let* t := sattr s (lit "template") in
  fmt1 t (capitalize_if (truth cap) content).

(** [CodeRenderer.render], rendering.py:656-665.  [pre_parent]: the parent is a
    <pre> tag. *)
Definition pre_parent (d : dom) (i : nat) : bool :=
  match node_at d i with
  | Some n =>
      match n_parent n with
      | PNode p => match node_at d p with
                   | Some pn => match n_tag pn with
                                | Some t => seqb t (lit "pre") | None => false end
                   | None => false
                   end
      | _ => false
      end
  | None => false
  end.
Definition code_render (d : dom) (r : inst) (content : str) : res str :=
  if pre_parent d (i_tag r) then Ok content
  else if has_char 10%N content then
    let* t := sitem (i_settings r) (lit "block_template") in fmt1 t content
  else
    let* t := sitem (i_settings r) (lit "inline_template") in fmt1 t content.

(** [LinkRenderer.render], rendering.py:702-721. *)
Definition link_renderer (r : inst) (content : str) : res str :=
  let s := i_settings r in
  let* cap := sattr s (lit "capitalized") in
  let* lc := ctx_link r in
  let* tpls := sattr s (lit "templates") in
  if seqb (lc_link_placement lc) (lit "inline") then
    match ctx_title r with
    | Some title =>
        let* ts := val_key tpls (lit "inline") in
        let* t := val_index ts 1 in
        let* t := want_str t in
        let* c := inline_render s content in
        let* e := ctx_extra r in
        format t [] [(lit "content", FStr (capitalize_if (truth cap) c));
                     (lit "href", opt_str (le_href e)); (lit "title", FStr title)]
    | None =>
        let* ts := val_key tpls (lit "inline") in
        let* t := val_index ts 0 in
        let* t := want_str t in
        let* c := inline_render s content in
        let* e := ctx_extra r in
        format t [] [(lit "content", FStr (capitalize_if (truth cap) c));
                     (lit "href", opt_str (le_href e))]
    end
  else
    let* t := val_key tpls (lit "reference") in
    let* t := want_str t in
    let* c := inline_render s content in
    format t [] [(lit "content", FStr (capitalize_if (truth cap) c));
                 (lit "link_reference", FInt (lc_reference lc))].

(** [ImageRenderer.render], rendering.py:809-831 (the content is ignored). *)
Definition image_renderer (r : inst) : res str :=
  let s := i_settings r in
  let* _ := sattr s (lit "capitalized") in
  let* lc := ctx_link r in
  let* tpls := sattr s (lit "templates") in
  let title := match ctx_title r with Some t => t | None => lit "Image" end in
  if seqb (lc_image_placement lc) (lit "inline") then
    let* t := val_key tpls (lit "inline") in
    let* t := want_str t in
    let* e := ctx_extra r in
    format t [] [(lit "href", opt_str (le_href e)); (lit "title", FStr title)]
  else
    let* t := val_key tpls (lit "reference") in
    let* t := want_str t in
    format t [] [(lit "title", FStr title); (lit "link_reference", FInt (lc_reference lc))].

(** [BreakRenderer.render], rendering.py:937-942. *)
Definition break_render (s : settings) : res str :=
  let* t := sattr s (lit "template") in
  let* x := inline_render s nl in
  fmt1 t x.

(** ** Block renderers *)

(** [BlockRenderer._outer_render], rendering.py:415-427. *)
Definition outer_render (b : box) (content : str) : str :=
  newlines (sd_top (b_margin b))
  ++ concat (map (fun l => spaces (sd_left (b_margin b)) ++ l) (splitlines true content))
  ++ newlines (sd_bottom (b_margin b)).

(** One content row of [_border_render], rendering.py:441-449. *)
Definition border_row (b : box) (bo : borders) (l : str) : str :=
  bo_left bo ++ spaces (sd_left (b_padding b)) ++ l
  ++ spaces (padded_width b - (sd_left (b_padding b) + len l)) ++ bo_right bo.
(** rendering.py:451-455 *)
Definition vertical_pad (b : box) (bo : borders) : str :=
  bo_left bo ++ spaces (padded_width b) ++ bo_right bo.
(** The rows of a block, rendering.py:435-466. *)
Definition border_rows (b : box) (bo : borders) (content : str) : list str :=
  map (fun c => srep [c] (bordered_width b)) (bo_top bo)
  ++ repeat (vertical_pad b bo) (Z.to_nat (sd_top (b_padding b)))
  ++ map (border_row b bo) (split_on 10%N content)
  ++ repeat (vertical_pad b bo) (Z.to_nat (sd_bottom (b_padding b)))
  ++ map (fun c => srep [c] (bordered_width b)) (bo_bottom bo).
Definition border_render (r : inst) (content : str) : res str :=
  let* b := the_box r in
  let* bv := sattr (i_settings r) (lit "border") in
  let* bo := borders_of_val bv in
  Ok (join nl (border_rows b bo content)).

(** [HeaderRenderer._inner_render], rendering.py:494-521. *)
Definition header_inner (r : inst) (content : str) : res str :=
  let s := i_settings r in
  let* centered := sattr s (lit "centered") in
  let* cap := sattr s (lit "capitalized") in
  let* spv := sattr s (lit "spread") in
  let* sp := want_int spv in
  let* b := the_box r in
  let width := inner_width b in
  let* t := sattr s (lit "template") in
  let content := capitalize_if (truth cap) content in
  let* scv := sattr s (lit "spread_char") in
  let* content :=
    if sp >? 0 then
      match scv with VStr sc => Ok (spread content sc sp) | _ => Err EType end
    else Ok content in
  let* inner := fmt1 t content in
  let cf x := if truth centered then center x width else x in
  let* ul := sitem s (lit "underlined") in
  if truth ul then
    let* uf := sattr s (lit "underline_full") in
    let ulen := if truth uf then width else len inner in
    let* uc := sattr s (lit "underline_char") in
    match uc with
    | VStr u => Ok (cf inner ++ nl ++ cf (srep u ulen))
    | _ => Err EType
    end
  else Ok (cf inner).

(** The textwrap keyword arguments, rendering.py:601-616, 1041-1056, 1156-1171.
    [placeholder] has no effect without max_lines. *)
Definition opt_truth (s : settings) (k : string) (dflt : bool) : bool :=
  match dget (lit k) s with Some v => truth v | None => dflt end.
Definition wrap_cfg (s : settings) : res wcfg :=
  let* iv := sattr s (lit "initial_indent") in
  let* ii := want_int iv in
  let* sv := sattr s (lit "subsequent_indent") in
  let* si := want_int sv in
  let* ts := match dget (lit "tabsize") s with Some v => want_int v | None => Ok 8 end in
  Ok (Wcfg 0 (spaces ii) (spaces si)
        (opt_truth s "expand_tabs" true) (opt_truth s "replace_whitespace" true)
        (opt_truth s "fix_sentence_endings" false) (opt_truth s "break_long_words" true)
        (opt_truth s "drop_whitespace" true)
        (match dget (lit "break_on_hyphens") s with
         | Some (VBool b) => b | Some _ => false | None => true end)
        (opt_truth s "break_on_hyphens" true) ts None (lit " [...]")).

(** [ParagraphRenderer._skip], rendering.py:586-587. *)
Definition para_skip (d : dom) (i : nat) : bool :=
  match node_at d i with
  | Some n =>
      match n_children n with
      | [c] => match node_at d c with
               | Some cn => match n_tag cn with
                            | Some t => smem t [lit "code"; lit "pre"]
                            | None => false end
               | None => false
               end
      | _ => false
      end
  | None => false
  end.

(** [justifications[settings.justification]] *)
Definition just_name (v : val) : res str :=
  match v with VStr s =>
    if smem s (map lit ["none"; "full"; "center"; "left"; "right"]%string) then Ok s else Err EKey
  | VList _ | VDict _ => Err EType
  | _ => Err EKey end.

(** [ParagraphRenderer._inner_render], rendering.py:589-634. *)
Definition paragraph_inner (d : dom) (r : inst) (content : str) : res str :=
  let s := i_settings r in
  let* sk := sattr s (lit "skip_for_code_or_pre") in
  if truth sk && para_skip d (i_tag r) then Ok content
  else
    let* jv := sattr s (lit "justification") in
    let* j := just_name jv in
    let* cap := sattr s (lit "capitalized") in
    let* cfg := wrap_cfg s in
    let* b := the_box r in
    let width := inner_width_excluding_line_template b in
    let inner := capitalize_if (truth cap) content in
    let* justified := mapM (fun chunk => justify j cfg width (strip chunk)) (split_on 10%N inner) in
    let just_split := split_on 10%N (join nl justified) in
    let* t := sattr s (lit "line_template") in
    let* lines := mapM (fmt1 t) just_split in
    Ok (join nl lines).

(** [ListItemRenderer._inner_render], rendering.py:1035-1070, and
    [DefinitionListItemRenderer._inner_render], rendering.py:1150-1185 (identical). *)
Definition item_inner (r : inst) (content : str) : res str :=
  let s := i_settings r in
  let* jv := sattr s (lit "justification") in
  let* j := just_name jv in
  let* cap := sattr s (lit "capitalized") in
  let* cfg := wrap_cfg s in
  let* b := the_box r in
  let width := inner_width_excluding_line_template b in
  let inner := capitalize_if (truth cap) content in
  let* justified := justify j cfg width inner in
  let* t := sattr s (lit "line_template") in
  match split_on 10%N justified with
  | [] => Err EIndex
  | l0 :: rest =>
      let* first := fmt1 t l0 in
      Ok (join nl (first :: map (fun l => spaces (b_ltp b) ++ l) rest))
  end.

(** [PreRenderer._inner_render], rendering.py:676-688. *)
Definition pre_inner (r : inst) (content : str) : res str :=
  let s := i_settings r in
  let* lines := mapM (fun l =>
     let* iv := sattr s (lit "indent") in
     let* ind := want_int iv in
     let* t := sattr s (lit "line_template") in
     let* x := fmt1 t l in Ok (spaces ind ++ x)) (splitlines false content) in
  Ok (join nl lines).

(** [BlockQuoteRenderer._inner_render], rendering.py:977-987. *)
Definition quote_inner (r : inst) (content : str) : res str :=
  let s := i_settings r in
  let* _ := the_box r in
  let* t := sattr s (lit "line_template") in
  let* lines := mapM (fmt1 t) (splitlines false content) in
  Ok (join nl lines).

(** The description truncation, rendering.py:741-745, 852-856. *)
Definition truncate (max : Z) (text : str) : str :=
  py_slice_to max (strip text) ++ (if len text >? max then lit "..." else []).

Definition gophermap_line (s : settings) (desc : str) (lc : linkctx) (g : glink) : res str :=
  let* t := sattr s (lit "gophermap_template") in
  let* t := want_str t in
  format t [] [(lit "description", FStr desc); (lit "link_reference", FInt (lc_reference lc));
               (lit "selector", FStr (gl_selector g)); (lit "type", FStr (gl_type g));
               (lit "host", opt_str (gl_host g)); (lit "port", opt_int (gl_port g))].

(** [ExtractedLinkRenderer._inner_render], rendering.py:734-771. *)
Definition extlink_inner (r : inst) (content : str) : res str :=
  let s := i_settings r in
  let* lc := ctx_link r in
  let* e := ctx_extra r in
  let* mv := sattr s (lit "max_link_description") in
  let* m := want_int mv in
  let content := truncate m content in
  if seqb (lc_format lc) (lit "gophermap") then
    gophermap_line s (match le_title e with Some t => t | None => content end) lc (le_gopher e)
  else
    let* tpls := sattr s (lit "templates") in
    let* t0 := val_index tpls 0 in
    let kws := [(lit "description", FStr content);
                (lit "link_reference", FInt (lc_reference lc));
                (lit "href", opt_str (le_href e))] in
    match ctx_title r with
    | Some title =>
        let* t1 := val_index tpls 1 in
        let* t := want_str t1 in
        format t [] (kws ++ [(lit "title", FStr title)])
    | None =>
        let* t := want_str t0 in
        format t [] kws
    end.

(** [ExtractedImageLinkRenderer._inner_render], rendering.py:842-882. *)
Definition extimage_inner (r : inst) : res str :=
  let s := i_settings r in
  let* lc := ctx_link r in
  let* e := ctx_extra r in
  let title := match ctx_title r with Some t => t | None => lit "Image" end in
  let* mv := sattr s (lit "max_link_description") in
  let* m := want_int mv in
  let trimmed := truncate m title in
  if seqb (lc_format lc) (lit "gophermap") then
    gophermap_line s trimmed lc (le_gopher e)
  else
    let* tpls := sattr s (lit "templates") in
    let* t0 := val_index tpls 0 in
    let kws := [(lit "description", FStr trimmed);
                (lit "link_reference", FInt (lc_reference lc));
                (lit "href", opt_str (le_href e))] in
    if len title >? m then
      let* t1 := val_index tpls 1 in
      let* t := want_str t1 in
      format t [] (kws ++ [(lit "title", FStr title)])
    else
      let* t := want_str t0 in
      format t [] kws.

(** What a caller's method is given: [self] and the content. *)
Definition view_of (d : dom) (r : inst) (o : own) : view :=
  let n := node_at d (i_tag r) in
  View (match n with Some n => match n_tag n with Some t => t | None => [] end | None => [] end)
       (map (fun k => match n with Some n => dget k (n_attrs n) | None => None end) (ow_attrs o))
       (map (fun k => dget k (i_settings r)) (ow_settings o))
       (c_parent_box (i_ctx r)) (i_box r) (c_link (i_ctx r)) (c_extra (i_ctx r)).
Definition own_render (d : dom) (r : inst) (o : own) (content : str) : res str :=
  ow_method o (view_of d r o) content.

(** [_inner_render] of each block class. *)
Definition inner_render (d : dom) (r : inst) (content : str) : res str :=
  match i_kind r with
  | KHeader | KMdHeader => header_inner r content
  | KParagraph => paragraph_inner d r content
  | KPre => pre_inner r content
  | KExtLink => extlink_inner r content
  | KExtImage => extimage_inner r
  | KQuote => quote_inner r content
  | KItem | KOrdered | KDef => item_inner r content
  | KOwnBlock o => own_render d r o content
  | _ => Ok content
  end.

(** [BlockRenderer.render], rendering.py:470-477. *)
Definition block_render (d : dom) (r : inst) (content : str) : res str :=
  let* inner := inner_render d r content in
  let* bordered := border_render r inner in
  let* b := the_box r in
  Ok (outer_render b bordered).

(** [ExtractedLinkRenderer.render] and its [_outer_render],
    rendering.py:773-796. *)
Definition extlink_render (d : dom) (r : inst) (content : str) : res str :=
  let* lc := ctx_link r in
  if seqb (lc_format lc) (lit "gophermap") then
    let* inner := extlink_inner r content in
    let* b := the_box r in
    Ok (newlines (sd_top (b_margin b)) ++ inner ++ newlines (sd_bottom (b_margin b)))
  else block_render d r content.

(** [render_inst.render(content)] *)
Definition render_inst (d : dom) (r : inst) (content : str) : res str :=
  match i_kind r with
  | KRenderer => Ok content                                   (* 343-347 *)
  | KNon => Ok []                                             (* 355-359 *)
  | KInline => inline_render (i_settings r) content
  | KCode => code_render d r content
  | KLink => link_renderer r content
  | KImage => image_renderer r
  | KBreak => break_render (i_settings r)
  | KAnsi => let* inner := inline_render (i_settings r) content in
             ansi_render (i_settings r) inner
  | KExtLink => extlink_render d r content
  | KOwn o => own_render d r o content
  | _ => block_render d r content
  end.
End Render.
Close Scope Z_scope.
