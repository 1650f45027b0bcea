(** The HTML consumer: _parser.py:27-300 (rendering of the tree) and
    347-634 (GopherHTMLParser).  Here a document is the list of calls the
    tokenizer makes to the handlers; the tokenizer is in Tokenizer.v. *)
From Verif Require Export Select Renderers.
Open Scope Z_scope.

(** ** Assigned renderers *)
(** [renderer], [renderer_settings], [link_renderer], [link_renderer_settings]
    of a node.  [a_lsettings = None]: the attribute was never set. *)
Record asg := Asg {
  a_rend : option rcls; a_settings : option settings;
  a_lrend : option rcls; a_lsettings : option (option settings) }.
(** Initial values, _parser.py:41-42, 118. *)
Definition asg0 : asg := Asg None None None None.

Definition asgs := list (nat * asg).
Fixpoint asg_get (i : nat) (l : asgs) : asg :=
  match l with
  | [] => asg0
  | (j, a) :: r => if Nat.eqb i j then a else asg_get i r
  end.

(** [TagParser.assign_renderer], _parser.py:61-66: [renderer[0]] of a class (or
    None) raises TypeError, leaving the settings as they were. *)
Definition assign_main (r : rspec rcls) (a : asg) : asg :=
  match r with
  | RPair c s => Asg c s (a_lrend a) (a_lsettings a)
  | RPlain c => Asg c (a_settings a) (a_lrend a) (a_lsettings a)
  end.
(** Second half of [LinkParser.assign_renderer], _parser.py:194-198. *)
Definition assign_link (r : rspec rcls) (a : asg) : asg :=
  match r with
  | RPair c s => Asg (a_rend a) (a_settings a) c (Some s)
  | RPlain c => Asg (a_rend a) (a_settings a) c (a_lsettings a)
  end.

(** ** Rendering of the tree *)
Section Tree.
Context `{U : Uni}.

(** Fuel-indexed rendering; [force] distinguishes [link_render] (true) from
    [render].  _parser.py:68-100, 203-248, 275-276.  In [link_render] the
    settings are added to the context only after the renderer was built
    (lines 229-231), so they never reach it. *)
Fixpoint render_node (fuel : nat) (d : dom) (sg : asgs) (force : bool) (i : nat) (bx : box)
  {struct fuel} : res str :=
  match fuel with
  | O => Err EFuel
  | S f =>
      match node_at d i with
      | None => Err EIndex
      | Some n =>
          match n_data n with
          | Some t => Ok t
          | None =>
              let a := asg_get i sg in
              let placement (lk : link) :=
                match n_tag n with
                | Some t => if seqb t (lit "img") then lc_image_placement (lk_ctx lk)
                            else lc_link_placement (lk_ctx lk)
                | None => lc_link_placement (lk_ctx lk)
                end in
              let as_link :=
                match n_link n with
                | Some lk => force || seqb (placement lk) (lit "inline")
                | None => false
                end in
              match (if as_link then n_link n else None) with
              | Some lk =>
                  (* link_render *)
                  let* cl :=
                    if seqb (placement lk) (lit "inline")
                    then match a_rend a with Some c => Ok c | None => Err EType end
                    else match a_lsettings a with
                         | None => Err EAttr
                         | Some _ => match a_lrend a with Some c => Ok c | None => Err EType end
                         end in
                  let c := Ctx None (Some bx) (Some (lk_ctx lk))
                               (Some (LinkExtra (lk_href lk) (lk_title lk) (lk_gopher lk))) in
                  let* r := instantiate d cl i c in
                  let* bx' := if i_block r then the_box r else Ok bx in
                  let* parts := mapM (fun j => render_node f d sg false j bx') (n_children n) in
                  render_inst d r (concat parts)
              | None =>
                  (* TagParser.render *)
                  let c := Ctx (a_settings a) (Some bx)
                               (match n_link n with Some lk => Some (lk_ctx lk) | None => None end)
                               None in
                  let* cl := match a_rend a with Some c => Ok c | None => Err EType end in
                  let* r := instantiate d cl i c in
                  let* bx' := if i_block r then the_box r else Ok bx in
                  let* parts := mapM (fun j => render_node f d sg false j bx') (n_children n) in
                  let* links := mapM (fun j => render_node f d sg true j bx') (n_pending n) in
                  let sep := match n_pending n with [] => [] | _ => nl end in
                  render_inst d r (concat parts ++ sep ++ concat links)
              end
          end
      end
  end.
End Tree.

(** ** Configuration: GopherHTMLParser.__init__, _parser.py:347-456 *)

(** A renderer table: CSS text -> (selector list [cssselect.parse] gives, spec). *)
Definition table := dict (list selector * rspec rcls).

Definition el (t : string) : sel := SElement (Some (lit t)).
Definition sl (s : sel) : selector := Selector s false.
Definition chi (a b : sel) : sel := SCombined a (lit ">") b.
Definition margin_only (l : list Z) : rspec rcls := RPair None (Some [kv "margin" (vints l)]).
Definition row (k : string) (c : rcls) : str * (list selector * rspec rcls) :=
  (lit k, ([sl (el k)], RPlain (Some c))).

(** _parser.py:383-442 *)
Definition default_table : table :=
  [ (lit "", ([], RPlain (Some Renderer)));
    row "h1" MarkdownHeaderRenderer; row "h2" MarkdownHeaderRenderer;
    row "h3" MarkdownHeaderRenderer; row "h4" MarkdownHeaderRenderer;
    row "h5" MarkdownHeaderRenderer; row "h6" MarkdownHeaderRenderer;
    row "p" ParagraphRenderer; row "br" BreakRenderer;
    row "blockquote" BlockQuoteRenderer;
    (lit "blockquote > p:first-child",
      ([sl (chi (el "blockquote") (SPseudo (el "p") (lit "first-child")))],
       margin_only [0; 0; 1; 0]));
    (lit "blockquote > p:last-child",
      ([sl (chi (el "blockquote") (SPseudo (el "p") (lit "last-child")))],
       margin_only [1; 0; 0; 0]));
    (lit "blockquote > p:last-child:first-child",
      ([sl (chi (el "blockquote")
              (SPseudo (SPseudo (el "p") (lit "last-child")) (lit "first-child")))],
       margin_only [0; 0; 0; 0]));
    row "pre" PreRenderer; row "div" BlockRenderer;
    row "ul" ListRenderer; row "ol" ListRenderer; row "li" ListItemRenderer;
    (lit "ol > li", ([sl (chi (el "ol") (el "li"))], RPlain (Some OrderedListItemRenderer)));
    (lit "li:first-child", ([sl (SPseudo (el "li") (lit "first-child"))],
       margin_only [0; 0; 0; 0]));
    (lit "li > ol > li:first-child, li > ul > li:first-child",
      ([sl (chi (chi (el "li") (el "ol")) (SPseudo (el "li") (lit "first-child")));
        sl (chi (chi (el "li") (el "ul")) (SPseudo (el "li") (lit "first-child")))],
       margin_only [1; 0; 0; 0]));
    row "dl" DefinitionListRenderer; row "dt" DefinitionListTermHeaderRenderer;
    row "dd" DefinitionListItemRenderer;
    (lit "dt:first-child", ([sl (SPseudo (el "dt") (lit "first-child"))],
       margin_only [0; 0; 0; 0]));
    row "code" CodeRenderer; row "a" LinkRenderer; row "img" ImageRenderer;
    row "em" EmRenderer; row "strong" StrongRenderer; row "i" EmRenderer;
    row "b" StrongRenderer; row "u" UnderlineRenderer; row "ins" UnderlineRenderer;
    row "s" StrikethroughRenderer; row "del" StrikethroughRenderer;
    row "span" InlineRenderer ].
(** _parser.py:444-447 *)
Definition default_ext_table : table :=
  [row "a" ExtractedLinkRenderer; row "img" ExtractedImageLinkRenderer].

(** Constructor arguments with their defaults, _parser.py:350-359. *)
Record options := Options {
  o_width : Z; o_box : option box; o_renderers : table; o_ext : table;
  o_format : str; o_link : str; o_image : str; o_host : str; o_port : Z; o_optimise : bool }.
Definition default_options : options :=
  Options 67 None [] [] (lit "text") (lit "footer") (lit "inline") [] 70 true.

Record cfg := Cfg {
  g_box : box; g_format : str; g_link : str; g_image : str; g_host : str; g_port : Z;
  g_rules : list (rule rcls); g_default : rspec rcls;
  g_ext_rules : list (rule rcls); g_ext_a : option (rspec rcls); g_optimise : bool }.

Definition rules_of (t : table) : list (rule rcls) :=
  map (fun p => Rule (fst (snd p)) (snd (snd p))) t.

(** _parser.py:361-456.  [width] is ignored (lines 370-377). *)
Definition construct (o : options) : res cfg :=
  if seqb (o_format o) (lit "gophermap") && seqb (o_link o) (lit "inline") then Err EValue
  else if seqb (o_format o) (lit "gophermap") && seqb (o_host o) [] then Err EValue
  else
    let bx := match o_box o with
              | Some b => b | None => root_box 67 sides0 sides0 sides0 None end in
    let t := dupdate default_table (o_renderers o) in
    let e := dupdate default_ext_table (o_ext o) in
    match dget [] t with
    | None => Err EKey
    | Some (_, dflt) =>
        Ok (Cfg bx (o_format o) (o_link o) (o_image o) (o_host o) (o_port o)
              (rules_of (ddel [] t)) dflt (rules_of e)
              (match dget (lit "a") e with Some (_, r) => Some r | None => None end)
              (o_optimise o))
    end.

(** ** Parser state *)
Record pstate := PState {
  p_dom : dom;
  p_stack : list nat;        (* _tag_stack, top first *)
  p_next : Z;                (* _next_link_number *)
  p_footer : list nat;       (* _footer_pending_links *)
  p_in_pre : bool;
  p_chunks : list str;       (* _parsed *)
  p_out : str;               (* parsed *)
  p_asg : asgs }.
Definition pstate0 : pstate := PState (Dom [] []) [] 1 [] false [] [] [].

(** [_get_top], _parser.py:458-464. *)
Definition get_top (s : pstate) : option nat :=
  match p_stack s with
  | [] => None
  | i :: _ => match node_at (p_dom s) i with
              | Some n => if n_closed n then None else Some i
              | None => None
              end
  end.

Fixpoint upd {A} (l : list A) (i : nat) (f : A -> A) : list A :=
  match l, i with
  | [], _ => []
  | a :: r, O => f a :: r
  | a :: r, S j => a :: upd r j f
  end.
Definition add_child (c : nat) (n : node) : node :=
  Node (n_tag n) (n_parent n) (n_children n ++ [c]) (n_closed n) (n_attrs n) (n_classes n)
       (n_id n) (n_data n) (n_link n) (n_pending n).
Definition add_pending (c : nat) (n : node) : node :=
  Node (n_tag n) (n_parent n) (n_children n) (n_closed n) (n_attrs n) (n_classes n)
       (n_id n) (n_data n) (n_link n) (n_pending n ++ [c]).
Definition set_closed (n : node) : node :=
  Node (n_tag n) (n_parent n) (n_children n) true (n_attrs n) (n_classes n)
       (n_id n) (n_data n) (n_link n) (n_pending n).

(** Adding node [n] (whose id is the arena's length) under [p]. *)
Definition append_node (d : dom) (p : pref) (n : node) : dom :=
  let i := length (d_nodes d) in
  match p with
  | PNode j => Dom (upd (d_nodes d) j (add_child i) ++ [n]) (d_root d)
  | _ => Dom (d_nodes d ++ [n]) (d_root d ++ [i])
  end.

(** [dict(attrs)] *)
Fixpoint dict_of (l : list (str * option str)) (acc : dict (option str)) : dict (option str) :=
  match l with
  | [] => acc
  | (k, v) :: r => dict_of r (dset k v acc)
  end.

(** ** Handlers *)
Section Handlers.
Context `{U : Uni}.

(** [TagParser.__init__], _parser.py:29-56: attributes, classes, id. *)
Definition tag_attrs (l : list (str * option str))
  : res (dict aval * list str * option str) :=
  let d := dict_of l [] in
  let* classes :=
    match dget (lit "class") d with
    | None => Ok None
    | Some None => Err EAttr
    | Some (Some s) => Ok (Some (split_ws s))
    end in
  let av := map (fun p => (fst p,
    if seqb (fst p) (lit "class")
    then match classes with Some c => AvList c | None => AvNone end
    else match snd p with Some s => AvStr s | None => AvNone end)) d in
  Ok (av, match classes with Some c => c | None => [] end,
      match dget (lit "id") d with Some (Some s) => Some s | _ => None end).

Definition attr_str (k : string) (l : list (str * option str)) : option str :=
  match dget (lit k) (dict_of l []) with Some v => v | None => None end.

Definition is_void (t : str) : bool := seqb t (lit "br") || seqb t (lit "img").
Definition is_link (t : str) : bool := seqb t (lit "a") || seqb t (lit "img").

Definition placement_of (g : cfg) (t : str) : str :=
  if seqb t (lit "img") then g_image g else g_link g.

(** [LinkParser.__init__], _parser.py:105-128. *)
Definition make_link (g : cfg) (ref : Z) (t : str) (attrs : list (str * option str))
  : res link :=
  let img := seqb t (lit "img") in
  let href := if img then attr_str "src" attrs else attr_str "href" attrs in
  let title := if img then attr_str "alt" attrs else attr_str "title" attrs in
  let* gl := parse_href href (g_host g) (g_port g) in
  Ok (Link title href gl
        (LinkCtx (g_format g) (g_link g) (g_image g) ref (g_host g) (g_port g))).

(** [handle_starttag], _parser.py:482-517. *)
Definition handle_starttag (g : cfg) (t : str) (attrs : list (str * option str)) (s : pstate)
  : res pstate :=
  let parent := match get_top s with Some i => PNode i | None => PRoot end in
  let in_pre := if seqb t (lit "pre") then true else p_in_pre s in
  let id := length (d_nodes (p_dom s)) in
  let* (av, cls, nid) := tag_attrs attrs in
  let* lk := if is_link t
             then let* l := make_link g (p_next s) t attrs in Ok (Some l) else Ok None in
  let n := Node (Some t) parent [] (is_void t) av cls nid None lk [] in
  let* (d, footer, next) :=
    if is_link t then
      let pl := placement_of g t in
      let next := if seqb pl (lit "inline") then p_next s else p_next s + 1 in
      if seqb pl (lit "footer") then Ok (p_dom s, p_footer s ++ [id], next)
      else if seqb pl (lit "after_block") then
        match parent with
        | PNode j => Ok (Dom (upd (d_nodes (p_dom s)) j (add_pending id)) (d_root (p_dom s)),
                         p_footer s, next)
        | _ => Err EAttr
        end
      else Ok (p_dom s, p_footer s, next)
    else Ok (p_dom s, p_footer s, p_next s) in
  let stack := if is_void t then p_stack s else id :: p_stack s in
  Ok (PState (append_node d parent n) stack next footer in_pre (p_chunks s) (p_out s) (p_asg s)).

(** [handle_endtag], _parser.py:519-538 (the line printed is in Warn.v). *)
Definition handle_endtag (t : str) (s : pstate) : pstate :=
  if is_void t then s
  else
    let in_pre := if seqb t (lit "pre") then false else p_in_pre s in
    let keep := PState (p_dom s) (p_stack s) (p_next s) (p_footer s) in_pre
                       (p_chunks s) (p_out s) (p_asg s) in
    match get_top s with
    | None => keep
    | Some i =>
        match node_at (p_dom s) i with
        | Some n =>
            match n_tag n with
            | Some t' =>
                if seqb t' t then
                  PState (Dom (upd (d_nodes (p_dom s)) i set_closed) (d_root (p_dom s)))
                         (tl (p_stack s)) (p_next s) (p_footer s) in_pre
                         (p_chunks s) (p_out s) (p_asg s)
                else keep
            | None => keep
            end
        | None => keep
        end
    end.

(** The whitespace treatment of [DataParser], _parser.py:254-271. *)
Definition blank_char (c : N) : bool := (c =? 32)%N || (c =? 9)%N.
(** [re.sub('[ \t]+', ' ', data)]; [prev]: the previous character was blank. *)
Fixpoint squeeze (prev : bool) (s : str) : str :=
  match s with
  | [] => []
  | c :: r => if blank_char c then (if prev then squeeze true r else 32%N :: squeeze true r)
              else c :: squeeze false r
  end.
Fixpoint strip_rest (l : list str) : list str :=
  match l with
  | [] => []
  | [x] => [lstrip x]
  | x :: r => strip x :: strip_rest r
  end.
Definition collapse (data : str) : str :=
  let parts := match split_on 10%N data with
               | x :: (y :: r) => rstrip x :: strip_rest (y :: r)
               | l => l
               end in
  squeeze false (join (lit " ") parts).
Definition data_text (in_pre : bool) (data : str) : str :=
  if in_pre then data else collapse data.

(** [handle_data], _parser.py:540-556. *)
Definition handle_data (data : str) (s : pstate) : pstate :=
  let parent := match get_top s with Some i => PNode i | None => PNone end in
  let n := Node None parent [] true [] [] None (Some (data_text (p_in_pre s) data)) None [] in
  PState (append_node (p_dom s) parent n) (p_stack s) (p_next s) (p_footer s) (p_in_pre s)
         (p_chunks s) (p_out s) (p_asg s).

(** ** close *)

(** [_get_renderer], _parser.py:466-470. *)
Definition get_renderer (g : cfg) (d : dom) (i : nat) : res (rspec rcls) :=
  let* r := get_for_tag d (ONode i) (g_rules g) in
  Ok (match r with Some (c, s) => RPair (Some c) (Some s) | None => g_default g end).
(** [_get_extracted_link_renderer], _parser.py:472-480. *)
Definition get_ext_renderer (g : cfg) (d : dom) (i : nat) : res (rspec rcls) :=
  let* r := (match get_for_tag d (ONode i) (g_ext_rules g) with
             | Err EKey => Ok None | x => x end) in
  match r with
  | Some (c, s) => Ok (RPair (Some c) (Some s))
  | None => match g_ext_a g with Some r => Ok r | None => Err EKey end
  end.

(** One step of [_assign_renderers], _parser.py:568-577. *)
Definition assign_one (g : cfg) (d : dom) (sg : asgs) (i : nat) : res asg :=
  let* r := get_renderer g d i in
  let a := asg_get i sg in
  match node_at d i with
  | Some n =>
      match n_tag n with
      | Some t =>
          if is_link t then
            let* e := get_ext_renderer g d i in
            Ok (assign_link e (assign_main r a))
          else Ok (assign_main r a)
      | None => Ok (assign_main r a)
      end
  | None => Err EIndex
  end.
(** [_assign_renderers(self.tree.children)].  Every node of the arena is
    reachable from the root, and what is assigned to one node does not depend on
    the others, so the recursion over the tree is a pass over the arena. *)
Fixpoint assign_all (g : cfg) (d : dom) (sg : asgs) (ids : list nat) : res asgs :=
  match ids with
  | [] => Ok []
  | i :: r =>
      let* a := assign_one g d sg i in
      let* rest := assign_all g d sg r in
      Ok ((i, a) :: rest)
  end.

(** [_indent_body], _parser.py:558-565. *)
Definition indent_body (left : Z) (body : str) : str :=
  concat (map (fun l => spaces left ++ l) (splitlines true body)).
(** [_optimise_parsed], _parser.py:581-588. *)
Definition optimise (s : str) : str := join nl (map rstrip (split_on 10%N s)).

(** Rendering fuel: the height of the tree is below the number of nodes. *)
Definition render_fuel (d : dom) : nat := S (length (d_nodes d)).

(** [close], _parser.py:590-625.  Popping the stack adds nothing: no pushed tag
    has parent None. *)
Definition close (g : cfg) (s : pstate) : res pstate :=
  let d := p_dom s in
  let* sg := assign_all g d (p_asg s) (seq 0 (length (d_nodes d))) in
  let f := render_fuel d in
  let* body := mapM (fun i => render_node f d sg false i (g_box g)) (d_root d) in
  let* foot :=
    if seqb (g_link g) (lit "footer") then
      match p_footer s with
      | [] => Ok []
      | l => let* links := mapM (fun i => render_node f d sg true i (g_box g)) l in
             Ok (nl :: links)
      end
    else Ok [] in
  let chunks := p_chunks s ++ body ++ foot in
  let indented := indent_body (sd_left (b_margin (g_box g))) (concat chunks) in
  let out := newlines (sd_top (b_margin (g_box g))) ++ indented
             ++ newlines (sd_bottom (b_margin (g_box g))) in
  let out := if g_optimise g then optimise out else out in
  Ok (PState d [] (p_next s) (p_footer s) (p_in_pre s) chunks out sg).

(** [reset], _parser.py:627-634: [_in_pre] is kept. *)
Definition reset (s : pstate) : pstate :=
  PState (Dom [] []) [] 1 [] (p_in_pre s) [] [] [].

(** ** Histories *)
Inductive op :=
| OStart (t : str) (attrs : list (str * option str))
| OEnd (t : str)
| OData (s : str)
| OClose
| OReset.

Definition step (g : cfg) (o : op) (s : pstate) : res pstate :=
  match o with
  | OStart t a => handle_starttag g t a s
  | OEnd t => Ok (handle_endtag t s)
  | OData x => Ok (handle_data x s)
  | OClose => close g s
  | OReset => Ok (reset s)
  end.
Fixpoint run (g : cfg) (ops : list op) (s : pstate) : res pstate :=
  match ops with
  | [] => Ok s
  | o :: r => let* s' := step g o s in run g r s'
  end.

(** Construct a parser, feed it, close it, read [parsed]. *)
Definition render_doc (o : options) (ops : list op) : res str :=
  let* g := construct o in
  let* s := run g (ops ++ [OClose]) pstate0 in
  Ok (p_out s).
End Handlers.
Close Scope Z_scope.
