(** The page of a document, defined over document trees: a second, compositional
    account of what the parser with the library's own renderers produces.  It
    knows nothing of arenas, boxes, rule tables, renderer classes, settings or
    fuel.  Line wrapping and the target of a link are taken from [wrap] and
    [parse_href], which have properties of their own. *)
From Verif Require Export LinkSpec DocSpec.
Open Scope Z_scope.

Section P.
Context `{U : Uni}.
Variable g : cfg.

(** ** Where an element stands *)

(** Room for lines, and room for wrapped text, in columns. *)
Record place := Place { pl_line : Z; pl_wrap : Z }.
(** What is left to the right of a label. *)
Definition beside (label : str) (w : place) : place := Place (pl_line w - len label) (pl_wrap w - len label).
(** Tags around it (innermost first), position among its siblings, first and
    last among the elements there. *)
Record pos := Pos { ps_up : list str; ps_index : nat; ps_first : bool; ps_last : bool }.
Definition element (t : tree) : bool := match t with Tag _ _ _ _ => true | Text _ _ => false end.
Definition position (up : list str) (kids : list tree) (k : nat) : pos :=
  Pos up k (negb (existsb element (firstn k kids))) (negb (existsb element (skipn (S k) kids))).
Definition positions (up : list str) (kids : list tree) : list pos :=
  map (position up kids) (seq 0 (length kids)).
Definition inside (t : string) (p : pos) : bool :=
  match ps_up p with x :: _ => seqb x (lit t) | [] => false end.
(** In a list that is directly in an item. *)
Definition sublist (p : pos) : bool :=
  match ps_up p with
  | x :: y :: _ => (seqb x (lit "ol") || seqb x (lit "ul")) && seqb y (lit "li")
  | _ => false
  end.

(** Empty lines above and below. *)
Definition p_margins (p : pos) : Z * Z :=
  (if inside "blockquote" p && ps_first p then 0 else 1,
   if inside "blockquote" p && ps_last p then 0 else 1).
Definition li_margin (p : pos) : Z := if ps_first p && negb (sublist p) then 0 else 1.
Definition dt_margin (p : pos) : Z := if ps_first p then 0 else 2.

(** ** Text *)
Definition stack (w : place) (top : Z) (ls : list str) (bottom : Z) : str :=
  newlines top ++ rows (pl_line w) ls ++ newlines bottom.
(** At least one line. *)
Definition some_line (ls : list str) : list str := match ls with [] => [[]] | _ => ls end.
Definition wrap_to (n : Z) (text : str) : res (list str) := wrap (text_wrap n) text.
(** A paragraph: what stands between newlines is wrapped separately. *)
Definition paragraph (w : place) (c : str) : res (list str) :=
  let* ls := mapM (fun x => wrap_to (pl_wrap w) (strip x)) (split_on 10%N c) in
  Ok (concat (map some_line ls)).
Definition only_code (kids : list tree) : bool :=
  match kids with
  | [Tag _ t _ _] => seqb t (lit "code") || seqb t (lit "pre")
  | _ => false
  end.
Definition code_text (p : pos) (c : str) : str :=
  if inside "pre" p then c
  else if has_char 10%N c then lit "```" ++ nl ++ c ++ nl ++ lit "```" ++ nl
  else lit "`" ++ c ++ lit "`".

(** ** Links *)
Definition is_a (t : str) : bool := seqb t (lit "a").
Definition is_img (t : str) : bool := seqb t (lit "img").
Definition put (where_ : string) (t : tree) : bool :=
  match t with
  | Tag _ tg _ _ => (is_a tg || is_img tg) && seqb (placement g tg) (lit where_)
  | Text _ _ => false
  end.
Definition shortened (text : str) : str :=
  firstn 10 (strip text) ++ (if len text >? 10 then lit "..." else []).
Definition target (href : option str) : glink :=
  match parse_href href (g_host g) (g_port g) with Ok l => l | Err _ => GLink [] [] None None end.
Definition menu : bool := seqb (g_format g) (lit "gophermap").
Definition link_listing (w : place) (ref : Z) (href title : option str) (c : str) : str :=
  if menu
  then record_text ref (match title with Some t => t | None => shortened c end) (target href) ++ nl
  else rows (pl_line w) (split_on 10%N (nl ++ entry_text ref (shortened c) href title)).
Definition image_listing (w : place) (ref : Z) (src alt : option str) : str :=
  let title := match titled alt with Some t => t | None => lit "Image" end in
  rows (pl_line w) (split_on 10%N
    (if menu then record_text ref (shortened title) (target src) ++ nl
     else nl ++ entry_text ref (shortened title) src (if len title >? 10 then Some title else None))).

(** ** Elements *)
Definition lookup {A} (t : str) (l : list (string * A)) : option A :=
  match find (fun x => seqb t (lit (fst x))) l with Some (_, v) => Some v | None => None end.
Definition plain_blocks : list (string * Z) :=
  [("div"%string, 0); ("ul"%string, 1); ("ol"%string, 1); ("dl"%string, 1)].

(** The reference of link number [i] of the document. *)
Variable number : nat -> Z.

(** [content], [texts]: the content with, and without, the links to be listed
    after it. *)
Definition show_element (i : nat) (tg : str) (a : attributes) (kids : list tree) (p : pos) (w : place)
  (texts content : place -> res str) : res str :=
  match lookup tg markers with
  | Some m => let* c := content w in Ok (lit m ++ c ++ lit m)
  | None =>
  match lookup tg headings with
  | Some k => let* c := content w in
              Ok (stack w 1 (split_on 10%N (lit k ++ lit " " ++ c ++ lit " " ++ lit k)) 1)
  | None =>
  match lookup tg plain_blocks with
  | Some m => let* c := content w in Ok (stack w m (split_on 10%N c) m)
  | None =>
  if seqb tg (lit "p") then
    let* c := content w in
    let* ls := if only_code kids then Ok (split_on 10%N c) else paragraph w c in
    Ok (stack w (fst (p_margins p)) ls (snd (p_margins p)))
  else if seqb tg (lit "blockquote") then
    let* c := content (beside (lit "> ") w) in
    Ok (stack w 1 (some_line (map (fun l => lit "> " ++ l) (splitlines false c))) 1)
  else if seqb tg (lit "pre") then
    let* c := content w in
    Ok (stack w 1 (some_line (map (fun l => spaces 4 ++ l) (splitlines false c))) 1)
  else if seqb tg (lit "li") then
    let label := if inside "ol" p then str_of_Z (Z.of_nat (ps_index p) + 1) ++ lit ". " else lit "* " in
    let* c := content (beside label w) in
    let* ls := wrap_to (pl_wrap w - len label) c in
    Ok (stack w (li_margin p) (labelled label ls) 0)
  else if seqb tg (lit "dd") then
    let* c := content (beside (lit ": ") w) in
    let* ls := wrap_to (pl_wrap w - 2) c in
    Ok (stack w 1 (labelled (lit ": ") ls) 0)
  else if seqb tg (lit "dt") then
    let* c := content w in Ok (stack w (dt_margin p) (split_on 10%N c) 0)
  else if seqb tg (lit "br") then Ok nl
  else if seqb tg (lit "code") then
    let* c := content w in Ok (code_text p c)
  else if is_img tg then
    Ok (if seqb (g_image g) (lit "inline") then image_text (attr "src" a) (attr "alt" a)
        else reference_text (lit "Image") (number i))
  else if is_a tg then
    if seqb (g_link g) (lit "inline")
    then let* c := texts w in Ok (target_text c (attr "href" a) (attr "title" a))
    else let* c := content w in Ok (reference_text c (number i))
  else content w
  end end end.
Definition show_listing (i : nat) (tg : str) (a : attributes) (w : place) (texts : place -> res str) : res str :=
  let* c := texts w in
  Ok (if is_img tg then image_listing w (number i) (attr "src" a) (attr "alt" a)
      else link_listing w (number i) (attr "href" a) (attr "title" a) c).

Fixpoint in_order (l : list (res str)) : res str :=
  match l with
  | [] => Ok []
  | x :: r => let* a := x in let* b := in_order r in Ok (a ++ b)
  end.
Fixpoint at_positions (fs : list (pos -> place -> res str)) (ps : list pos) (w : place) : list (res str) :=
  match fs, ps with
  | f :: fs, p :: ps => f p w :: at_positions fs ps w
  | _, _ => []
  end.
(** [show false]: in the text; [show true]: listed outside it. *)
Fixpoint show (listing : bool) (t : tree) (p : pos) (w : place) {struct t} : res str :=
  match t with
  | Text _ s => Ok s
  | Tag i tg a kids =>
      let ps := positions (tg :: ps_up p) kids in
      let texts w := in_order (at_positions (map (show false) kids) ps w) in
      let after w := in_order (at_positions
        (map (fun k => if put "after_block" k then show true k else fun _ _ => Ok []) kids) ps w) in
      let content w := let* x := texts w in let* y := after w in
        Ok (x ++ (if existsb (put "after_block") kids then nl else []) ++ y) in
      if listing then show_listing i tg a w texts else show_element i tg a kids p w texts content
  end.

(** ** The page *)
(** All elements with their positions, in document order. *)
Fixpoint located (t : tree) (p : pos) {struct t} : list (tree * pos) :=
  match t with
  | Text _ _ => [(t, p)]
  | Tag _ tg _ kids =>
      (t, p) :: (fix go (l : list tree) (ps : list pos) : list (tree * pos) :=
         match l, ps with
         | k :: l, q :: ps => located k q ++ go l ps
         | _, _ => []
         end) kids (positions (tg :: ps_up p) kids)
  end.
Definition located_all (F : list tree) (ps : list pos) : list (tree * pos) :=
  flat_map (fun x => located (fst x) (snd x)) (combine F ps).
Definition page_place : place := Place (line_width (g_box g)) (wrap_width (g_box g)).
Definition body (F : list tree) : res str :=
  in_order (at_positions (map (show false) F) (positions [] F) page_place).
Definition footer (F : list tree) : res str :=
  if seqb (g_link g) (lit "footer") then
    let l := filter (fun x => put "footer" (fst x)) (located_all F (positions [] F)) in
    let* x := in_order (map (fun x => show true (fst x) (snd x) page_place) l) in
    Ok ((match l with [] => [] | _ => nl end) ++ x)
  else Ok [].
Definition finished (text : str) : str :=
  let m := b_margin (g_box g) in
  let s := newlines (sd_top m)
           ++ concat (map (fun l => spaces (sd_left m) ++ l) (splitlines true text))
           ++ newlines (sd_bottom m) in
  if g_optimise g then join nl (map rstrip (split_on 10%N s)) else s.
End P.

(** Links are numbered 1, 2, 3... in document order; those put inline get no number. *)
Fixpoint numbered_ids (g : cfg) (t : tree) : list nat :=
  match t with
  | Tag i tg _ kids => (if numbered g tg then [i] else []) ++ flat_map (numbered_ids g) kids
  | Text _ _ => []
  end.
Fixpoint rank (i : nat) (l : list nat) : Z :=
  match l with
  | [] => 1
  | x :: r => if Nat.eqb i x then 1 else rank i r + 1
  end.
Definition page `{U : Uni} (g : cfg) (F : list tree) : res str :=
  let number i := rank i (flat_map (numbered_ids g) F) in
  let* x := body g number F in
  let* y := footer g number F in
  Ok (finished g (x ++ y)).

(** ** Reading events *)
(** [x] as the last child of the element [depth] levels down, along the last
    elements. *)
Fixpoint add_at (depth : nat) (x : tree) (F : list tree) {struct depth} : list tree :=
  match depth with
  | O => F ++ [x]
  | S k =>
      match rev F with
      | Tag i t a kids :: r => rev r ++ [Tag i t a (add_at k x kids)]
      | _ => F
      end
  end.
(** The tree of a history: start tags and texts go into the innermost open
    element.  [before]: what was read before. *)
Fixpoint read_from `{U : Uni} (before : list op) (F : list tree) (h : list op) : list tree :=
  match h with
  | [] => F
  | o :: r =>
      let depth := length (open_after before) in
      let next := length (items before) in
      read_from (before ++ [o])
        (match o with
         | OStart t a => add_at depth (Tag next t a []) F
         | OData s => add_at depth (Text next (if inside_pre before then s else normalise s)) F
         | OEnd _ | OClose => F
         | OReset => []
         end) r
  end.
Definition tree_of `{U : Uni} (h : list op) : list tree := read_from [] [] h.

(** What feeding a start tag may raise: a class attribute without value, a link
    whose target does not parse, a link to be listed after a block when there is
    no open element. *)
Definition start_error `{U : Uni} (g : cfg) (opened : list str) (t : str) (a : attributes) : option exn :=
  match dlast (lit "class") a with
  | Some None => Some EAttr
  | _ =>
      if is_a t || is_img t then
        match parse_href (attr (if is_img t then "src" else "href") a) (g_host g) (g_port g) with
        | Err e => Some e
        | Ok _ => match opened with
                  | [] => if seqb (placement g t) (lit "after_block") then Some EAttr else None
                  | _ => None
                  end
        end
      else None
  end.
Fixpoint feed_error_from `{U : Uni} (g : cfg) (before h : list op) : option exn :=
  match h with
  | [] => None
  | o :: r =>
      match (match o with OStart t a => start_error g (open_after before) t a | _ => None end) with
      | Some e => Some e
      | None => feed_error_from g (before ++ [o]) r
      end
  end.
Definition feed_error `{U : Uni} (g : cfg) (h : list op) : option exn := feed_error_from g [] h.

(** ** Room: every text that is wrapped has at least one column *)
Fixpoint fits (t : tree) (p : pos) (w : place) {struct t} : bool :=
  match t with
  | Text _ _ => true
  | Tag _ tg _ kids =>
      let inner (w : place) := (fix go (l : list tree) (ps : list pos) : bool :=
         match l, ps with
         | k :: l, q :: ps => fits k q w && go l ps
         | _, _ => true
         end) kids (positions (tg :: ps_up p) kids) in
      if seqb tg (lit "p") then (only_code kids || (0 <? pl_wrap w)) && inner w
      else if seqb tg (lit "blockquote") then inner (beside (lit "> ") w)
      else if seqb tg (lit "li") then
        let label := if inside "ol" p then str_of_Z (Z.of_nat (ps_index p) + 1) ++ lit ". " else lit "* " in
        (0 <? pl_wrap w - len label) && inner (beside label w)
      else if seqb tg (lit "dd") then (0 <? pl_wrap w - 2) && inner (beside (lit ": ") w)
      else inner w
  end.
Definition fits_page (g : cfg) (F : list tree) : bool :=
  forallb (fun x => fits (fst x) (snd x) (page_place g)) (combine F (positions [] F)).

(** Events that can be fed: where a start tag follows the events [before], its
    class attribute has a value, the target of a link parses, and a link to be
    listed after its block is in one. *)
Definition acceptable `{U : Uni} (g : cfg) (h : list op) : Prop :=
  forall before t a after, h = before ++ OStart t a :: after ->
    dlast (lit "class") a <> Some None
    /\ (t = lit "a" \/ t = lit "img" ->
        (exists l, parse_href (attr (if is_img t then "src" else "href") a) (g_host g) (g_port g) = Ok l)
        /\ (placement g t = lit "after_block" -> open_after before <> [])).

(** How deep the labels of quotations, items and definitions reach: an upper
    bound on the columns a text loses. *)
Fixpoint indentation (t : tree) (p : pos) {struct t} : Z :=
  match t with
  | Text _ _ => 0
  | Tag _ tg _ kids =>
      (if seqb tg (lit "blockquote") || seqb tg (lit "dd") then 2
       else if seqb tg (lit "li") then
         if inside "ol" p then len (str_of_Z (Z.of_nat (ps_index p) + 1)) + 2 else 2
       else 0)
      + (fix go (l : list tree) (ps : list pos) : Z :=
           match l, ps with
           | k :: l, q :: ps => Z.max (indentation k q) (go l ps)
           | _, _ => 0
           end) kids (positions (tg :: ps_up p) kids)
  end.
Fixpoint deepest (l : list tree) (ps : list pos) : Z :=
  match l, ps with
  | k :: l, q :: ps => Z.max (indentation k q) (deepest l ps)
  | _, _ => 0
  end.

(** ** From markup to the tree it denotes *)
Fixpoint plant (inpre : bool) (n : nat) (h : html) {struct h} : tree * nat :=
  match h with
  | HText s => (Text n (if inpre then s else normalise s), S n)
  | HTag t a kids =>
      let '(ts, m) := (fix go (n : nat) (l : list html) : list tree * nat :=
        match l with
        | [] => ([], n)
        | k :: r => let '(x, n1) := plant (inpre || seqb t (lit "pre")) n k in
                    let '(xs, n2) := go n1 r in (x :: xs, n2)
        end) (S n) kids in
      (Tag n t a ts, m)
  end.
Fixpoint plant_all (inpre : bool) (n : nat) (l : list html) : list tree * nat :=
  match l with
  | [] => ([], n)
  | k :: r => let '(x, n1) := plant inpre n k in
              let '(xs, n2) := plant_all inpre n1 r in (x :: xs, n2)
  end.
Definition forest_of (doc : list html) : list tree := fst (plant_all false 0 doc).
Close Scope Z_scope.
