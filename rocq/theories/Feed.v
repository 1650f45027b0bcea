(** The parser as its caller sees it: text is fed, exceptions can be caught, and
    the object keeps whatever was done before the exception. *)
From Verif Require Export Tokenizer.

(** ** Handlers that raise *)
Section Feed.
Context `{U : Uni}.

(** [handle_starttag] on an exception (_parser.py:482-517): the verbatim flag is
    set before the tag object is built (line 486); the class attribute (line 54),
    the target (line 124) and [add_pending_link] on the document (line 503) raise
    before anything is appended or counted. *)
Definition start_x (g : cfg) (t : str) (a : list (str * option str)) (s : pstate)
  : pstate * option exn :=
  match handle_starttag g t a s with
  | Ok s' => (s', None)
  | Err e =>
      (PState (p_dom s) (p_stack s) (p_next s) (p_footer s)
              (if seqb t (lit "pre") then true else p_in_pre s)
              (p_chunks s) (p_out s) (p_asg s), Some e)
  end.

(** The assignments made before one raises, _parser.py:568-577. *)
Fixpoint assigned (g : cfg) (d : dom) (sg : asgs) (ids : list nat) : asgs :=
  match ids with
  | [] => []
  | i :: r => match assign_one g d sg i with
              | Ok a => (i, a) :: assigned g d sg r
              | Err _ => []
              end
  end.
(** The results before one raises. *)
Fixpoint before_error {A B} (f : A -> res B) (l : list A) : list B :=
  match l with
  | [] => []
  | a :: r => match f a with Ok b => b :: before_error f r | Err _ => [] end
  end.

(** [close] after the tokenizer, _parser.py:592-625: the stack is emptied first,
    [_parsed] grows piece by piece, and [parsed] is assigned at the end. *)
Definition close_x (g : cfg) (s : pstate) : pstate * option exn :=
  match close g s with
  | Ok s' => (s', None)
  | Err e =>
      let d := p_dom s in
      let left chunks sg := PState d [] (p_next s) (p_footer s) (p_in_pre s) chunks (p_out s) sg in
      (match assign_all g d (p_asg s) (seq 0 (length (d_nodes d))) with
       | Err _ => left (p_chunks s) (assigned g d (p_asg s) (seq 0 (length (d_nodes d))) ++ p_asg s)
       | Ok sg =>
           let show force i := render_node (render_fuel d) d sg force i (g_box g) in
           let body := before_error (show false) (d_root d) in
           left (p_chunks s ++ body ++
                 match mapM (show false) (d_root d) with
                 | Err _ => []
                 | Ok _ => nl :: before_error (show true) (p_footer s)
                 end) sg
       end, Some e)
  end.

Definition step_x (g : cfg) (o : op) (s : pstate) : pstate * option exn :=
  match o with
  | OStart t a => start_x g t a s
  | OEnd t => (handle_endtag t s, None)
  | OData x => (handle_data x s, None)
  | OClose => close_x g s
  | OReset => (reset s, None)
  end.
(** A history whose exceptions are caught, and the exceptions. *)
Fixpoint run_x (g : cfg) (ops : list op) (s : pstate) : pstate * list (option exn) :=
  match ops with
  | [] => (s, [])
  | o :: r => let '(s1, e) := step_x g o s in
              let '(s2, l) := run_x g r s1 in (s2, e :: l)
  end.

(** ** Feeding text *)
(** The object: [rawdata], [cdata_elem] and the state of GopherHTMLParser. *)
Record parser := Parser { h_raw : str; h_cd : option str; h_p : pstate }.
Definition parser0 : parser := Parser [] None pstate0.

(** Making the calls of a trace.  On an exception [rawdata] still is the whole
    text (html/parser.py:213 is not reached), and [cdata_elem] is None: neither
    start tags nor [unescape] are reached in CDATA mode. *)
Fixpoint deliver (g : cfg) (raw : str) (t : trace) (p : pstate) : parser * option exn :=
  match t with
  | TStop cd r => (Parser r cd p, None)
  | TErr e => (Parser raw None p, Some e)
  | TEv o k => match step_x g o p with
               | (p', None) => deliver g raw k p'
               | (p', Some e) => (Parser raw None p', Some e)
               end
  end.
(** [feed], html/parser.py:104-111. *)
Definition feed (g : cfg) (data : str) (h : parser) : parser * option exn :=
  let raw := h_raw h ++ data in
  deliver g raw (tokens false (h_cd h) raw) (h_p h).
(** [GopherHTMLParser.close], _parser.py:590-625. *)
Definition finalise (g : cfg) (h : parser) : parser * option exn :=
  match deliver g (h_raw h) (tokens true (h_cd h) (h_raw h)) (h_p h) with
  | (h', Some e) => (h', Some e)
  | (h', None) => let '(p, e) := close_x g (h_p h') in (Parser (h_raw h') (h_cd h') p, e)
  end.
(** [GopherHTMLParser.reset], _parser.py:627-634, html/parser.py:96-102. *)
Definition restart (h : parser) : parser := Parser [] None (reset (h_p h)).

Inductive call := CFeed (data : str) | CClose | CReset.
Definition do_call (g : cfg) (c : call) (h : parser) : parser * option exn :=
  match c with
  | CFeed x => feed g x h
  | CClose => finalise g h
  | CReset => (restart h, None)
  end.
Fixpoint do_calls (g : cfg) (l : list call) (h : parser) : parser * list (option exn) :=
  match l with
  | [] => (h, [])
  | c :: r => let '(h1, e) := do_call g c h in
              let '(h2, es) := do_calls g r h1 in (h2, e :: es)
  end.

(** Construct a parser, feed it the pieces, close it, read [parsed]; the first
    exception ends it. *)
Fixpoint feed_all (g : cfg) (l : list str) (h : parser) : parser * option exn :=
  match l with
  | [] => (h, None)
  | x :: r => match feed g x h with
              | (h', None) => feed_all g r h'
              | (h', Some e) => (h', Some e)
              end
  end.
Definition render_pieces (o : options) (l : list str) : res str :=
  let* g := construct o in
  match feed_all g l parser0 with
  | (_, Some e) => Err e
  | (h, None) => match finalise g h with
                 | (_, Some e) => Err e
                 | (h', None) => Ok (p_out (h_p h'))
                 end
  end.
Definition render_text (o : options) (src : str) : res str := render_pieces o [src].
End Feed.
