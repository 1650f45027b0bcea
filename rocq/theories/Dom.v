(** The document tree as an arena of node records.  Python object identity is
    equality of indices. *)
From Verif Require Export Values Url.

(** An attribute value: [<p hidden>] gives None, and the class attribute is
    replaced by its list of words (_parser.py:52-56). *)
Inductive aval := AvNone | AvStr (s : str) | AvList (l : list str).

(** [tag.parent]: None for text at top level (_parser.py:549-550), the
    DocumentParser for top-level tags (_parser.py:483), otherwise a tag. *)
Inductive pref := PNone | PRoot | PNode (i : nat).

(** The keyword context a LinkParser is created with (_parser.py:488-498). *)
Record linkctx := LinkCtx {
  lc_format : str; lc_link_placement : str; lc_image_placement : str;
  lc_reference : Z; lc_host : str; lc_port : Z }.

(** LinkParser attributes, _parser.py:118-128. *)
Record link := Link {
  lk_title : option str; lk_href : option str; lk_gopher : glink; lk_ctx : linkctx }.

(** TagParser / LinkParser / DataParser attributes (_parser.py:29-44, 118-128,
    252-273).  [n_data = Some _] exactly for DataParser objects, [n_link] for
    LinkParser objects.  Assigned renderers are kept separately. *)
Record node := Node {
  n_tag : option str;
  n_parent : pref;
  n_children : list nat;
  n_closed : bool;
  n_attrs : dict aval;
  n_classes : list str;
  n_id : option str;
  n_data : option str;
  n_link : option link;
  n_pending : list nat
}.

(** The arena and [DocumentParser.children] (_parser.py:279-300). *)
Record dom := Dom { d_nodes : list node; d_root : list nat }.

Definition node_at (d : dom) (i : nat) : option node := nth_error (d_nodes d) i.

(** [tag_children] of a TagParser or DocumentParser (_parser.py:46-50, 290-294). *)
Definition is_tag (d : dom) (i : nat) : bool :=
  match node_at d i with
  | Some n => match n_tag n with Some _ => true | None => false end
  | None => false
  end.

Definition children_of (d : dom) (p : pref) : list nat :=
  match p with
  | PNone => []
  | PRoot => d_root d
  | PNode i => match node_at d i with Some n => n_children n | None => [] end
  end.
Definition tag_children (d : dom) (p : pref) : list nat :=
  filter (is_tag d) (children_of d p).
