(** Specification vocabulary for rendering: what an element contributes and
    what its content is. *)
From Verif Require Export TreeSpec.

Section S.
Context `{U : Uni}.

(** What the parser computes on close for node [i] placed in box [bx], given
    the renderers [sg] it has assigned. *)
Definition rendered (d : dom) (sg : asgs) (i : nat) (bx : box) (out : str) : Prop :=
  render_node (render_fuel d) d sg false i bx = Ok out.
(** The entry of link [i] outside the running text. *)
Definition entry (d : dom) (sg : asgs) (i : nat) (bx : box) (out : str) : Prop :=
  render_node (render_fuel d) d sg true i bx = Ok out.
(** The content of an element: its children one after the other; when it has
    links to list after the block, a newline and their entries. *)
Definition content (d : dom) (sg : asgs) (n : node) (bx : box) (c : str) : Prop :=
  exists parts links,
    Forall2 (fun j x => rendered d sg j bx x) (n_children n) parts
    /\ Forall2 (fun j x => entry d sg j bx x) (n_pending n) links
    /\ c = concat parts ++ (match n_pending n with [] => [] | _ => nl end) ++ concat links.

(** A parser with only the library's renderers, fed [h], at the moment close has
    assigned the renderers. *)
Record closing (o : options) (g : cfg) (h : list op) (s : pstate) (sg : asgs) : Prop := {
  cl_stock : o_renderers o = [] /\ o_ext o = [];
  cl_new : construct o = Ok g;
  cl_fed : run g h pstate0 = Ok s;
  cl_assigned : assign_all g (p_dom s) (p_asg s) (seq 0 (length (d_nodes (p_dom s)))) = Ok sg }.

(** Element [i] is a [t]. *)
Definition is_tagged (d : dom) (i : nat) (n : node) (t : str) : Prop :=
  node_at d i = Some n /\ n_tag n = Some t.
End S.
