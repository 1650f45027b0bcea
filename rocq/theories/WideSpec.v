(** One document on pages of different sizes. *)
From Verif Require Export DepthSpec.
Open Scope Z_scope.

(** The parser made with the same arguments but for the box. *)
Definition boxed (o : options) (b : box) : options :=
  Options (o_width o) (Some b) (o_renderers o) (o_ext o) (o_format o) (o_link o) (o_image o) (o_host o) (o_port o) (o_optimise o).
(** A page of [w] columns without margins, padding and borders. *)
Definition columns (w : Z) : box := root_box w sides0 sides0 sides0 None.
Definition produced (r : res str) : Prop := exists out, r = Ok out.
Close Scope Z_scope.
