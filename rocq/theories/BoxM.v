(** Model of the box model: rendering.py:94-209. *)
From Verif Require Export Values.
Open Scope Z_scope.

(** Four sides in the order TOP, RIGHT, BOTTOM, LEFT (rendering.py:94-98). *)
Record sides := Sides { sd_top : Z; sd_right : Z; sd_bottom : Z; sd_left : Z }.
Definition sides0 : sides := Sides 0 0 0 0.

(** A Box object's attributes, rendering.py:110-150.  [line_template] itself is
    kept only through its width; [parent] only through the totals, which is all
    the code reads from it. *)
Record box := Box {
  b_width : Z;
  b_margin : sides; b_total_margin : sides;
  b_padding : sides; b_total_padding : sides;
  b_border : sides; b_total_border : sides;
  b_ltp : Z;        (* line_template_padding *)
  b_total_ltp : Z   (* total_line_template_padding *)
}.

(** [_get_template_width], rendering.py:101-103, guarded by
    [if self.line_template:] (rendering.py:136). *)
Definition template_width (t : option str) : Z :=
  match t with
  | None => 0
  | Some s => match s with [] => 0 | _ => len s - 2 end
  end.

(** Totals only accumulate LEFT and RIGHT (rendering.py:127, 144-149). *)
Definition add_lr (own parent : sides) : sides :=
  Sides (sd_top own) (sd_right own + sd_right parent)
        (sd_bottom own) (sd_left own + sd_left parent).

(** [Box(width, margin, padding, border, line_template)] without a parent,
    rendering.py:119-138: note that the total template padding stays 0. *)
Definition root_box (width : Z) (margin padding border : sides) (lt : option str) : box :=
  Box width margin margin padding padding border border (template_width lt) 0.

(** [Box(..., parent=parent)], rendering.py:141-150. *)
Definition child_box (parent : box) (margin padding border : sides) (lt : option str) : box :=
  Box (b_width parent)
      margin (add_lr margin (b_total_margin parent))
      padding (add_lr padding (b_total_padding parent))
      border (add_lr border (b_total_border parent))
      (template_width lt) (template_width lt + b_total_ltp parent).

Definition lr (s : sides) : Z := sd_left s + sd_right s.

(** rendering.py:152-167 *)
Definition inner_width_excluding_line_template (b : box) : Z :=
  b_width b - (lr (b_total_margin b) + lr (b_total_padding b)
               + lr (b_total_border b) + b_total_ltp b).
(** rendering.py:169-178 *)
Definition inner_width (b : box) : Z :=
  b_width b - (lr (b_total_margin b) + lr (b_total_padding b) + lr (b_total_border b)).
(** rendering.py:180-191 *)
Definition padded_width (b : box) : Z :=
  b_width b - (lr (b_total_margin b) + lr (b_total_border b)
               + (b_total_ltp b - b_ltp b)).
(** rendering.py:193-200 *)
Definition bordered_width (b : box) : Z :=
  b_width b - lr (b_total_margin b).

(** Reading a margin/padding setting: Box copies the list with [margin[:]] and
    assigns to indices 1 and 3 of the copy, so a tuple raises TypeError and a
    short list IndexError; None means zeros (rendering.py:119-124). *)
Definition sides_of_val (v : option val) : res sides :=
  match v with
  | None | Some VNone => Ok sides0
  | Some (VList (t :: r :: b :: l :: _)) =>
      let* t := want_int t in let* r := want_int r in
      let* b := want_int b in let* l := want_int l in
      Ok (Sides t r b l)
  | Some (VList _) => Err EIndex
  | Some _ => Err EType
  end.
Close Scope Z_scope.
