(** Specification vocabulary for boxes and blocks. *)
From Verif Require Export LineSpec BoxHeap Renderers.
Open Scope Z_scope.

(** What one level of a chain of nested boxes adds. *)
Record level := Level { lv_margin : sides; lv_padding : sides; lv_border : sides; lv_template : option str }.
(** The innermost box of a chain below a page box, outermost level first. *)
Definition nest (page : box) (ls : list level) : box :=
  fold_left (fun b l => child_box b (lv_margin l) (lv_padding l) (lv_border l) (lv_template l)) ls page.
Definition sum (l : list Z) : Z := fold_right Z.add 0 l.
(** Left and right together. *)
Definition both (s : sides) : Z := sd_left s + sd_right s.
(** The list object at [a] holds these four numbers. *)
Definition holds (h : heap) (a : nat) (s : sides) : Prop :=
  nth_error h a = Some [sd_top s; sd_right s; sd_bottom s; sd_left s].
(** The Box object [o] has the attribute values of [b]. *)
Definition represents (h : heap) (o : hbox) (b : box) : Prop :=
  hb_width o = b_width b
  /\ holds h (hb_margin o) (b_margin b) /\ holds h (hb_total_margin o) (b_total_margin b)
  /\ holds h (hb_padding o) (b_padding b) /\ holds h (hb_total_padding o) (b_total_padding b)
  /\ holds h (hb_border o) (b_border b) /\ holds h (hb_total_border o) (b_total_border b)
  /\ hb_ltp o = b_ltp b /\ hb_total_ltp o = b_total_ltp b.
(** An argument: None, or a list object with these numbers. *)
Definition argument (h : heap) (x : option nat) (s : sides) : Prop :=
  match x with None => s = sides0 | Some a => holds h a s end.
Definition nonneg (s : sides) : Prop := 0 <= sd_top s /\ 0 <= sd_right s /\ 0 <= sd_bottom s /\ 0 <= sd_left s.
Close Scope Z_scope.
