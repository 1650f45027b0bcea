(** Box objects with their lists on a heap, rendering.py:106-150: which list
    objects the constructor shares, copies and updates.  [BoxM] models the same
    constructor with list values. *)
From Verif Require Export BoxM.
Open Scope Z_scope.

(** The list objects; an address is a position. *)
Definition heap := list (list Z).
Definition alloc (h : heap) (l : list Z) : heap * nat := (h ++ [l], length h).
Definition load (h : heap) (a : nat) : res (list Z) :=
  match nth_error h a with Some l => Ok l | None => Err EUnsupported end.
Fixpoint set_nth {A} (l : list A) (i : nat) (x : A) : list A :=
  match l, i with
  | [], _ => []
  | _ :: r, O => x :: r
  | a :: r, S j => a :: set_nth r j x
  end.
(** [l[i]] and [l[i] = v] on the list object at [a]. *)
Definition load_item (h : heap) (a i : nat) : res Z :=
  let* l := load h a in
  match nth_error l i with Some z => Ok z | None => Err EIndex end.
Definition store_item (h : heap) (a i : nat) (z : Z) : res heap :=
  let* l := load h a in
  if Nat.ltb i (length l) then Ok (set_nth h a (set_nth l i z)) else Err EIndex.

(** The attributes of a Box, rendering.py:125-138. *)
Record hbox := HBox {
  hb_width : Z;
  hb_margin : nat; hb_total_margin : nat;
  hb_padding : nat; hb_total_padding : nat;
  hb_border : nat; hb_total_border : nat;
  hb_ltp : Z; hb_total_ltp : Z }.

(** [if x == None: x = [0,0,0,0]], rendering.py:119-124. *)
Definition arg (h : heap) (x : option nat) : heap * nat :=
  match x with Some a => (h, a) | None => alloc h [0; 0; 0; 0] end.
(** [x[:]] *)
Definition copy (h : heap) (a : nat) : res (heap * nat) :=
  let* l := load h a in Ok (alloc h l).
(** [self.total_x[side] = self.x[side] + parent.total_x[side]] for LEFT (3) and
    RIGHT (1), rendering.py:144-149. *)
Definition add_side (h : heap) (total own parent_total side : nat) : res heap :=
  let* x := load_item h own side in
  let* y := load_item h parent_total side in
  store_item h total side (x + y).

(** [Box.__init__], rendering.py:110-150. *)
Definition new_hbox (h : heap) (width : Z) (margin padding border : option nat)
    (lt : option str) (parent : option hbox) : res (heap * hbox) :=
  let (h, m0) := arg h margin in
  let (h, p0) := arg h padding in
  let (h, b0) := arg h border in
  let* (h, m) := copy h m0 in
  let* (h, tm) := copy h m0 in
  let* (h, p) := copy h p0 in
  let* (h, tp) := copy h p0 in
  let* (h, b) := copy h b0 in
  let* (h, tb) := copy h b0 in
  let ltp := template_width lt in
  match parent with
  | None => Ok (h, HBox width m tm p tp b tb ltp 0)
  | Some q =>
      let* h := add_side h tm m (hb_total_margin q) 3 in
      let* h := add_side h tm m (hb_total_margin q) 1 in
      let* h := add_side h tp p (hb_total_padding q) 3 in
      let* h := add_side h tp p (hb_total_padding q) 1 in
      let* h := add_side h tb b (hb_total_border q) 3 in
      let* h := add_side h tb b (hb_total_border q) 1 in
      Ok (h, HBox (hb_width q) m tm p tp b tb ltp (ltp + hb_total_ltp q))
  end.
Close Scope Z_scope.
