(** Specification vocabulary for links and images in the text and outside it. *)
From Verif Require Export ElemSpec.
Open Scope Z_scope.

(** A missing target is shown as Python shows it. *)
Definition shown (o : option str) : str := match o with Some s => s | None => lit "None" end.
Definition shown_port (o : option Z) : str := match o with Some z => str_of_Z z | None => lit "None" end.
(** An empty title is no title. *)
Definition titled (o : option str) : option str := match o with Some [] => None | x => x end.
Definition quoted (t : str) : str := [34%N] ++ t ++ [34%N].
Definition tab : str := [9%N].

(** In the text: with a reference, or with the target. *)
Definition reference_text (c : str) (ref : Z) : str := lit "[" ++ c ++ lit "][" ++ str_of_Z ref ++ lit "]".
Definition target_text (c : str) (href title : option str) : str :=
  lit "[" ++ c ++ lit "](" ++ shown href
  ++ (match titled title with Some t => lit " " ++ quoted t | None => [] end) ++ lit ")".
Definition image_text (href title : option str) : str :=
  lit "![" ++ (match titled title with Some t => t | None => lit "Image" end) ++ lit "](" ++ shown href ++ lit ")".

(** Outside the text. *)
Definition entry_text (ref : Z) (desc : str) (href title : option str) : str :=
  lit "[" ++ str_of_Z ref ++ lit "] " ++ desc ++ lit ": " ++ shown href
  ++ (match titled title with Some t => lit " " ++ quoted t | None => [] end).
Definition record_text (ref : Z) (desc : str) (l : glink) : str :=
  gl_type l ++ lit "[" ++ str_of_Z ref ++ lit "] " ++ desc ++ tab ++ gl_selector l
  ++ tab ++ shown (gl_host l) ++ tab ++ shown_port (gl_port l).

(** Descriptions are cut to [max] characters. *)
Definition description (max : Z) (text : str) : str :=
  if len (strip text) <=? max then strip text else firstn (Z.to_nat max) (strip text) ++ lit "...".

(** The target an element was given. *)
Definition link_of (n : node) (lk : link) : Prop := n_link n = Some lk.
Definition gophermap (g : cfg) : Prop := g_format g = lit "gophermap".
(** The content of a link: its children. *)
Definition link_content `{U : Uni} (d : dom) (sg : asgs) (n : node) (bx : box) (c : str) : Prop :=
  exists parts, Forall2 (fun j x => rendered d sg j bx x) (n_children n) parts /\ c = concat parts.

(** Rule tables that differ in their settings only. *)
Definition same_renderer (r r' : rspec rcls) : Prop :=
  match r, r' with
  | RPlain c, RPlain c' => c = c'
  | RPair c _, RPair c' _ => c = c'
  | _, _ => False
  end.
Definition same_but_settings (t t' : table) : Prop :=
  Forall2 (fun p q => fst p = fst q /\ fst (snd p) = fst (snd q) /\ same_renderer (snd (snd p)) (snd (snd q))) t t'.
Definition with_ext (o : options) (t : table) : options :=
  Options (o_width o) (o_box o) (o_renderers o) t (o_format o) (o_link o) (o_image o) (o_host o) (o_port o) (o_optimise o).


(** What fits in one field of a gophermap line. *)
Definition one_field (s : str) : Prop := ~ In 9%N s /\ ~ In 10%N s.
(** The reference opens the entry: nothing but blanks or the type before it. *)
Definition opens_with_reference (ref : Z) (out : str) : Prop :=
  exists pre rest, out = pre ++ lit "[" ++ str_of_Z ref ++ lit "] " ++ rest /\ ~ In 91%N pre.
Close Scope Z_scope.
