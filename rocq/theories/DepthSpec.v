(** How deep a document may be nested: the columns its blocks take. *)
From Verif Require Export SafeSpec.
Open Scope Z_scope.

(** What all the elements around a place, and the one there, take together when
    each takes [cost]. *)
Fixpoint total (cost : site -> Z) (z : site) : Z :=
  match z with [] => 0 | _ :: up => cost z + total cost up end.
(** The columns of a frame: margins, paddings and borders at the sides. *)
Definition frame (x : dress) : Z :=
  both (dr_margin x) + both (dr_padding x) + len (bo_left (dr_border x)) + len (bo_right (dr_border x)).
(** [takes_at_most g cost]: the block at [z] takes at most [cost z] columns, its
    label included. *)
Definition takes_at_most `{U : Uni} (g : cfg) (cost : site -> Z) : Prop :=
  forall listed z cl s x label, given g listed z cl s -> takes_block (rc_kind cl) = true -> wears s x ->
    (if takes_label (rc_kind cl) then template_set s "line_template" label else label = []) ->
    frame x + label_columns label <= cost z.

(** ** The tables of the library *)
(** Quotations, definitions and items take two columns, numbered items two and
    their number, everything else none. *)
Definition in_ol (up : site) : bool := match up with Spot _ (Tag _ t _ _) _ :: _ => seqb t (lit "ol") | _ => false end.
Definition label_cost (z : site) : Z :=
  match z with
  | Spot before (Tag _ t _ _) _ :: up =>
      if seqb t (lit "blockquote") || seqb t (lit "dd") then 2
      else if seqb t (lit "li") then if in_ol up then len (str_of_Z (1 + Z.of_nat (length before))) + 2 else 2
      else 0
  | _ => 0
  end.
(** No text of the page is nested so deep that nothing is left of [w] columns. *)
Definition shallow (F : list tree) (w : Z) : Prop := forall z, In z (all_places [] [] F) -> total label_cost z < w.
Close Scope Z_scope.
