(** Specification vocabulary for justification. *)
From Verif Require Export WrapSpec Justify.
Open Scope Z_scope.

(** Words with gaps of the given widths between them. *)
Fixpoint interleave (ws : list str) (gs : list Z) : str :=
  match ws, gs with
  | w :: r, g :: gs' => w ++ spaces g ++ interleave r gs'
  | w :: _, [] => w
  | [], _ => []
  end.
(** Gap widths that differ by at most one, the wider ones first, none removed. *)
Definition even_gaps (gs : list Z) : Prop :=
  exists k a b, 1 <= k /\ gs = repeat (k + 1) a ++ repeat k b.
(** A line with a space somewhere between its words. *)
Definition has_gap `{U : Uni} (l : str) : Prop := In 32%N (strip l).
(** What [f] does to every line but the last; the last stays as it is. *)
Inductive all_but_last (R : str -> str -> Prop) : list str -> list str -> Prop :=
| abl_nil : all_but_last R [] []
| abl_last : forall l, all_but_last R [l] [l]
| abl_cons : forall l l' r r', R l l' -> r <> [] -> all_but_last R r r' -> all_but_last R (l :: r) (l' :: r').
Close Scope Z_scope.
