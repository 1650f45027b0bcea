(** Specification vocabulary: how deep a document is nested.  Texts count. *)
From Verif Require Export TreeSpec.
Fixpoint levels (t : tree) : nat :=
  match t with
  | Tag _ _ _ kids => S (fold_right Nat.max 0 (map levels kids))
  | Text _ _ => 1
  end.
Definition nesting (F : list tree) : nat := fold_right Nat.max 0 (map levels F).
