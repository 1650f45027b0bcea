(** What it means that no text is lost. *)
From Verif Require Export PageSpec.

(** [a] is what is left of [b] when some characters are crossed out. *)
Inductive scattered {A} : list A -> list A -> Prop :=
| scattered_nil : scattered [] []
| scattered_take : forall x a b, scattered a b -> scattered (x :: a) (x :: b)
| scattered_skip : forall x a b, scattered a b -> scattered a (x :: b).

Section K.
Context `{U : Uni}.
(** All text fed since the parser was last reset. *)
Fixpoint fed_from (before : str) (h : list op) : str :=
  match h with
  | [] => before
  | OData s :: r => fed_from (before ++ s) r
  | OReset :: r => fed_from [] r
  | _ :: r => fed_from before r
  end.
Definition fed_text (h : list op) : str := fed_from [] h.
End K.
