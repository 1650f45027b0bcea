(** What a caller that catches exceptions relies on. *)
From Verif Require Export PageSpec Feed.

(** The events whose handler returned. *)
Fixpoint accepted (ops : list op) (es : list (option exn)) : list op :=
  match ops, es with
  | o :: r, None :: l => o :: accepted r l
  | _ :: r, Some _ :: l => accepted r l
  | _, _ => []
  end.
(** The events whose handler raised. *)
Fixpoint rejected (ops : list op) (es : list (option exn)) : list op :=
  match ops, es with
  | o :: r, Some _ :: l => o :: rejected r l
  | _ :: r, None :: l => rejected r l
  | _, _ => []
  end.

(** A parser as a sequence of calls leaves it, whatever they raised. *)
Definition reachable `{U : Uni} (g : cfg) (h : parser) : Prop :=
  exists l es, do_calls g l parser0 = (h, es).
