(** Which end tags are reported (C78): those that close nothing. *)
From Verif Require Export PageSpec.

(** The elements open (innermost first) before a call, and the lines it prints.
    An exception in a start tag leaves them open, one in closing does not. *)
Definition open_next (o : op) (e : option exn) (l : list str) : list str :=
  match e with None => open_step o l | Some _ => match o with OClose => [] | _ => l end end.
Definition reports (o : op) (l : list str) : list str :=
  match o with
  | OEnd t => if void t then []
              else match l with
                   | x :: _ => if seqb x t then [] else [lit "Unsupported or mismatched end tag, ignoring: " ++ t]
                   | [] => [lit "Unsupported or mismatched end tag, ignoring: " ++ t]
                   end
  | _ => []
  end.
Fixpoint reported_from (l : list str) (h : list (op * option exn)) : list str :=
  match h with
  | [] => []
  | (o, e) :: r => reports o l ++ reported_from (open_next o e l) r
  end.
(** Over a history of calls with the exceptions they raised, and one of calls that
    raised none. *)
Definition reported (h : list (op * option exn)) : list str := reported_from [] h.
Definition remarks (h : list op) : list str := reported (map (fun o => (o, None)) h).
(** The calls that are made: up to the first start tag that raises. *)
Definition stops `{U : Uni} (g : cfg) (evs done : list op) : Prop :=
  exists rest, evs = done ++ rest /\ feed_error g done = None /\ forall o r, rest = o :: r -> feed_error g (done ++ [o]) <> None.
