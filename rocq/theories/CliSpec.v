(** What the command line tool is expected to do (C51): file names and line
    ends. *)
From Verif Require Export PyStr.
Open Scope N_scope.

(** The components of a path. *)
Fixpoint slashed (l : list str) : str := match l with [] => [] | [x] => x | x :: r => x ++ 47 :: slashed r end.
Definition components (p : str) (l : list str) : Prop := l <> [] /\ Forall (fun x => ~ In 47 x) l /\ p = slashed l.
(** The last one that names something. *)
Definition idle (x : str) : Prop := x = [] \/ x = lit ".".
Definition final_name (p name : str) : Prop :=
  exists l r, components p (l ++ name :: r) /\ ~ idle name /\ Forall idle r.
(** A name ending in .md after at least one other character. *)
Definition is_markdown (p : str) : Prop := exists stem, stem <> [] /\ final_name p (stem ++ lit ".md").
(** CR LF and CR become LF. *)
Inductive unix_lines : str -> str -> Prop :=
| ul_end : unix_lines [] []
| ul_crlf : forall s t, unix_lines s t -> unix_lines (13 :: 10 :: s) (10 :: t)
| ul_cr : forall s t, (forall r, s <> 10 :: r) -> unix_lines s t -> unix_lines (13 :: s) (10 :: t)
| ul_char : forall c s t, c <> 13 -> unix_lines s t -> unix_lines (c :: s) (c :: t).
Close Scope N_scope.
