(** Specification vocabulary: a text that is fed in pieces to a parser, which is
    then closed.  The parser keeps what it cannot read yet, and which raw text
    element is open. *)
From Verif Require Export MarkupSpec.
From Verif Require Import Tokenizer.
Section P.
Context `{U : Uni}.
(** [read_on raw kept l evs fail]: [kept] has been kept; the pieces [l] follow, and
    the end. *)
Inductive read_on : option str -> str -> list str -> list op -> option exn -> Prop :=
| ro_end : forall raw kept evs raw' r, reads true raw kept (calls evs (TStop raw' r)) -> read_on raw kept [] evs None
| ro_end_fail : forall raw kept evs e, reads true raw kept (calls evs (TErr e)) -> read_on raw kept [] evs (Some e)
| ro_feed : forall raw kept x l evs raw' r evs' fail, reads false raw (kept ++ x) (calls evs (TStop raw' r)) ->
    read_on raw' r l evs' fail -> read_on raw kept (x :: l) (evs ++ evs') fail
| ro_feed_fail : forall raw kept x l evs e, reads false raw (kept ++ x) (calls evs (TErr e)) -> read_on raw kept (x :: l) evs (Some e).
(** The calls of handlers made for the pieces [l], and the exception that ends the
    reading, if any. *)
Definition pieces (l : list str) (evs : list op) (fail : option exn) : Prop := read_on None [] l evs fail.
End P.
