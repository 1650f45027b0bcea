(** Documents of running text, and the width of their lines. *)
From Verif Require Export PageSpec.

Section W.
Context `{U : Uni}.
(** Paragraphs, and quotations and divisions of paragraphs at any depth, with
    white space in between.  A paragraph may contain anything, but not nothing
    else than one piece of code (which is not wrapped); no white space stands
    before the first element of a quotation. *)
Inductive prose : tree -> Prop :=
| prose_blank : forall i s, all_space s = true -> prose (Text i s)
| prose_p : forall i a kids, only_code kids = false -> prose (Tag i (lit "p") a kids)
| prose_div : forall i a kids, Forall prose kids -> prose (Tag i (lit "div") a kids)
| prose_quote : forall i a kids, Forall prose kids ->
    (match kids with Text _ _ :: _ => False | _ => True end) ->
    prose (Tag i (lit "blockquote") a kids).
(** No link is listed at the end of the page. *)
Definition no_foot (g : cfg) (F : list tree) : Prop :=
  g_link g <> lit "footer" \/ Forall (fun x => put g "footer" (fst x) = false) (located_all F (positions [] F)).
End W.
