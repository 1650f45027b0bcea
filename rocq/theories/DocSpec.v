(** Specification vocabulary for whole documents: page, footer, options. *)
From Verif Require Export ElemSpec LineSpec.
Open Scope Z_scope.

Section S.
Context `{U : Uni}.
Definition with_optimise (o : options) (b : bool) : options :=
  Options (o_width o) (o_box o) (o_renderers o) (o_ext o) (o_format o) (o_link o) (o_image o) (o_host o) (o_port o) b.
(** Each line without the white space at its end. *)
Definition trimmed (s : str) (s' : str) : Prop := split_on 10%N s' = map rstrip (split_on 10%N s).
Definition trim_ended (l : str) : Prop := space_last l = false.

(** The links and images listed at the end of the page, in document order. *)
Definition listed (g : cfg) (d : dom) : list nat :=
  if seqb (g_link g) (lit "footer") then
    filter (fun i => match node_at d i with
                     | Some n => match n_tag n with
                                 | Some t => (seqb t (lit "a") || seqb t (lit "img")) && seqb (placement g t) (lit "footer")
                                 | None => false end
                     | None => false end) (seq 0 (length (d_nodes d)))
  else [].
(** [page_body g d sg body]: the contributions of the outermost nodes in order,
    then a newline and the entries of the listed links, if there are any. *)
Definition page_body (g : cfg) (d : dom) (sg : asgs) (body : str) : Prop :=
  exists parts entries,
    Forall2 (fun i x => rendered d sg i (g_box g) x) (d_root d) parts
    /\ Forall2 (fun i x => entry d sg i (g_box g) x) (listed g d) entries
    /\ body = concat parts ++ (match listed g d with [] => [] | _ => nl end) ++ concat entries.
End S.
Close Scope Z_scope.
