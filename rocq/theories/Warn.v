(** What a parser prints: handle_endtag reports end tags that close nothing. *)
From Verif Require Export Feed.

Section Warn.
Context `{U : Uni}.
(** The argument of [print], _parser.py:528 and 534. *)
Definition remark (t : str) : str := lit "Unsupported or mismatched end tag, ignoring: " ++ t.
(** [handle_endtag], _parser.py:519-538: the lines printed. *)
Definition endtag_says (t : str) (s : pstate) : list str :=
  if is_void t then []
  else match get_top s with
       | None => [remark t]
       | Some i => match node_at (p_dom s) i with
                   | Some n => match n_tag n with
                               | Some t' => if seqb t' t then [] else [remark t]
                               | None => [remark t]
                               end
                   | None => [remark t]
                   end
       end.
(** No other handler prints. *)
Definition step_says (o : op) (s : pstate) : list str := match o with OEnd t => endtag_says t s | _ => [] end.
(** A history whose exceptions are caught. *)
Fixpoint run_says (g : cfg) (ops : list op) (s : pstate) : list str :=
  match ops with
  | [] => []
  | o :: r => step_says o s ++ run_says g r (fst (step_x g o s))
  end.
(** The calls of a trace, up to an exception ([deliver]). *)
Fixpoint trace_says (g : cfg) (t : trace) (p : pstate) : list str :=
  match t with
  | TEv o k => step_says o p ++ match step_x g o p with (p', None) => trace_says g k p' | (_, Some _) => [] end
  | _ => []
  end.
(** [feed] and [close]. *)
Definition feed_says (g : cfg) (data : str) (h : parser) : list str :=
  trace_says g (tokens false (h_cd h) (h_raw h ++ data)) (h_p h).
Definition finalise_says (g : cfg) (h : parser) : list str := trace_says g (tokens true (h_cd h) (h_raw h)) (h_p h).
(** Construct a parser, feed it the text, close it. *)
Definition text_says (o : options) (src : str) : list str :=
  match construct o with
  | Err _ => []
  | Ok g => feed_says g src parser0 ++ match feed g src parser0 with (h, None) => finalise_says g h | (_, Some _) => [] end
  end.
End Warn.
