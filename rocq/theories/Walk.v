(** The functions of the parser that call themselves, as the recursions they are,
    with a limit on nested calls like Python's.  [Parser] models the first as a
    pass over the arena. *)
From Verif Require Export Feed.

(** How a walk over the tree ends; [TooDeep]: RecursionError. *)
Inductive ending := Done | Raises (e : exn) | TooDeep.

Section Walk.
Context `{U : Uni}.
(** [_assign_renderers(tags)], _parser.py:567-579: what the tags have been given,
    and how it ends.  [frames]: the calls of this function that may still be nested.
    Simplification: the calls it makes of other functions are not counted; they
    nest to a depth that depends on the selectors only. *)
Fixpoint assign_tags (frames : nat) (g : cfg) (d : dom) (tags : list nat) (sg : asgs) {struct frames} : asgs * ending :=
  match frames with
  | O => (sg, TooDeep)
  | S f =>
      (fix each (tags : list nat) (sg : asgs) : asgs * ending :=
         match tags with
         | [] => (sg, Done)
         | i :: r =>
             match assign_one g d sg i with
             | Err e => (sg, Raises e)
             | Ok a =>
                 match assign_tags f g d (match node_at d i with Some n => n_children n | None => [] end) ((i, a) :: sg) with
                 | (sg', Done) => each r sg'
                 | x => x
                 end
             end
         end) tags sg
  end.
(** [close] after the tokenizer, _parser.py:592-625: [_parsed] and [parsed], with
    at most [frames] nested calls of [_assign_renderers] and of [render]
    (_parser.py:68-100, 203-248).  [None]: RecursionError.  (The fuel of
    [render_node] is its number of nested calls.)
    Simplification: the limit is on nested calls of one function.  Python's is on
    all: the frames of the caller, of the functions called at the bottom, and the
    second call that a link makes ([super().render] or [link_render]) count too, so
    [frames] is somewhat less than sys.getrecursionlimit(). *)
Definition close_within (frames : nat) (g : cfg) (s : pstate) : option (res (list str * str)) :=
  let d := p_dom s in
  match assign_tags frames g d (d_root d) (p_asg s) with
  | (_, TooDeep) => None
  | (_, Raises e) => Some (Err e)
  | (sg, Done) => Some (
      let* body := mapM (fun i => render_node frames d sg false i (g_box g)) (d_root d) in
      let* foot :=
        if seqb (g_link g) (lit "footer") then
          match p_footer s with
          | [] => Ok []
          | l => let* links := mapM (fun i => render_node frames d sg true i (g_box g)) l in
                 Ok (nl :: links)
          end
        else Ok [] in
      let chunks := p_chunks s ++ body ++ foot in
      let indented := indent_body (sd_left (b_margin (g_box g))) (concat chunks) in
      let out := newlines (sd_top (b_margin (g_box g))) ++ indented
                 ++ newlines (sd_bottom (b_margin (g_box g))) in
      Ok (chunks, if g_optimise g then optimise out else out))
  end.
(** Construct a parser, feed it, close it, read [parsed]. *)
Definition render_within (frames : nat) (o : options) (ops : list op) : option (res str) :=
  match construct o with
  | Err e => Some (Err e)
  | Ok g => match run g ops pstate0 with
            | Err e => Some (Err e)
            | Ok s => match close_within frames g s with
                      | None => None
                      | Some (Err e) => Some (Err e)
                      | Some (Ok (_, out)) => Some (Ok out)
                      end
            end
  end.
(** The same for source text: construct, feed it whole, close, read [parsed].
    Handlers and tokenizer do not call themselves; how deep the tokenizer's helpers
    nest does not depend on the text. *)
Definition render_text_within (frames : nat) (o : options) (src : str) : option (res str) :=
  match construct o with
  | Err e => Some (Err e)
  | Ok g => match feed g src parser0 with
            | (_, Some e) => Some (Err e)
            | (h, None) =>
                match deliver g (h_raw h) (tokens true (h_cd h) (h_raw h)) (h_p h) with
                | (_, Some e) => Some (Err e)
                | (h', None) => match close_within frames g (h_p h') with
                                | None => None
                                | Some (Err e) => Some (Err e)
                                | Some (Ok (_, out)) => Some (Ok out)
                                end
                end
            end
  end.
End Walk.
