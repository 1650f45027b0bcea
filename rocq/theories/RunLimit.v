(** The tool under Python's limit on nested calls. *)
From Verif Require Export Args Walk.

(** How a run ends: as without a limit, or with RecursionError after these effects. *)
Inductive limited := Ends (x : ended) | EndsTooDeep (effects : list effect).
Section Limit.
Context `{U : Uni}.
(** [main] after [_parse_arguments], cli.py:22-72, with [render_text_within] for the
    parser ([close], cli.py:66, walks the tree by recursion).  [frames]: the calls that
    are left when it does.  A source that is no string: [Path] raises TypeError. *)
Definition command_within (frames : nat) (convert : str -> str) (files : str -> str) (argv : list str) : limited :=
  match parse_args argv with
  | HelpShown => Ends (Exits 0)
  | UsageError => Ends (Exits 2)
  | Given None _ _ => Ends (Runs [] (Some EType))
  | Given (Some source) _ dump =>
      let text := newlines_only (files source) in
      let html := if seqb (path_suffix source) (lit ".md") then convert text else text in
      let done := [ERead source] ++ (if dump then [EPrint html] else []) ++ map EPrint (text_says cli_options html) in
      match render_text_within frames cli_options html with
      | None => EndsTooDeep done
      | Some (Ok page) => Ends (Runs (done ++ [EPrint page]) None)
      | Some (Err e) => Ends (Runs done (Some e))
      end
  end.
End Limit.
