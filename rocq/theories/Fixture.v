(** Concrete cases used by examples and refutations: ASCII-only Unicode data
    and the default configuration (_parser.py:347-456). *)
From Verif Require Export Parser.

Definition U0 : Uni := ascii_uni.
Definition g0 : cfg := match @construct default_options with Ok g => g | Err _ =>
  Cfg (root_box 0 sides0 sides0 sides0 None) [] [] [] [] 0 [] (RPlain None) [] None false end.
Definition start (t : string) : op := OStart (lit t) [].
Definition starta (t : string) (a : list (string * string)) : op :=
  OStart (lit t) (map (fun '(k, v) => (lit k, Some (lit v))) a).
Definition stop (t : string) : op := OEnd (lit t).
Definition txt (t : string) : op := OData (lit t).
Definition out (r : res pstate) : res str := let* s := r in Ok (p_out s).
Definition after (h : list op) : res dom :=
  let* s := @run U0 g0 h pstate0 in Ok (p_dom s).
