(** Specification vocabulary for C85: words of a text, the classes of an
    element, and the order in which a formatter asks its methods. *)
From Verif Require Export FormatterM.

Definition blank (s : str) : Prop := forall c, In c s -> is_space c = true.
(** The words of a text: what stands between white space. *)
Inductive words : str -> list str -> Prop :=
| ws_none : forall s, blank s -> words s []
| ws_word : forall b w r ws, blank b -> w <> [] -> (forall c, In c w -> is_space c = false) ->
    match r with [] => True | c :: _ => is_space c = true end -> words r ws -> words (b ++ w ++ r) (w :: ws).
(** The value of the last attribute called [class]; [Some []] if there is none. *)
Inductive class_value : list (str * option str) -> option str -> Prop :=
| cv_none : forall l, (forall v, ~ In (lit "class", v) l) -> class_value l (Some [])
| cv_last : forall a v b, (forall v', ~ In (lit "class", v') b) -> class_value (a ++ (lit "class", v) :: b) v.
Definition attrs_of (c : fcall) : list (str * option str) := match fc_attrs c with Some a => a | None => [] end.
(** What a call returns: [format] is asked last, with the words of the class
    attribute, the settings and the box. *)
Definition returns (f : formatter) (tag content : str) (c : fcall) (out : str) : Prop :=
  exists v ws st bx, class_value (attrs_of c) (Some v) /\ words v ws
    /\ ff_settings f tag (FCtx c ws None None) = Ok st
    /\ ff_box f tag (FCtx c ws (Some st) None) = Ok bx
    /\ ff_format f tag content (FCtx c ws (Some st) (Some bx)) = Ok out.
(** What it raises: the first that raises decides. *)
Inductive raises (f : formatter) (tag content : str) (c : fcall) : exn -> Prop :=
| ra_class : class_value (attrs_of c) None -> raises f tag content c EAttr
| ra_settings : forall v ws e, class_value (attrs_of c) (Some v) -> words v ws ->
    ff_settings f tag (FCtx c ws None None) = Err e -> raises f tag content c e
| ra_box : forall v ws st e, class_value (attrs_of c) (Some v) -> words v ws ->
    ff_settings f tag (FCtx c ws None None) = Ok st -> ff_box f tag (FCtx c ws (Some st) None) = Err e -> raises f tag content c e
| ra_format : forall v ws st bx e, class_value (attrs_of c) (Some v) -> words v ws ->
    ff_settings f tag (FCtx c ws None None) = Ok st -> ff_box f tag (FCtx c ws (Some st) None) = Ok bx ->
    ff_format f tag content (FCtx c ws (Some st) (Some bx)) = Err e -> raises f tag content c e.
