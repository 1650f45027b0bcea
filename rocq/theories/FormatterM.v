(** Model of the base class Formatter, rendering.py:212-260, and of
    [Box.__repr__], rendering.py:202-209.  No other code of the library uses
    them. *)
From Verif Require Export BoxM.

(** The keyword arguments of a call, rendering.py:239: [attrs], a list of
    (name, value) pairs; [parent_box]; the others. *)
Record fcall := FCall { fc_attrs : option (list (str * option str)); fc_parent : option box; fc_others : dict val }.
(** The keyword arguments while [__call__] adds [classes], [settings] and
    [box] to them, rendering.py:240-244. *)
Record fctx := FCtx { fx_call : fcall; fx_classes : list str; fx_settings : option (dict val); fx_box : option (option box) }.

(** A formatter: the defaults it was made with (rendering.py:217-219) and the
    methods a subclass may override.  Simplification: methods are functions of
    their arguments; [get_box] does not change the dictionary it is given. *)
Record formatter := Formatter {
  ff_settings : str -> fctx -> res (dict val);         (* _get_format *)
  ff_box : str -> fctx -> res (option box);            (* get_box *)
  ff_format : str -> str -> fctx -> res str            (* format *)
}.
(** The base class: [_get_format], 228-237; [get_box], 247-257; [format], 259-260. *)
Definition base_formatter (defaults : dict val) : formatter :=
  Formatter (fun _ _ => Ok defaults)
            (fun _ x => Ok (match fc_parent (fx_call x) with
                            | Some p => Some (child_box p sides0 sides0 sides0 None)
                            | None => None
                            end))
            (fun _ content _ => Ok content).
(** [__extract_classes], rendering.py:221-226. *)
Definition extract_classes (attrs : list (str * option str)) : res (list str) :=
  match fold_left (fun cls a => if seqb (fst a) (lit "class") then snd a else cls) attrs (Some []) with
  | Some cls => Ok (split_ws cls)
  | None => Err EAttr
  end.
(** [__call__], rendering.py:239-245. *)
Definition call_formatter (f : formatter) (tag content : str) (c : fcall) : res str :=
  let* cls := extract_classes (match fc_attrs c with Some a => a | None => [] end) in
  let* st := ff_settings f tag (FCtx c cls None None) in
  let* bx := ff_box f tag (FCtx c cls (Some st) None) in
  ff_format f tag content (FCtx c cls (Some st) (Some bx)).

(** [repr] of a list of integers. *)
Definition repr_ints (l : list Z) : str := lit "[" ++ join (lit ", ") (map str_of_Z l) ++ lit "]".
Definition repr_sides (s : sides) : str := repr_ints [sd_top s; sd_right s; sd_bottom s; sd_left s].
(** [Box.__repr__], rendering.py:202-209. *)
Definition repr_box (b : box) : str :=
  lit "Box [ m: " ++ repr_sides (b_margin b) ++ lit ", p: " ++ repr_sides (b_padding b)
  ++ lit ", b: " ++ repr_sides (b_border b) ++ lit ", w: " ++ str_of_Z (b_width b)
  ++ lit ", iw: " ++ str_of_Z (inner_width b) ++ lit " ]".
