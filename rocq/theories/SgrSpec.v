(** Specification vocabulary: the control sequences around an ANSI span, and when
    there are none. *)
From Verif Require Export AnsiSpec.
Open Scope Z_scope.

(** ** Effects *)
(** Their names, and the codes that switch them on and off. *)
Definition effects : list (string * (string * string)) :=
  [("bold", ("1", "22")); ("faint", ("2", "22")); ("italic", ("3", "23")); ("fraktur", ("20", "23"));
   ("underline", ("4", "24")); ("slow_blink", ("5", "25")); ("rapid_blink", ("6", "25")); ("invert", ("7", "27"));
   ("conceal", ("8", "28")); ("crossed_out", ("9", "29")); ("framed", ("51", "54")); ("encircled", ("52", "54"));
   ("overlined", ("53", "55"))]%string.
(** ESC [ code m *)
Definition control (c : str) : str := [27; 91]%N ++ c ++ [109]%N.
(** [effect_codes s l ons offs]: the sequences for those of the effects [l] that
    are on. *)
Inductive effect_codes (s : settings) : list (string * (string * string)) -> list str -> list str -> Prop :=
| ec_nil : effect_codes s [] [] []
| ec_on : forall name on off v l ons offs, dget (lit name) s = Some v -> truth v = true -> effect_codes s l ons offs ->
    effect_codes s ((name, (on, off)) :: l) (control (lit on) :: ons) (control (lit off) :: offs)
| ec_off : forall name on off v l ons offs, dget (lit name) s = Some v -> truth v = false -> effect_codes s l ons offs ->
    effect_codes s ((name, (on, off)) :: l) ons offs.

Section C.
Context `{U : Uni}.
(** ** Colours *)
(** Hexadecimal digits; decimal digits of other scripts count. *)
Definition a_digit (c v : N) : Prop :=
  hex c v \/ ((128 <= c)%N /\ is_space c = false /\ u_decimal c = Some v).
Definition a_blank (c : N) : Prop := In c [9; 10; 11; 12; 13; 32]%N \/ ((128 <= c)%N /\ is_space c = true).
(** [hex_number s z]: digits, with or without a sign, perhaps with white space
    around. *)
Definition hex_number (s : str) (z : Z) : Prop :=
  exists before sign ds vs after, s = before ++ sign ++ ds ++ after /\ Forall a_blank before /\ Forall a_blank after
    /\ ds <> [] /\ Forall2 a_digit ds vs
    /\ let n := Z.of_N (fold_left (fun n v => 16 * n + v)%N vs 0%N) in
       ((sign = [] \/ sign = lit "+") /\ z = n \/ sign = lit "-" /\ z = - n).
(** Hash signs, then three digits, each of them doubled, or six. *)
Definition html_colour (x : str) (r g b : Z) : Prop :=
  exists k body, x = repeat 35%N k ++ body /\ (forall rest, body <> 35%N :: rest)
    /\ let six := match body with [p; q; t] => [p; p; q; q; t; t] | _ => body end in
       hex_number (firstn 2 six) r /\ hex_number (firstn 2 (skipn 2 six)) g /\ hex_number (firstn 2 (skipn 4 six)) b.
(** As printed. *)
Inductive said : val -> str -> Prop :=
| sd_none : said VNone (lit "None")
| sd_true : said (VBool true) (lit "True")
| sd_false : said (VBool false) (lit "False")
| sd_int : forall z, said (VInt z) (str_of_Z z)
| sd_str : forall x, said (VStr x) x.
(** What cannot be looked up in a dictionary. *)
Inductive unhashable : val -> Prop :=
| uh_list : forall l, unhashable (VList l)
| uh_dict : forall d, unhashable (VDict d)
| uh_tuple : forall l v, In v l -> unhashable v -> unhashable (VTuple l).
Definition layer (bg : bool) : str := if bg then lit "48" else lit "38".
(** [colour_code bg v c]: [c] is the code of the colour [v]. *)
Inductive colour_code (bg : bool) : val -> str -> Prop :=
| cc_name : forall k name, nth_error colour_names k = Some name ->
    colour_code bg (VStr (lit name))
      (str_of_Z (Z.of_nat k + (if Nat.ltb k 8 then 30 else 82) + (if bg then 10 else 0)))
| cc_html : forall x r g b, ~ In x (map lit colour_names) -> html_colour x r g b ->
    colour_code bg (VStr x) (layer bg ++ lit ";2;" ++ str_of_Z r ++ lit ";" ++ str_of_Z g ++ lit ";" ++ str_of_Z b)
| cc_int : forall z, colour_code bg (VInt z) (layer bg ++ lit ";5;" ++ str_of_Z z)
| cc_bool : forall b, colour_code bg (VBool b) (layer bg ++ lit ";5;" ++ lit (if b then "True" else "False"))
| cc_triple : forall r g b rest x y z, ~ unhashable (VTuple (r :: g :: b :: rest)) -> said r x -> said g y -> said b z ->
    colour_code bg (VTuple (r :: g :: b :: rest)) (layer bg ++ lit ";2;" ++ x ++ lit ";" ++ y ++ lit ";" ++ z).
(** The sequences for a colour setting. *)
Definition colour_on (bg : bool) (v : val) (on off : list str) : Prop :=
  (truth v = false /\ on = [] /\ off = [])
  \/ (truth v = true /\ exists c, colour_code bg v c /\ on = [control c] /\ off = [control (lit (if bg then "49" else "39"))]).
(** Why there is none.  A tuple with a tuple in it is left open: [EUnsupported]. *)
Inductive no_colour : val -> exn -> Prop :=
| nc_unhashable : forall v, unhashable v -> no_colour v EType
| nc_html : forall x, ~ In x (map lit colour_names) -> (forall r g b, ~ html_colour x r g b) -> no_colour (VStr x) EValue
| nc_short : forall l, ~ unhashable (VTuple l) -> (length l < 3)%nat -> no_colour (VTuple l) EIndex
| nc_open : forall r g b rest t, ~ unhashable (VTuple (r :: g :: b :: rest)) -> In (VTuple t) [r; g; b] ->
    no_colour (VTuple (r :: g :: b :: rest)) EUnsupported.

(** ** Spans *)
(** [ansi_shown s x out]: the text [x] as a span with settings [s]. *)
Definition ansi_shown (s : settings) (x out : str) : Prop :=
  exists norm ons offs fg f f' bg b b',
    dget (lit "normalise") s = Some norm /\ effect_codes s effects ons offs
    /\ dget (lit "font") s = Some VNone
    /\ dget (lit "foreground_colour") s = Some fg /\ colour_on false fg f f'
    /\ dget (lit "background_colour") s = Some bg /\ colour_on true bg b b'
    /\ out = concat ons ++ concat f ++ concat b ++ x
             ++ (if truth norm then control (lit "0") else concat offs ++ concat f' ++ concat b').
(** What goes wrong first, in the order: a setting missing, the effects, the font
    (which cannot be set), the colour of the text, the colour behind it. *)
Definition effects_set (s : settings) : Prop := forall e, In e effects -> dget (lit (fst e)) s <> None.
Inductive ansi_trips (s : settings) : exn -> Prop :=
| at_normalise : dget (lit "normalise") s = None -> ansi_trips s EAttr
| at_effect : dget (lit "normalise") s <> None -> ~ effects_set s -> ansi_trips s EKey
| at_font_gone : dget (lit "normalise") s <> None -> effects_set s -> dget (lit "font") s = None -> ansi_trips s EAttr
| at_font : forall v, dget (lit "normalise") s <> None -> effects_set s -> dget (lit "font") s = Some v -> v <> VNone -> ansi_trips s EName
| at_fg_gone : dget (lit "normalise") s <> None -> effects_set s -> dget (lit "font") s = Some VNone ->
    dget (lit "foreground_colour") s = None -> ansi_trips s EAttr
| at_fg : forall v e, dget (lit "normalise") s <> None -> effects_set s -> dget (lit "font") s = Some VNone ->
    dget (lit "foreground_colour") s = Some v -> truth v = true -> no_colour v e -> ansi_trips s e
| at_bg_gone : forall v f f', dget (lit "normalise") s <> None -> effects_set s -> dget (lit "font") s = Some VNone ->
    dget (lit "foreground_colour") s = Some v -> colour_on false v f f' -> dget (lit "background_colour") s = None -> ansi_trips s EAttr
| at_bg : forall v f f' w e, dget (lit "normalise") s <> None -> effects_set s -> dget (lit "font") s = Some VNone ->
    dget (lit "foreground_colour") s = Some v -> colour_on false v f f' ->
    dget (lit "background_colour") s = Some w -> truth w = true -> no_colour w e -> ansi_trips s e.
End C.
Close Scope Z_scope.
