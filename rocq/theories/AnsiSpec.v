(** A terminal (C42, C43, C59) and the colours one can ask for (C41).
    Control functions as in ECMA-48 8.3.117 (SGR), with the 256-colour and
    direct-colour extensions of ISO 8613-6. *)
From Verif Require Export Values.
Open Scope N_scope.

Inductive colour := CDefault | CBasic (n : N) | CPalette (n : N) | CRgb (r g b : N).

Record style := Style {
  st_bold : bool; st_faint : bool; st_italic : bool; st_fraktur : bool; st_underline : bool;
  st_slow_blink : bool; st_rapid_blink : bool; st_invert : bool; st_conceal : bool;
  st_crossed_out : bool; st_framed : bool; st_encircled : bool; st_overlined : bool;
  st_fg : colour; st_bg : colour }.
(** The default rendition. *)
Definition plain : style :=
  Style false false false false false false false false false false false false false CDefault CDefault.

(** One SGR parameter. *)
Definition sgr1 (p : N) (s : style) : style :=
  let '(Style bo fa it fr un sl ra iv co cr fm en ov fg bg) := s in
  match p with
  | 0 => plain
  | 1 => Style true fa it fr un sl ra iv co cr fm en ov fg bg
  | 2 => Style bo true it fr un sl ra iv co cr fm en ov fg bg
  | 3 => Style bo fa true fr un sl ra iv co cr fm en ov fg bg
  | 4 => Style bo fa it fr true sl ra iv co cr fm en ov fg bg
  | 5 => Style bo fa it fr un true ra iv co cr fm en ov fg bg
  | 6 => Style bo fa it fr un sl true iv co cr fm en ov fg bg
  | 7 => Style bo fa it fr un sl ra true co cr fm en ov fg bg
  | 8 => Style bo fa it fr un sl ra iv true cr fm en ov fg bg
  | 9 => Style bo fa it fr un sl ra iv co true fm en ov fg bg
  | 20 => Style bo fa it true un sl ra iv co cr fm en ov fg bg
  | 22 => Style false false it fr un sl ra iv co cr fm en ov fg bg
  | 23 => Style bo fa false false un sl ra iv co cr fm en ov fg bg
  | 24 => Style bo fa it fr false sl ra iv co cr fm en ov fg bg
  | 25 => Style bo fa it fr un false false iv co cr fm en ov fg bg
  | 27 => Style bo fa it fr un sl ra false co cr fm en ov fg bg
  | 28 => Style bo fa it fr un sl ra iv false cr fm en ov fg bg
  | 29 => Style bo fa it fr un sl ra iv co false fm en ov fg bg
  | 39 => Style bo fa it fr un sl ra iv co cr fm en ov CDefault bg
  | 49 => Style bo fa it fr un sl ra iv co cr fm en ov fg CDefault
  | 51 => Style bo fa it fr un sl ra iv co cr true en ov fg bg
  | 52 => Style bo fa it fr un sl ra iv co cr fm true ov fg bg
  | 53 => Style bo fa it fr un sl ra iv co cr fm en true fg bg
  | 54 => Style bo fa it fr un sl ra iv co cr false false ov fg bg
  | 55 => Style bo fa it fr un sl ra iv co cr fm en false fg bg
  | _ =>
      if (30 <=? p) && (p <=? 37) then Style bo fa it fr un sl ra iv co cr fm en ov (CBasic (p - 30)) bg
      else if (90 <=? p) && (p <=? 97) then Style bo fa it fr un sl ra iv co cr fm en ov (CBasic (p - 82)) bg
      else if (40 <=? p) && (p <=? 47) then Style bo fa it fr un sl ra iv co cr fm en ov fg (CBasic (p - 40))
      else if (100 <=? p) && (p <=? 107) then Style bo fa it fr un sl ra iv co cr fm en ov fg (CBasic (p - 92))
      else s
  end.
Definition set_fg (c : colour) (s : style) : style :=
  let '(Style bo fa it fr un sl ra iv co cr fm en ov _ bg) := s in
  Style bo fa it fr un sl ra iv co cr fm en ov c bg.
Definition set_bg (c : colour) (s : style) : style :=
  let '(Style bo fa it fr un sl ra iv co cr fm en ov fg _) := s in
  Style bo fa it fr un sl ra iv co cr fm en ov fg c.

(** A whole SGR control function. *)
Fixpoint sgr (ps : list N) (s : style) : style :=
  match ps with
  | [] => s
  | 38 :: 5 :: n :: r => sgr r (set_fg (CPalette n) s)
  | 38 :: 2 :: a :: b :: c :: r => sgr r (set_fg (CRgb a b c) s)
  | 48 :: 5 :: n :: r => sgr r (set_bg (CPalette n) s)
  | 48 :: 2 :: a :: b :: c :: r => sgr r (set_bg (CRgb a b c) s)
  | p :: r => sgr r (sgr1 p s)
  end.

(** The terminal reads characters; an empty parameter counts as 0. *)
Inductive mode := Text | Esc | Csi (done : list N) (cur : option N).
Definition param (o : option N) : N := match o with Some n => n | None => 0 end.
Fixpoint terminal (m : mode) (s : style) (input : str) : list (N * style) * style :=
  match input with
  | [] => ([], s)
  | c :: r =>
      match m with
      | Text => if c =? 27 then terminal Esc s r
                else let (o, s') := terminal Text s r in ((c, s) :: o, s')
      | Esc => if c =? 91 then terminal (Csi [] None) s r else terminal Text s r
      | Csi ps cur =>
          if is_digit_ascii c then terminal (Csi ps (Some (10 * param cur + (c - 48)))) s r
          else if c =? 59 then terminal (Csi (ps ++ [param cur]) None) s r
          else if c =? 109 then terminal Text (sgr (ps ++ [param cur]) s) r
          else terminal Text s r
      end
  end.
(** What is displayed (each character with its rendition) and the rendition
    left behind. *)
Definition display (s : style) (input : str) : list (N * style) * style := terminal Text s input.

(** ** Colours *)
Definition colour_names : list string :=
  ["black"; "red"; "green"; "yellow"; "blue"; "magenta"; "cyan"; "white";
   "bright_black"; "bright_red"; "bright_green"; "bright_yellow"; "bright_blue";
   "bright_magenta"; "bright_cyan"; "bright_white"]%string.
(** [hex c n]: the character [c] is the hexadecimal digit [n], in either case. *)
Definition hex (c n : N) : Prop :=
  n < 10 /\ c = 48 + n \/ 10 <= n < 16 /\ (c = 55 + n \/ c = 87 + n).
Definition byte (n : N) : Prop := n <= 255.

(** What a colour setting asks for. *)
Inductive colour_value : val -> colour -> Prop :=
| cv_none : colour_value VNone CDefault
| cv_name : forall k name, nth_error colour_names k = Some name ->
    colour_value (VStr (lit name)) (CBasic (N.of_nat k))
| cv_palette : forall z, (0 <= z <= 255)%Z -> colour_value (VInt z) (CPalette (Z.to_N z))
| cv_triple : forall r g b, (0 <= r <= 255)%Z -> (0 <= g <= 255)%Z -> (0 <= b <= 255)%Z ->
    colour_value (VTuple [VInt r; VInt g; VInt b]) (CRgb (Z.to_N r) (Z.to_N g) (Z.to_N b))
| cv_hex6 : forall hash c1 c2 c3 c4 c5 c6 n1 n2 n3 n4 n5 n6,
    hash = [] \/ hash = lit "#" ->
    hex c1 n1 -> hex c2 n2 -> hex c3 n3 -> hex c4 n4 -> hex c5 n5 -> hex c6 n6 ->
    colour_value (VStr (hash ++ [c1; c2; c3; c4; c5; c6])) (CRgb (16 * n1 + n2) (16 * n3 + n4) (16 * n5 + n6))
| cv_hex3 : forall hash c1 c2 c3 n1 n2 n3,
    hash = [] \/ hash = lit "#" -> hex c1 n1 -> hex c2 n2 -> hex c3 n3 ->
    colour_value (VStr (hash ++ [c1; c2; c3])) (CRgb (17 * n1) (17 * n2) (17 * n3)).
Close Scope N_scope.

(** ** What the settings of a span ask for *)
(** The value of a setting: from the rule table if given there, else the
    documented default (rendering.py:1276-1297: no colour, no font, no effect). *)
Definition setting (l : settings) (k : string) (default : val) : val :=
  match dget (lit k) l with Some v => v | None => default end.
Definition asked (l : settings) (k : string) : bool := truth (setting l k (VBool false)).
Definition or_keep (c old : colour) : colour := match c with CDefault => old | _ => c end.

(** The rendition inside a span met in rendition [s]. *)
Definition inside (l : settings) (fg bg : colour) (s : style) : style :=
  Style (st_bold s || asked l "bold") (st_faint s || asked l "faint")
        (st_italic s || asked l "italic") (st_fraktur s || asked l "fraktur")
        (st_underline s || asked l "underline")
        (st_slow_blink s || asked l "slow_blink") (st_rapid_blink s || asked l "rapid_blink")
        (st_invert s || asked l "invert") (st_conceal s || asked l "conceal")
        (st_crossed_out s || asked l "crossed_out")
        (st_framed s || asked l "framed") (st_encircled s || asked l "encircled")
        (st_overlined s || asked l "overlined")
        (or_keep fg (st_fg s)) (or_keep bg (st_bg s)).

(** [s] uses nothing that switching off the span's own effects would clear
    (bold and faint, italic and fraktur, the two blinks, framed and encircled
    share their off code). *)
Definition untouched (l : settings) (fg bg : colour) (s : style) : Prop :=
  (asked l "bold" || asked l "faint" = true -> st_bold s = false /\ st_faint s = false)
  /\ (asked l "italic" || asked l "fraktur" = true -> st_italic s = false /\ st_fraktur s = false)
  /\ (asked l "underline" = true -> st_underline s = false)
  /\ (asked l "slow_blink" || asked l "rapid_blink" = true -> st_slow_blink s = false /\ st_rapid_blink s = false)
  /\ (asked l "invert" = true -> st_invert s = false)
  /\ (asked l "conceal" = true -> st_conceal s = false)
  /\ (asked l "crossed_out" = true -> st_crossed_out s = false)
  /\ (asked l "framed" || asked l "encircled" = true -> st_framed s = false /\ st_encircled s = false)
  /\ (asked l "overlined" = true -> st_overlined s = false)
  /\ (fg <> CDefault -> st_fg s = CDefault) /\ (bg <> CDefault -> st_bg s = CDefault).

(** The settings a span gives, and that the renderer can use. *)
Definition span_settings (l : settings) (fg bg : colour) : Prop :=
  NoDup (map fst l)
  /\ setting l "template" (VStr (lit "{}")) = VStr (lit "{}")
  /\ truth (setting l "capitalized" (VBool false)) = false
  /\ setting l "font" VNone = VNone
  /\ colour_value (setting l "foreground_colour" VNone) fg
  /\ colour_value (setting l "background_colour" VNone) bg
  /\ setting l "foreground_colour" VNone <> VInt 0
  /\ setting l "background_colour" VNone <> VInt 0.

