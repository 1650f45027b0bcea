(** ANSI escape rendering: rendering.py:1188-1358. *)
From Verif Require Export Values.
Open Scope Z_scope.

(** [ansi_colours], rendering.py:1188-1205. *)
Definition ansi_colours : dict Z := map (fun p => (lit (fst p), snd p))
  [("black", 30); ("red", 31); ("green", 32); ("yellow", 33); ("blue", 34);
   ("magenta", 35); ("cyan", 36); ("white", 37); ("bright_black", 90);
   ("bright_red", 91); ("bright_green", 92); ("bright_yellow", 93);
   ("bright_blue", 94); ("bright_magenta", 95); ("bright_cyan", 96);
   ("bright_white", 97)]%string.

(** [ansi_escape_sequences], rendering.py:1210-1224 (in dict order). *)
Definition ansi_effects : list (str * (Z * Z)) := map (fun p => (lit (fst p), snd p))
  [("bold", (1, 22)); ("faint", (2, 22)); ("italic", (3, 23));
   ("fraktur", (20, 23)); ("underline", (4, 24)); ("slow_blink", (5, 25));
   ("rapid_blink", (6, 25)); ("invert", (7, 27)); ("conceal", (8, 28));
   ("crossed_out", (9, 29)); ("framed", (51, 54)); ("encircled", (52, 54));
   ("overlined", (53, 55))]%string.

(** [ANSI_ESCAPE_SEQUENCE.format(x)], rendering.py:1226. *)
Definition ansi_seq (x : str) : str := [27%N; 91%N] ++ x ++ [109%N].

(** Hexadecimal digits, as accepted by [int(s, base=16)]. *)
Definition hex_digit (c : N) : option N :=
  if is_digit_ascii c then Some (c - 48)%N
  else if ((97 <=? c) && (c <=? 102))%N then Some (c - 87)%N
  else if ((65 <=? c) && (c <=? 70))%N then Some (c - 55)%N
  else None.

(** White space around a number, as [int] sees it: ASCII white space, but not
    the separators U+001C to U+001F, and that of other scripts. *)
Definition int_space (c : N) : bool :=
  if (c <? 128)%N then (((9 <=? c) && (c <=? 13)) || (c =? 32))%N else is_space c.
Section C.
Context `{U : Uni}.
(** Decimal digits of any script count as digits. *)
Definition int16_digit (c : N) : option N :=
  if (c <? 128)%N then hex_digit c else if is_space c then None else u_decimal c.

(** [int(s, base=16)] for strings of at most two characters: optional
    surrounding whitespace, optional sign, hex digits.  (Underscores and the 0x
    prefix need more than two characters.) *)
Definition int16 (s : str) : res Z :=
  let go (neg : bool) (d : str) :=
    match d with
    | [] => Err EValue
    | _ => match digits_val 16 0 int16_digit d with
           | Some n => Ok (if neg then - Z.of_N n else Z.of_N n)
           | None => Err EValue
           end
    end in
  match rev (drop_while int_space (rev (drop_while int_space s))) with
  | 43%N :: d => go false d
  | 45%N :: d => go true d
  | d => go false d
  end.

(** [_parse_html_colour], rendering.py:1228-1243. *)
Definition parse_html_colour (colour : str) : res (Z * Z * Z) :=
  let c := drop_while (fun x => (x =? 35)%N) colour in
  let c := match c with
           | [a; b; d] => [a; a; b; b; d; d]
           | _ => c
           end in
  let* r := int16 (firstn 2 c) in
  let* g := int16 (firstn 2 (skipn 2 c)) in
  let* b := int16 (firstn 2 (skipn 4 c)) in
  Ok (r, g, b).
End C.

(** Whether [v in some_dict] raises TypeError. *)
Fixpoint hashable (v : val) : bool :=
  match v with
  | VList _ | VDict _ => false
  | VTuple l => forallb hashable l
  | _ => true
  end.

Section D.
Context `{U : Uni}.
(** [_get_sequence_for_colour], rendering.py:1245-1271. *)
Definition colour_sequence (colour : val) (is_background : bool) : res str :=
  let control := if is_background then lit "48" else lit "38" in
  let triple (r g b : str) := Ok (control ++ lit ";2;" ++ r ++ lit ";" ++ g ++ lit ";" ++ b) in
  if negb (hashable colour) then Err EType
  else match colour with
  | VStr s =>
      match dget s ansi_colours with
      | Some n => Ok (str_of_Z (n + (if is_background then 10 else 0)))
      | None =>
          let* (r, g, b) := parse_html_colour s in
          triple (str_of_Z r) (str_of_Z g) (str_of_Z b)
      end
  | VInt _ | VBool _ =>
      let* n := val_str colour in
      Ok (control ++ lit ";5;" ++ n)
  | VTuple (r :: g :: b :: _) =>
      let* r := val_str r in let* g := val_str g in let* b := val_str b in
      triple r g b
  | VTuple _ => Err EIndex
  | _ => Err EType
  end.

(** The effect loop, rendering.py:1306-1318: (enable, disable) sequences. *)
Fixpoint effect_seqs (s : settings) (normalise : bool) (effects : list (str * (Z * Z)))
  : res (list str * list str) :=
  match effects with
  | [] => Ok ([], [])
  | (name, (on, off)) :: r =>
      let* v := sitem s name in
      let* (en, dis) := effect_seqs s normalise r in
      if truth v
      then Ok (ansi_seq (str_of_Z on) :: en,
               if normalise then dis else ansi_seq (str_of_Z off) :: dis)
      else Ok (en, dis)
  end.

(** Colour settings, rendering.py:1327-1349. *)
Definition colour_seqs (v : val) (is_background normalise : bool)
  : res (list str * list str) :=
  if truth v then
    let* c := colour_sequence v is_background in
    Ok ([ansi_seq c],
        if normalise then [] else [ansi_seq (lit (if is_background then "49" else "39"))])
  else Ok ([], []).

(** [AnsiEscapeCodeRenderer.render] after the inline rendering of the content,
    rendering.py:1302-1358.  The [font] branch refers to an undefined name
    [setting] (line 1322). *)
Definition ansi_render (s : settings) (inner : str) : res str :=
  let* nv := sattr s (lit "normalise") in
  let normalise := truth nv in
  let* (en, dis) := effect_seqs s normalise ansi_effects in
  let* font := sattr s (lit "font") in
  let* _ := match font with VNone => Ok tt | _ => Err EName end in
  let* fg := sattr s (lit "foreground_colour") in
  let* (en1, dis1) := colour_seqs fg false normalise in
  let* bg := sattr s (lit "background_colour") in
  let* (en2, dis2) := colour_seqs bg true normalise in
  let dis3 := if normalise then [ansi_seq (lit "0")] else [] in
  Ok (concat (en ++ en1 ++ en2) ++ inner ++ concat (dis ++ dis1 ++ dis2 ++ dis3)).
End D.
Close Scope Z_scope.
