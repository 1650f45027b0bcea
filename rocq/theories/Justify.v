(** Model of the justification helpers, rendering.py:9-91. *)
From Verif Require Export Textwrap.
Open Scope Z_scope.

Section J.
Context `{U : Uni}.

Definition set_width (cfg : wcfg) (w : Z) : wcfg :=
  Wcfg w (w_init cfg) (w_subs cfg) (w_expand cfg) (w_replace cfg) (w_fixse cfg)
       (w_blw cfg) (w_drop cfg) (w_boh_true cfg) (w_boh cfg) (w_tabsize cfg)
       (w_max_lines cfg) (w_placeholder cfg).

(** The loop body of [full_justify], rendering.py:16-38. *)
Definition full_line (width : Z) (line : str) : str :=
  let orig_len := len line in
  let ls := lstrip line in
  let indent := spaces (orig_len - len ls) in
  let padding := width - orig_len in
  let rs := rstrip ls in
  if padding =? 0 then line
  else
    let words := split_on 32%N rs in
    let gaps := Z.of_nat (length words) - 1 in
    if gaps =? 0 then line
    else
      let n := padding / gaps in
      let r := padding mod gaps in
      let narrow := spaces (n + 1) in
      if r =? 0 then indent ++ join narrow words
      else
        let wide := spaces (n + 2) in
        indent ++ join wide (firstn (Z.to_nat r) words) ++ wide
               ++ join narrow (skipn (Z.to_nat r) words).

(** All lines but the last are spread (rendering.py:16, 39-40). *)
Fixpoint full_lines (width : Z) (lines : list str) : list str :=
  match lines with
  | [] => []
  | [l] => [l]
  | l :: r => full_line width l :: full_lines width r
  end.

(** rendering.py:13-41 *)
Definition full_justify (cfg : wcfg) (width : Z) (text : str) : res str :=
  let* lines := wrap (set_width cfg width) text in
  Ok (join [10%N] (full_lines width lines)).
(** rendering.py:44-46 *)
Definition left_justify (cfg : wcfg) (width : Z) (text : str) : res str :=
  let* lines := wrap (set_width cfg width) text in
  Ok (join [10%N] lines).
(** [center], rendering.py:61-64 ([right], rendering.py:67-70). *)
Definition center (text : str) (width : Z) : str :=
  if width =? 0 then text else center_pad width text.
Definition right (text : str) (width : Z) : str :=
  if width =? 0 then text else rjust width text.
(** rendering.py:49-52 *)
Definition right_justify (cfg : wcfg) (width : Z) (text : str) : res str :=
  let* lines := wrap (set_width cfg width) text in
  Ok (join [10%N] (map (fun l => right l width) lines)).
(** rendering.py:55-58 *)
Definition center_justify (cfg : wcfg) (width : Z) (text : str) : res str :=
  let* lines := wrap (set_width cfg width) text in
  Ok (join [10%N] (map (fun l => center l width) lines)).

(** The [justifications] table, rendering.py:73-79; an unknown name is a KeyError. *)
Definition justify (name : str) (cfg : wcfg) (width : Z) (text : str) : res str :=
  if seqb name (lit "none") then Ok text
  else if seqb name (lit "full") then full_justify cfg width text
  else if seqb name (lit "center") then center_justify cfg width text
  else if seqb name (lit "left") then left_justify cfg width text
  else if seqb name (lit "right") then right_justify cfg width text
  else Err EKey.

(** [capitalize], rendering.py:85-86 (applied when the setting is true). *)
Definition capitalize_if (b : bool) (s : str) : str := if b then upper s else s.

(** [spread], rendering.py:89-91. *)
Definition spread (text spread_char : str) (count : Z) : str :=
  join (srep spread_char count) (map (fun c => [c]) text).
End J.
Close Scope Z_scope.
