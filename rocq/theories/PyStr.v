(** Models of the [str] methods that /repo/gopher_render calls. *)
From Verif Require Export PyBase.

(** ** Character classes *)

(** The Unicode data above U+007F that Python's [re] and [str] consult and the
    model leaves abstract.  Every theorem quantifies over it.
    [u_nfkc_bad] / [u_bracket_ok]: the netloc checks of urllib.parse
    ([_checknetloc], [_check_bracketed_host]), used from _parser.py:154. *)
Class Uni := {
  u_word : N -> bool;
  u_decimal : N -> option N;
  u_upper : N -> str;
  u_lower : N -> str;
  u_nfkc_bad : str -> bool;
  u_bracket_ok : str -> bool
}.

(** A concrete instance for examples: nothing above ASCII is a word character. *)
Definition ascii_uni : Uni := {|
  u_word := fun _ => false; u_decimal := fun _ => None;
  u_upper := fun c => [c]; u_lower := fun c => [c];
  u_nfkc_bad := fun _ => false; u_bracket_ok := fun _ => true |}.

Open Scope N_scope.

(** Characters removed by [str.strip()] / separating [str.split()]:
    the complete Unicode list of CPython 3.11. *)
Definition is_space (c : N) : bool :=
  ((9 <=? c) && (c <=? 13)) || ((28 <=? c) && (c <=? 32)) || (c =? 133)
  || (c =? 160) || (c =? 5760) || ((8192 <=? c) && (c <=? 8202))
  || (c =? 8232) || (c =? 8233) || (c =? 8239) || (c =? 8287) || (c =? 12288).

(** Line boundaries of [str.splitlines()]: complete list. *)
Definition is_linebreak (c : N) : bool :=
  ((10 <=? c) && (c <=? 13)) || ((28 <=? c) && (c <=? 30)) || (c =? 133)
  || (c =? 8232) || (c =? 8233).

(** [re] classes. *)
Definition is_upper_ascii (c : N) : bool := (65 <=? c) && (c <=? 90).
Definition is_lower_ascii (c : N) : bool := (97 <=? c) && (c <=? 122).
Definition is_digit_ascii (c : N) : bool := (48 <=? c) && (c <=? 57).
Definition is_alpha_ascii (c : N) : bool := is_upper_ascii c || is_lower_ascii c.
Definition is_digit `{Uni} (c : N) : bool :=
  if c <? 128 then is_digit_ascii c else match u_decimal c with Some _ => true | None => false end.
Definition is_word `{Uni} (c : N) : bool :=
  if c <? 128 then is_alpha_ascii c || is_digit_ascii c || (c =? 95) else u_word c.

(** ** strip family *)
Fixpoint drop_while (p : N -> bool) (s : str) : str :=
  match s with
  | [] => []
  | c :: r => if p c then drop_while p r else s
  end.
Fixpoint take_while (p : N -> bool) (s : str) : str :=
  match s with
  | [] => []
  | c :: r => if p c then c :: take_while p r else []
  end.
(** [s.lstrip()] (_parser.py:268, rendering.py:18) *)
Definition lstrip (s : str) : str := drop_while is_space s.
(** [s.rstrip()] (_parser.py:265, _parser.py:587, rendering.py:21) *)
Definition rstrip (s : str) : str := rev (drop_while is_space (rev s)).
(** [s.strip()] (_parser.py:267, _textwrap.py:75, rendering.py:627) *)
Definition strip (s : str) : str := rstrip (lstrip s).

(** ** split / join *)

(** [s.split(c)] for a one-character separator (_parser.py:262, rendering.py:26,
    rendering.py:440). *)
Fixpoint split_on (c : N) (s : str) : list str :=
  match s with
  | [] => [[]]
  | x :: r =>
      if x =? c then [] :: split_on c r
      else match split_on c r with
           | l :: ls => (x :: l) :: ls
           | [] => [[x]]
           end
  end.

(** [s.split()]: maximal runs of non-whitespace (_parser.py:54, _selectors.py:149). *)
Fixpoint split_ws_aux (cur : str) (s : str) : list str :=
  match s with
  | [] => match cur with [] => [] | _ => [rev cur] end
  | c :: r =>
      if is_space c
      then match cur with [] => split_ws_aux [] r | _ => rev cur :: split_ws_aux [] r end
      else split_ws_aux (c :: cur) r
  end.
Definition split_ws (s : str) : list str := split_ws_aux [] s.

(** [sep.join(l)] *)
Fixpoint join (sep : str) (l : list str) : str :=
  match l with
  | [] => []
  | [x] => x
  | x :: r => x ++ sep ++ join sep r
  end.

(** [s.splitlines(keepends)] (_parser.py:561, rendering.py:418,679,982). *)
Fixpoint splitlines (keep : bool) (s : str) : list str :=
  match s with
  | [] => []
  | c :: r =>
      match r with
      | d :: r' =>
          if (c =? 13) && (d =? 10)
          then (if keep then [c; d] else []) :: splitlines keep r'
          else if is_linebreak c
          then (if keep then [c] else []) :: splitlines keep r
          else match splitlines keep r with
               | l :: ls => (c :: l) :: ls
               | [] => [[c]]
               end
      | [] => if is_linebreak c then [if keep then [c] else []] else [[c]]
      end
  end.

(** ** prefixes, suffixes, substrings *)
Fixpoint startswith (p s : str) : bool :=
  match p, s with
  | [], _ => true
  | x :: p', y :: s' => (x =? y) && startswith p' s'
  | _ :: _, [] => false
  end.
Definition endswith (p s : str) : bool := startswith (rev p) (rev s).
(** [p in s] for strings. *)
Fixpoint contains (p s : str) : bool :=
  startswith p s || match s with [] => false | _ :: r => contains p r end.
Definition has_char (c : N) (s : str) : bool := existsb (N.eqb c) s.

(** [s.partition(c)] : (head, found, tail). *)
Fixpoint partition (c : N) (s : str) : str * bool * str :=
  match s with
  | [] => ([], false, [])
  | x :: r => if x =? c then ([], true, r)
              else let '(h, f, t) := partition c r in (x :: h, f, t)
  end.
(** [s.rpartition(c)] : when not found Python returns ('', '', s). *)
Definition rpartition (c : N) (s : str) : str * bool * str :=
  let '(h, f, t) := partition c (rev s) in
  if f then (rev t, true, rev h) else ([], false, s).

(** [s.replace(c, "")] *)
Definition remove_char (c : N) (s : str) : str := filter (fun x => negb (x =? c)) s.

(** ** case *)
Definition upper_c `{Uni} (c : N) : str :=
  if c <? 128 then [if is_lower_ascii c then c - 32 else c] else u_upper c.
(** [s.upper()] (rendering.py:86); upper-casing is context free in CPython. *)
Definition upper `{Uni} (s : str) : str := flat_map upper_c s.
Definition lower_c `{Uni} (c : N) : str :=
  if c <? 128 then [if is_upper_ascii c then c + 32 else c] else u_lower c.
(** [s.lower()] (urllib.parse, via _parser.py:154,167).  Simplification: the
    context-sensitive final sigma is not modelled. *)
Definition lower `{Uni} (s : str) : str := flat_map lower_c s.

(** ** padding *)
Open Scope Z_scope.
(** [s.rjust(w)] (rendering.py:70) *)
Definition rjust (w : Z) (s : str) : str := spaces (w - len s) ++ s.
(** [s.center(w)] (rendering.py:64): CPython puts
    [marg/2 + (marg & w & 1)] spaces on the left. *)
Definition center_pad (w : Z) (s : str) : str :=
  if len s >=? w then s
  else let marg := w - len s in
       let left := marg / 2 + (if Z.odd marg && Z.odd w then 1 else 0) in
       spaces left ++ s ++ spaces (marg - left).

(** [s.expandtabs(t)] (textwrap.TextWrapper._munge_whitespace). *)
Fixpoint expandtabs_from (t col : Z) (s : str) : str :=
  match s with
  | [] => []
  | c :: r =>
      if (c =? 9)%N
      then if t >? 0
           then spaces (t - col mod t) ++ expandtabs_from t (col + (t - col mod t)) r
           else expandtabs_from t col r
      else if (c =? 10)%N || (c =? 13)%N
      then c :: expandtabs_from t 0 r
      else c :: expandtabs_from t (col + 1) r
  end.
Definition expandtabs (t : Z) (s : str) : str := expandtabs_from t 0 s.

(** [s[:n]], [s[n:]] for n >= 0 (callers never pass a negative bound). *)
Definition slice_to (n : Z) (s : str) : str := firstn (Z.to_nat n) s.
Definition slice_from (n : Z) (s : str) : str := skipn (Z.to_nat n) s.

(** ** decimal numerals: [str(n)] *)
Fixpoint uint_str (u : Decimal.uint) : str :=
  match u with
  | Decimal.Nil => []
  | Decimal.D0 r => 48%N :: uint_str r
  | Decimal.D1 r => 49%N :: uint_str r
  | Decimal.D2 r => 50%N :: uint_str r
  | Decimal.D3 r => 51%N :: uint_str r
  | Decimal.D4 r => 52%N :: uint_str r
  | Decimal.D5 r => 53%N :: uint_str r
  | Decimal.D6 r => 54%N :: uint_str r
  | Decimal.D7 r => 55%N :: uint_str r
  | Decimal.D8 r => 56%N :: uint_str r
  | Decimal.D9 r => 57%N :: uint_str r
  end.
Definition str_of_Z (z : Z) : str :=
  match Z.to_int z with
  | Decimal.Pos u => uint_str u
  | Decimal.Neg u => 45%N :: uint_str u
  end.

Fixpoint digits_val (base acc : N) (dig : N -> option N) (s : str) : option N :=
  match s with
  | [] => Some acc
  | c :: r => match dig c with
              | Some d => digits_val base (acc * base + d)%N dig r
              | None => None
              end
  end.
Definition dec_digit (c : N) : option N :=
  if is_digit_ascii c then Some (c - 48)%N else None.
(** [int(c)] of one character: a decimal digit of any script. *)
Definition uni_decimal `{Uni} (c : N) : option N :=
  if (c <? 128)%N then dec_digit c else u_decimal c.

Close Scope Z_scope.
Close Scope N_scope.
