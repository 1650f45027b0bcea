(** Model of gopher_render/_textwrap.py together with the parts of the standard
    library's [textwrap.TextWrapper] it inherits (CPython 3.11 textwrap.py:
    _munge_whitespace, _split, _fix_sentence_endings, _handle_long_word, wrap). *)
From Verif Require Export PyStr.
Open Scope Z_scope.

(** The TextWrapper attributes.  [w_boh_true] is the test
    [self.break_on_hyphens is True] of [_split], [w_boh] the truth test of
    [_handle_long_word]. *)
Record wcfg := Wcfg {
  w_width : Z; w_init : str; w_subs : str;
  w_expand : bool; w_replace : bool; w_fixse : bool; w_blw : bool;
  w_drop : bool; w_boh_true : bool; w_boh : bool; w_tabsize : Z;
  w_max_lines : option Z; w_placeholder : str
}.

(** Defaults of TextWrapper.__init__. *)
Definition wcfg_default (width : Z) : wcfg :=
  Wcfg width [] [] true true false true true true true 8 None (lit " [...]").

(** ** _len, _textwrap.py:14-27 *)

Section Escapes.
Context `{U : Uni}.

(** Characters of the class [\[;\d\]]. *)
Definition esc_param (c : N) : bool := (c =? 59)%N || is_digit c.

(** Length of [\[;\d\]*m] at the head of [s], if it matches. *)
Fixpoint esc_tail (s : str) : option nat :=
  match s with
  | [] => None
  | c :: r => if (c =? 109)%N then Some 1%nat
              else if esc_param c
              then match esc_tail r with Some k => Some (S k) | None => None end
              else None
  end.

(** Length of a match of [_escape_regex] at the head of [s] (0: no match). *)
Definition esc_len (s : str) : nat :=
  match s with
  | a :: b :: r =>
      if (a =? 27)%N && (b =? 91)%N
      then match esc_tail r with Some k => S (S k) | None => 0%nat end
      else 0%nat
  | _ => 0%nat
  end.

(** [_escape_regex.sub("", s)]; [k] characters of the current match remain. *)
Fixpoint strip_go (k : nat) (s : str) : str :=
  match s with
  | [] => []
  | c :: r =>
      match k with
      | S k' => strip_go k' r
      | O => match esc_len s with
             | O => c :: strip_go 0 r
             | S k' => strip_go k' r
             end
      end
  end.
Definition strip_esc (s : str) : str := strip_go 0 s.

(** [_len] on strings, _textwrap.py:23-27. *)
Definition vlen (s : str) : Z := len (strip_esc s).

(** ** Chunking (textwrap.py:139-187) *)

(** [_whitespace = '\t\n\x0b\x0c\r ']. *)
Definition tw_space (c : N) : bool :=
  ((9 <=? c) && (c <=? 13) || (c =? 32))%N%bool.

Definition munge (cfg : wcfg) (s : str) : str :=
  let s := if w_expand cfg then expandtabs (w_tabsize cfg) s else s in
  if w_replace cfg then map (fun c => if tw_space c then 32%N else c) s else s.

(** [word_punct]: \w and exclamation mark, both quotes, ampersand, full stop,
    comma, question mark; [letter]: a word character that is not a digit. *)
Definition wpunct (c : N) : bool :=
  is_word c ||
  ((c =? 33) || (c =? 34) || (c =? 39) || (c =? 38) || (c =? 46) || (c =? 44)
   || (c =? 63))%N%bool.
Definition letter (c : N) : bool := is_word c && negb (is_digit c).
Definition hyphen : N := 45%N.

(** Number of leading hyphens. *)
Fixpoint hyphens (s : str) : nat :=
  match s with
  | c :: r => if (c =? hyphen)%N then S (hyphens r) else 0%nat
  | [] => 0%nat
  end.
(** [-{2,} (?=\w)] at the head of [s]: length, 0 if no match. *)
Definition emdash (s : str) : nat :=
  let k := hyphens s in
  if Nat.leb 2 k
  then match skipn k s with
       | c :: _ => if is_word c then k else 0%nat
       | [] => 0%nat
       end
  else 0%nat.

(** [-(?: (?<=lt{2}-) | (?<=lt-lt-))(?= lt -? lt)] after the characters [pre]
    (reversed). *)
Definition hyphen_break (pre s : str) : bool :=
  match s with
  | h :: r =>
      (h =? hyphen)%N &&
      match pre with
      | a :: b :: p =>
          letter a && (letter b ||
            ((b =? hyphen)%N && match p with c :: _ => letter c | [] => false end))
      | _ => false
      end &&
      match r with
      | a :: b :: r' =>
          letter a && (letter b ||
            ((b =? hyphen)%N && match r' with c :: _ => letter c | [] => false end))
      | _ => false
      end
  | [] => false
  end.

(** The word alternative [nws+? (...)]: number of characters consumed from [s]
    (non-empty, starting with a non-whitespace character). *)
Fixpoint word_len (pre s : str) : nat :=
  match s with
  | [] => 0%nat
  | c :: r =>
      if hyphen_break (c :: pre) r then 2%nat
      else if match r with [] => true | d :: _ => tw_space d end then 1%nat
      else if wpunct c && Nat.ltb 0 (emdash r) then 1%nat
      else S (word_len (c :: pre) r)
  end.

Fixpoint run_len (p : N -> bool) (s : str) : nat :=
  match s with c :: r => if p c then S (run_len p r) else 0%nat | [] => 0%nat end.

(** Length of the chunk [wordsep_re] matches at the head of [s]. *)
Definition chunk_len (pre s : str) : nat :=
  match s with
  | [] => 0%nat
  | c :: _ =>
      if tw_space c then run_len tw_space s
      else if match pre with p :: _ => wpunct p | [] => false end && Nat.ltb 0 (emdash s)
      then emdash s
      else word_len pre s
  end.

(** Length of the piece [wordsep_simple_re.split] yields at the head of [s]. *)
Definition chunk_len_simple (pre s : str) : nat :=
  match s with
  | [] => 0%nat
  | c :: _ => if tw_space c then run_len tw_space s
              else run_len (fun c => negb (tw_space c)) s
  end.

(** Cut [s] into chunks of the lengths given by [cl]; [k] characters of the
    current chunk remain.  Both regexes match at every position, so
    [re.split] with its single group yields exactly the matches. *)
Fixpoint split_go (cl : str -> str -> nat) (k : nat) (pre s : str) : list str :=
  match s with
  | [] => []
  | c :: r =>
      match (match k with O => cl pre s | _ => k end) with
      | S (S k') =>
          match split_go cl (S k') (c :: pre) r with
          | l :: ls => (c :: l) :: ls
          | [] => [[c]]
          end
      | _ => [c] :: split_go cl 0 (c :: pre) r
      end
  end.

(** [_split], textwrap.py:163-187. *)
Definition split_chunks (cfg : wcfg) (s : str) : list str :=
  split_go (if w_boh_true cfg then chunk_len else chunk_len_simple) 0 [] s.

(** [sentence_end_re.search(chunk)]. *)
Definition sent_punct (c : N) : bool := ((c =? 46) || (c =? 33) || (c =? 63))%N%bool.
Definition sent_quote (c : N) : bool := ((c =? 34) || (c =? 39))%N%bool.
Definition sent_end (s : str) : bool :=
  match rev s with
  | a :: b :: r =>
      (sent_punct a && is_lower_ascii b)
      || (sent_quote a && sent_punct b &&
          match r with c :: _ => is_lower_ascii c | [] => false end)
  | _ => false
  end.

(** [_fix_sentence_endings], textwrap.py:189-207. *)
Fixpoint fix_se (l : list str) : list str :=
  match l with
  | a :: ((b :: r) as t) =>
      if seqb b (lit " ") && sent_end a then a :: lit "  " :: fix_se r
      else a :: fix_se t
  | _ => l
  end.

(** ** The wrapping loop, _textwrap.py:36-130 *)

(** [chunk.strip() == ''] *)
Definition blank (s : str) : bool := match strip s with [] => true | _ => false end.

(** Last index of [c] in [s]. *)
Fixpoint rfind (c : N) (s : str) : option nat :=
  match s with
  | [] => None
  | x :: r => match rfind c r with
              | Some i => Some (S i)
              | None => if (x =? c)%N then Some 0%nat else None
              end
  end.

(** [_handle_long_word], textwrap.py:209-247.  [rcur]: the current line,
    reversed; [chunks]: remaining chunks, next one first. *)
Definition handle_long_word (cfg : wcfg) (chunks rcur : list str) (cur_len width : Z)
  : list str * list str :=
  match chunks with
  | [] => (chunks, rcur)
  | chunk :: rest =>
      let space_left := if width <? 1 then 1 else width - cur_len in
      if w_blw cfg then
        let e :=
          if w_boh cfg && (len chunk >? space_left)
          then match rfind hyphen (slice_to space_left chunk) with
               | Some h =>
                   if (0 <? Z.of_nat h)
                      && existsb (fun c => negb (c =? hyphen)%N) (firstn h chunk)
                   then Z.of_nat h + 1 else space_left
               | None => space_left
               end
          else space_left in
        (slice_from e chunk :: rest, slice_to e chunk :: rcur)
      else match rcur with
           | [] => (rest, [chunk])
           | _ => (chunks, rcur)
           end
  end.

(** The inner loop, _textwrap.py:78-88. *)
Fixpoint fill (width cur_len : Z) (rcur chunks : list str) : list str * Z * list str :=
  match chunks with
  | [] => (rcur, cur_len, [])
  | c :: rest =>
      if cur_len + vlen c <=? width
      then fill width (cur_len + vlen c) (c :: rcur) rest
      else (rcur, cur_len, chunks)
  end.

(** The truncation loop, _textwrap.py:112-119. *)
Fixpoint trunc (cfg : wcfg) (indent : str) (width cur_len : Z) (rcur : list str) : option str :=
  match rcur with
  | [] => None
  | c :: rc =>
      if negb (blank c) && (cur_len + len (w_placeholder cfg) <=? width)
      then Some (indent ++ concat (rev (w_placeholder cfg :: rcur)))
      else trunc cfg indent width (cur_len - vlen c) rc
  end.

(** One iteration of the outer loop, _textwrap.py:57-128.  [rl]: the lines so
    far, newest first.  Result: lines, chunks, "break out of the loop". *)
Definition wrap_step (cfg : wcfg) (rl chunks : list str) : list str * list str * bool :=
  let indent := match rl with [] => w_init cfg | _ => w_subs cfg end in
  let width := w_width cfg - len indent in
  let chunks1 :=
    match chunks, rl with
    | c :: rest, _ :: _ => if w_drop cfg && blank c then rest else chunks
    | _, _ => chunks
    end in
  let '(rcur, cur_len, chunks2) := fill width 0 [] chunks1 in
  let '(chunks3, rcur3, cur_len3) :=
    match chunks2 with
    | c :: _ =>
        if vlen c >? width
        then let '(ch, rc) := handle_long_word cfg chunks2 rcur cur_len width in
             (ch, rc, fold_right Z.add 0 (map vlen rc))
        else (chunks2, rcur, cur_len)
    | [] => (chunks2, rcur, cur_len)
    end in
  let '(rcur4, cur_len4) :=
    match rcur3 with
    | c :: rc => if w_drop cfg && blank c then (rc, cur_len3 - vlen c) else (rcur3, cur_len3)
    | [] => (rcur3, cur_len3)
    end in
  match rcur4 with
  | [] => (rl, chunks3, false)
  | _ =>
      let ok :=
        match w_max_lines cfg with
        | None => true
        | Some m =>
            (Z.of_nat (length rl) + 1 <? m)
            || (match chunks3 with
                | [] => true
                | [c] => w_drop cfg && blank c
                | _ => false
                end && (cur_len4 <=? width))
        end in
      if ok then ((indent ++ concat (rev rcur4)) :: rl, chunks3, false)
      else match trunc cfg indent width cur_len4 rcur4 with
           | Some l => (l :: rl, chunks3, true)
           | None =>
               match rl with
               | last :: rl' =>
                   let prev := rstrip last in
                   if vlen prev + len (w_placeholder cfg) <=? w_width cfg
                   then ((prev ++ w_placeholder cfg) :: rl', chunks3, true)
                   else ((indent ++ lstrip (w_placeholder cfg)) :: rl, chunks3, true)
               | [] => ((indent ++ lstrip (w_placeholder cfg)) :: rl, chunks3, true)
               end
           end
  end.

Fixpoint wrap_loop (cfg : wcfg) (fuel : nat) (rl chunks : list str) : res (list str) :=
  match chunks with
  | [] => Ok (rev rl)
  | _ =>
      match fuel with
      | O => Err EFuel
      | S f =>
          let '(rl', chunks', stop) := wrap_step cfg rl chunks in
          if stop then Ok (rev rl') else wrap_loop cfg f rl' chunks'
      end
  end.

(** Enough iterations whenever the loop terminates (proved in WrapFacts). *)
Definition wrap_fuel (chunks : list str) : nat :=
  fold_right (fun c n => (S (length c) + n)%nat) 1%nat chunks.

(** [_wrap_chunks], _textwrap.py:36-130, with an explicit iteration budget. *)
Definition wrap_chunks_fuel (fuel : nat) (cfg : wcfg) (chunks : list str) : res (list str) :=
  if w_width cfg <=? 0 then Err EValue
  else if match w_max_lines cfg with
          | None => false
          | Some m =>
              let indent := if m >? 1 then w_subs cfg else w_init cfg in
              len indent + len (lstrip (w_placeholder cfg)) >? w_width cfg
          end
  then Err EValue
  else wrap_loop cfg fuel [] chunks.
Definition wrap_chunks (cfg : wcfg) (chunks : list str) : res (list str) :=
  wrap_chunks_fuel (wrap_fuel chunks) cfg chunks.

(** [TextWrapper.wrap], textwrap.py:341-355: chunks to be wrapped. *)
Definition text_chunks (cfg : wcfg) (text : str) : list str :=
  let chunks := split_chunks cfg (munge cfg text) in
  if w_fixse cfg then fix_se chunks else chunks.

(** [wrap], _textwrap.py:133-138. *)
Definition wrap (cfg : wcfg) (text : str) : res (list str) :=
  wrap_chunks cfg (text_chunks cfg text).
End Escapes.
Close Scope Z_scope.
