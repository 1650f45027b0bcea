(** The tokenizer GopherHTMLParser inherits: html/parser.py, _markupbase.py and
    html/__init__.py of CPython 3.11.10 (line numbers below refer to those
    files), with [convert_charrefs=True] as _parser.py:366 passes it.
    Positions in [rawdata] are represented by the text from that position on.
    Comments, processing instructions and declarations call handlers that do
    nothing (GopherHTMLParser does not override them) and give no event.
    Line numbers ([updatepos]) are not modelled: nothing reads them. *)
From Verif Require Export Parser Entities.
Open Scope N_scope.

(** ** Character references, html/__init__.py:91-132 *)

(** [html5[name]] *)
Fixpoint entity_in (t : list (string * list N)) (name : str) : option str :=
  match t with
  | [] => None
  | (k, v) :: r => if seqb (lit k) name then Some v else entity_in r name
  end.
Definition entity (name : str) : option str := entity_in html5 name.

Definition hex_digit (c : N) : option N :=
  if is_digit_ascii c then Some (c - 48)
  else if (97 <=? c) && (c <=? 102) then Some (c - 87)
  else if (65 <=? c) && (c <=? 70) then Some (c - 55)
  else None.
Definition is_hex (c : N) : bool := match hex_digit c with Some _ => true | None => false end.

(** html/__init__.py:98-104, with [num] read in base 10 or 16. *)
Definition charref_num (num : N) : str :=
  match find (fun p => fst p =? num) invalid_charrefs with
  | Some (_, c) => [c]
  | None =>
      if ((55296 <=? num) && (num <=? 57343)) || (1114111 <? num) then [65533]
      else if existsb (N.eqb num) invalid_codepoints then []
      else [num]
  end.
Definition num_of (base : N) (dig : N -> option N) (s : str) : N :=
  match digits_val base 0 dig s with Some n => n | None => 0 end.

(** [int] refuses more than 4300 digits in base 10 (CPython 3.11). *)
Definition max_digits : Z := 4300%Z.

(** The longest-prefix search, html/__init__.py:110-114: [n] is the length of
    the prefix to try. *)
Fixpoint entity_prefix (n : nat) (s : str) : str :=
  match n with
  | O | S O => 38 :: s
  | S m => match entity (firstn n s) with
           | Some v => v ++ skipn n s
           | None => entity_prefix m s
           end
  end.
(** Named reference [s] (without the ampersand), html/__init__.py:106-114. *)
Definition named_ref (s : str) : str :=
  match entity s with
  | Some v => v
  | None => entity_prefix (length s - 1) s
  end.

(** [[^\t\n\f <&#;]] *)
Definition ref_char (c : N) : bool :=
  negb ((c =? 9) || (c =? 10) || (c =? 12) || (c =? 32) || (c =? 60) || (c =? 38)
        || (c =? 35) || (c =? 59)).
(** [c{0,n}] *)
Fixpoint take_upto (n : nat) (p : N -> bool) (s : str) : str :=
  match n, s with
  | S m, c :: r => if p c then c :: take_upto m p r else []
  | _, _ => []
  end.
Definition semi (s : str) : str * str :=
  match s with
  | 59 :: r => ([59], r)
  | _ => ([], s)
  end.

(** One match of [_charref] after an ampersand (html/__init__.py:117-119): what
    replaces it, and the text after the match.  [None]: no match. *)
Definition charref (s : str) : option (res str * str) :=
  let named :=
    match take_upto 32 ref_char s with
    | [] => None
    | nm => let '(sc, r) := semi (skipn (length nm) s) in Some (Ok (named_ref (nm ++ sc)), r)
    end in
  match s with
  | 35 :: r =>
      match take_while is_digit_ascii r with
      | [] =>
          match r with
          | x :: r' =>
              if (x =? 120) || (x =? 88) then
                match take_while is_hex r' with
                | [] => None
                | ds => Some (Ok (charref_num (num_of 16 hex_digit ds)),
                              snd (semi (drop_while is_hex r')))
                end
              else None
          | [] => None
          end
      | ds => Some (if (max_digits <? len ds)%Z then Err EValue
                    else Ok (charref_num (num_of 10 dec_digit ds)),
                    snd (semi (drop_while is_digit_ascii r)))
      end
  | _ => named
  end.
(** [unescape], html/__init__.py:122-132.  A match is never empty, so the length
    of the text bounds the number of rounds. *)
Fixpoint unescape_go (fuel : nat) (s : str) : res str :=
  match fuel with
  | O => Err EFuel
  | S f =>
      match s with
      | [] => Ok []
      | c :: r =>
          if c =? 38 then
            match charref r with
            | Some (v, r') => let* x := v in let* y := unescape_go f r' in Ok (x ++ y)
            | None => let* y := unescape_go f r in Ok (c :: y)
            end
          else let* y := unescape_go f r in Ok (c :: y)
      end
  end.
Definition unescape (s : str) : res str := unescape_go (S (length s)) s.

(** ** Start tags *)
Definition is_quote (c : N) : bool := (c =? 39) || (c =? 34).

(** [[^\t\n\r\f />\x00]], html/parser.py:37 *)
Definition name_char (c : N) : bool :=
  negb ((c =? 9) || (c =? 10) || (c =? 13) || (c =? 12) || (c =? 32) || (c =? 47)
        || (c =? 62) || (c =? 0)).
(** Text consumed is tracked by its last character, which the look-behind of
    attribute names reads (html/parser.py:39, 44). *)
Definition last_of (prev : N) (s : str) : N := last s prev.

(** [(?:\s|/(?!>))*], html/parser.py:37, 40, 51 *)
Fixpoint skip_misc (prev : N) (s : str) : N * str :=
  match s with
  | c :: r =>
      if is_space c then skip_misc c r
      else if c =? 47 then match r with
                           | d :: _ => if d =? 62 then (prev, s) else skip_misc c r
                           | [] => skip_misc c r
                           end
      else (prev, s)
  | [] => (prev, s)
  end.

(** The value part of an attribute, equal signs and white space followed by a
    quoted or bare value (html/parser.py:39-40, 45-49): the value as written, the last character
    consumed, the text after.  The regular expression backtracks: an opening
    quote that is never closed makes the value empty if there is a space before
    it, and start at the last of several equal signs otherwise. *)
Definition attr_value (s : str) : option (str * N * str) :=
  let s1 := drop_while is_space s in
  let eqs := take_while (N.eqb 61) s1 in
  let s2 := drop_while (N.eqb 61) s1 in
  let w2 := take_while is_space s2 in
  let s3 := drop_while is_space s2 in
  let bare_end c := (c =? 62) || is_space c in
  let bare prev t :=
    let v := take_while (fun c => negb (bare_end c)) t in
    (v, last_of prev v, drop_while (fun c => negb (bare_end c)) t) in
  match eqs with
  | [] => None
  | _ =>
      match s3 with
      | q :: t =>
          if is_quote q then
            if has_char q t then
              let v := take_while (fun c => negb (c =? q)) t in
              Some (q :: v ++ [q], q, skipn (S (length v)) t)
            else
              match rev w2 with
              | x :: _ => Some ([], last_of 61 (rev (tl (rev w2))), x :: s3)
              | [] => match eqs with
                      | _ :: _ :: _ => Some (bare 61 (61 :: s3))
                      | _ => None
                      end
              end
          else Some (bare (last_of 61 w2) s3)
      | [] => Some (bare (last_of 61 w2) s3)
      end
  end.

(** One attribute ([attrfind_tolerant], html/parser.py:38-40): name, value part,
    and the position after it and after the separators that follow. *)
Definition attr_here (prev : N) (s : str) : option (str * option str * N * str) :=
  match s with
  | c :: r =>
      if (is_quote prev || is_space prev || (prev =? 47))
         && negb (is_space c || (c =? 47) || (c =? 62)) then
        let more := fun c => negb (is_space c || (c =? 47) || (c =? 61) || (c =? 62)) in
        let nm := c :: take_while more r in
        let s1 := drop_while more r in
        match attr_value s1 with
        | Some (v, p, s2) => let '(p', s3) := skip_misc p s2 in Some (nm, Some v, p', s3)
        | None => let '(p', s3) := skip_misc (last_of c nm) s1 in Some (nm, None, p', s3)
        end
      else None
  | [] => None
  end.

(** The loop of [locatestarttagend_tolerant] over attributes (html/parser.py:43-53);
    its [\s*] after a value is part of the separators. *)
Fixpoint skip_attrs (fuel : nat) (prev : N) (s : str) : str :=
  match fuel with
  | O => s
  | S f => match attr_here prev s with
           | Some (_, _, p, r) => skip_attrs f p r
           | None => s
           end
  end.
(** [check_for_whole_start_tag], html/parser.py:306-336: the text after the tag,
    [None] for -1.  [s]: the text after the [<], which starts with a letter. *)
Definition slash_or_space (c : N) : bool := is_space c || (c =? 47).
Definition whole_start_tag (s : str) : option str :=
  let nm := take_while name_char s in
  let s1 := drop_while name_char s in
  let w := take_while slash_or_space s1 in
  let s2 := drop_while slash_or_space s1 in
  let j := drop_while is_space (skip_attrs (length s) (last_of (last_of 0 nm) w) s2) in
  match j with
  | [] => None
  | c :: r =>
      if c =? 62 then Some r
      else if c =? 47 then match r with
                           | d :: r' => if d =? 62 then Some r' else None
                           | [] => None
                           end
      else if is_alpha_ascii c || (c =? 61) then None
      else Some j
  end.

(** The attribute loop of [parse_starttag], html/parser.py:277-290; [stop] is the
    text after the tag. *)
Section Attrs.
Context `{U : Uni}.
Definition attr_val (v : option str) : res (option str) :=
  match v with
  | None => Ok None
  | Some v =>
      let v' := match v with
                | q :: r => if is_quote q && (last v 0 =? q) then removelast r else v
                | [] => []
                end in
      match v' with
      | [] => Ok (Some [])
      | _ => let* x := unescape v' in Ok (Some x)
      end
  end.
Fixpoint read_attrs (fuel : nat) (stop : str) (prev : N) (s : str)
  : res (list (str * option str) * str) :=
  match fuel with
  | O => Ok ([], s)
  | S f =>
      if (len s >? len stop)%Z then
        match attr_here prev s with
        | Some (nm, v, p, r) =>
            let* x := attr_val v in
            let* (l, k) := read_attrs f stop p r in
            Ok ((lower nm, x) :: l, k)
        | None => Ok ([], s)
        end
      else Ok ([], s)
  end.

(** ** Markup *)
(** What handling the construct at [<] does: nothing yet (-1), or handler calls,
    the new CDATA element and the text after it. *)
Inductive mark :=
| MWait
| MGo (evs : list op) (cd : option str) (rest : str)
| MFail (e : exn).

(** [rawdata[i:endpos]] *)
Definition upto (s stop : str) : str := firstn (length s - length stop) s.

(** [parse_starttag], html/parser.py:263-303.  [s] starts at the [<]. *)
Definition parse_starttag (s : str) : mark :=
  match s with
  | [] => MWait
  | _ :: t =>
      match whole_start_tag t with
      | None => MWait
      | Some stop =>
          let nm := take_while name_char t in
          let '(p, r) := skip_misc (last_of 0 nm) (drop_while name_char t) in
          match read_attrs (length t) stop p r with
          | Err e => MFail e
          | Ok (attrs, k) =>
              let fin := strip (upto k stop) in
              let tag := lower nm in
              if seqb fin (lit ">") then
                MGo [OStart tag attrs]
                    (if seqb tag (lit "script") || seqb tag (lit "style") then Some tag else None) stop
              else if seqb fin (lit "/>") then MGo [OStart tag attrs; OEnd tag] None stop
              else MGo [OData (upto s stop)] None stop
          end
      end
  end.

(** Text after the first [c], if any. *)
Fixpoint after_char (c : N) (s : str) : option str :=
  match s with
  | [] => None
  | x :: r => if x =? c then Some r else after_char c r
  end.

(** [endtagfind], html/parser.py:56, after the [</]. *)
Definition end_name_char (c : N) : bool :=
  is_alpha_ascii c || is_digit_ascii c || (c =? 45) || (c =? 46) || (c =? 58) || (c =? 95).
Definition end_tag_name (s : str) : option str :=
  match drop_while is_space s with
  | c :: r =>
      if is_alpha_ascii c then
        match drop_while is_space (drop_while end_name_char r) with
        | g :: _ => if g =? 62 then Some (c :: take_while end_name_char r) else None
        | [] => None
        end
      else None
  | [] => None
  end.
(** [parse_endtag], html/parser.py:339-377.  [t]: the text after [</]. *)
Definition parse_endtag (cd : option str) (t : str) : mark :=
  match after_char 62 t with
  | None => MWait
  | Some gt =>
      match end_tag_name t with
      | None =>
          match cd with
          | Some _ => MGo [OData (60 :: 47 :: upto t gt)] cd gt
          | None =>
              match t with
              | c :: _ =>
                  if is_alpha_ascii c then
                    let nm := take_while name_char t in
                    match after_char 62 (snd (skip_misc 0 (drop_while name_char t))) with
                    | Some r => MGo [OEnd (lower nm)] cd r
                    | None => MGo [OEnd (lower nm)] cd []   (* unreachable: [find] gives -1 *)
                    end
                  else MGo [] cd gt      (* [</>] or a bogus comment *)
              | [] => MWait
              end
          end
      | Some nm =>
          let elem := lower nm in
          match cd with
          | Some e => if seqb elem e then MGo [OEnd elem] None gt
                      else MGo [OData (60 :: 47 :: upto t gt)] cd gt
          | None => MGo [OEnd elem] None gt
          end
      end
  end.

(** First place where [p] holds of the text from there on. *)
Fixpoint search (p : str -> option str) (s : str) : option str :=
  match p s with
  | Some r => Some r
  | None => match s with [] => None | _ :: r => search p r end
  end.
(** [c \s* rest-of-pattern] *)
Definition close_at (first second : N) (gap : bool) (s : str) : option str :=
  match s with
  | a :: r =>
      if a =? first then
        match (if gap then drop_while is_space r else r) with
        | b :: r' =>
            if b =? second then
              match drop_while is_space r' with
              | g :: t => if g =? 62 then Some t else None
              | [] => None
              end
            else None
        | [] => None
        end
      else None
  | [] => None
  end.
(** [--\s*>], html/parser.py:31 *)
Definition comment_close := close_at 45 45 false.
(** []\s*]\s*>], _markupbase.py:12 *)
Definition section_close := close_at 93 93 true.
(** []\s*>], _markupbase.py:17 *)
Definition ms_close (s : str) : option str :=
  match s with
  | a :: r => if a =? 93 then match drop_while is_space r with
                              | g :: t => if g =? 62 then Some t else None
                              | [] => None
                              end
              else None
  | [] => None
  end.

Definition quiet (o : option str) : mark :=
  match o with
  | Some r => MGo [] None r
  | None => MWait
  end.

(** [_scan_name] and [parse_marked_section], _markupbase.py:145-171, 377-395.
    [s]: the text after [<![]. *)
Definition decl_name_char (c : N) : bool :=
  is_alpha_ascii c || is_digit_ascii c || (c =? 45) || (c =? 46) || (c =? 95).
Definition parse_marked_section (s : str) : mark :=
  match s with
  | [] => MWait
  | c :: _ =>
      if is_alpha_ascii c then
        let nm := take_while decl_name_char s in
        match drop_while is_space (drop_while decl_name_char s) with
        | [] => MWait
        | _ =>
            let n := lower nm in
            if smem n [lit "temp"; lit "cdata"; lit "ignore"; lit "include"; lit "rcdata"]
            then quiet (search section_close s)
            else if smem n [lit "if"; lit "else"; lit "endif"] then quiet (search ms_close s)
            else MFail EAssert
        end
      else MFail EAssert
  end.
(** [parse_html_declaration], html/parser.py:218-238.  [s] starts at [<!]. *)
Definition parse_declaration (s : str) : mark :=
  if startswith (lit "<![") s then parse_marked_section (skipn 3 s)
  else if seqb (lower (firstn 9 s)) (lit "<!doctype") then quiet (after_char 62 (skipn 9 s))
  else quiet (after_char 62 (skipn 2 s)).

(** The branches of [goahead] at a [<], html/parser.py:169-185.  [None]: a lone
    [<] at the end of the text. *)
Definition parse_markup (cd : option str) (s : str) : option mark :=
  match s with
  | _ :: c :: t =>
      if is_alpha_ascii c then Some (parse_starttag s)
      else if c =? 47 then Some (parse_endtag cd t)
      else if startswith (lit "<!--") s then
        Some (match search comment_close (skipn 4 s) with
              | Some r => MGo [] cd r | None => MWait end)
      else if c =? 63 then
        Some (match after_char 62 t with Some r => MGo [] cd r | None => MWait end)
      else if c =? 33 then Some (parse_declaration s)
      else Some (MGo [OData [60]] cd (c :: t))
  | _ => None
  end.

(** ** [goahead], html/parser.py:133-213 *)
(** Handler calls, each with the CDATA element in force when it is made; and how
    it ended: the text kept for later, or an exception raised by the tokenizer. *)
Inductive trace :=
| TStop (cd : option str) (rest : str)
| TErr (e : exn)
| TEv (o : op) (k : trace).

(** [re.I] comparison with a lower case letter of script or style: U+0130 and
    U+0131 fold to i, U+017F to s. *)
Definition same_letter (p c : N) : bool :=
  (p =? c) || (is_upper_ascii c && (p =? c + 32))
  || ((p =? 105) && ((c =? 304) || (c =? 305))) || ((p =? 115) && (c =? 383)).
Fixpoint starts_ci (p s : str) : option str :=
  match p, s with
  | [], _ => Some s
  | x :: p', y :: s' => if same_letter x y then starts_ci p' s' else None
  | _, [] => None
  end.
(** [</\s*elem\s*>] with re.I, html/parser.py:121: does it match here? *)
Definition cdata_close (e : str) (s : str) : bool :=
  match s with
  | 60 :: 47 :: r =>
      match starts_ci e (drop_while is_space r) with
      | Some r' => match drop_while is_space r' with
                   | g :: _ => g =? 62
                   | [] => false
                   end
      | None => false
      end
  | _ => false
  end.
(** Text before the closing tag of the CDATA element, and from it on. *)
Fixpoint cdata_text (e : str) (s : str) : option (str * str) :=
  if cdata_close e s then Some ([], s)
  else match s with
       | [] => None
       | c :: r => match cdata_text e r with
                   | Some (a, b) => Some (c :: a, b)
                   | None => None
                   end
       end.

(** The test for a character reference cut in half at the end of the text,
    html/parser.py:148-152: the last ampersand among the last 34 characters has
    neither white space nor a semicolon after it. *)
Fixpoint from_last (c : N) (s : str) : option str :=
  match s with
  | [] => None
  | x :: r => match from_last c r with
              | Some t => Some t
              | None => if x =? c then Some (x :: r) else None
              end
  end.
Definition half_reference (s : str) : bool :=
  match from_last 38 (skipn (length s - 34) s) with
  | Some t => negb (existsb (fun c => is_space c || (c =? 59)) t)
  | None => false
  end.

Definition not_lt (c : N) : bool := negb (c =? 60).
(** [handle_data(unescape(t))] *)
Definition emit (t : str) (k : trace) : trace :=
  match unescape t with
  | Ok u => TEv (OData u) k
  | Err e => TErr e
  end.
Fixpoint emit_all (l : list op) (k : trace) : trace :=
  match l with
  | [] => k
  | o :: r => TEv o (emit_all r k)
  end.
(** After the loop, html/parser.py:207-213. *)
Definition finish (fin : bool) (cd : option str) (s : str) : trace :=
  match s, cd with
  | _ :: _, None => if fin then emit s (TStop None []) else TStop None s
  | _, _ => TStop cd s
  end.
(** An incomplete construct at the end, html/parser.py:186-197: the piece
    handled as text and the text after it. *)
Definition unclosed (s : str) : str * str :=
  match s with
  | [] => ([], [])
  | c :: t =>
      match after_char 62 t with
      | Some r => (upto s r, r)
      | None => (c :: take_while not_lt t, drop_while not_lt t)
      end
  end.
(** With no [<] in the text that follows, only the first character is taken. *)
Definition unclosed_piece (s : str) : str * str :=
  match s with
  | [] => ([], [])
  | c :: t => if has_char 62 t || has_char 60 t then unclosed s else ([c], t)
  end.

Fixpoint goahead (fuel : nat) (fin : bool) (cd : option str) (s : str) : trace :=
  match fuel with
  | O => TErr EFuel
  | S f =>
      let markup (s : str) : trace :=
        match s with
        | [] => TStop cd []
        | _ =>
            match parse_markup cd s with
            | None => finish fin cd s
            | Some (MGo evs cd' rest) => emit_all evs (goahead f fin cd' rest)
            | Some (MFail e) => TErr e
            | Some MWait =>
                if fin then
                  let '(a, r) := unclosed_piece s in
                  match cd with
                  | None => emit a (goahead f fin cd r)
                  | Some _ => TEv (OData a) (goahead f fin cd r)
                  end
                else TStop cd s
            end
        end in
      match s with
      | [] => TStop cd []
      | _ =>
          match cd with
          | None =>
              let a := take_while not_lt s in
              let r := drop_while not_lt s in
              match r with
              | [] => if half_reference s then finish fin cd s else emit a (TStop None [])
              | _ => match a with [] => markup r | _ => emit a (markup r) end
              end
          | Some e =>
              match cdata_text e s with
              | None => TStop cd s
              | Some (a, r) => match a with [] => markup r | _ => TEv (OData a) (markup r) end
              end
          end
      end
  end.
Definition tokens (fin : bool) (cd : option str) (s : str) : trace :=
  goahead (S (length s)) fin cd s.
End Attrs.
Close Scope N_scope.
