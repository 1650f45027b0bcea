(** HTML source text and the document it denotes: how a document may be written.
    Nothing here mentions the tokenizer. *)
From Verif Require Export TreeSpec Entities.
Open Scope N_scope.

(** ** Characters *)
Definition ascii_letter (c : N) : Prop := 65 <= c <= 90 \/ 97 <= c <= 122.
Definition digit (c : N) : Prop := 48 <= c <= 57.
(** Characters of names after the first: letters, digits, hyphen, dot, colon,
    underscore. *)
Definition name_part (c : N) : Prop := ascii_letter c \/ digit c \/ c = 45 \/ c = 46 \/ c = 58 \/ c = 95.
(** Tab, line feed, form feed, carriage return, space. *)
Definition html_blank (c : N) : Prop := c = 9 \/ c = 10 \/ c = 12 \/ c = 13 \/ c = 32.
Definition small (c : N) : N := if (65 <=? c) && (c <=? 90) then c + 32 else c.
(** [nm] is a spelling of the name [t] (names are in lower case). *)
Definition spells (nm t : str) : Prop :=
  exists c r, nm = c :: r /\ ascii_letter c /\ Forall name_part r /\ map small nm = t.
Definition quote_mark (c : N) : Prop := c = 34 \/ c = 39.

(** ** Text *)
(** Code points that numeric references denote as they are: no control characters
    but tab, line feed and form feed, no surrogates, no noncharacters. *)
Definition plain_point (n : N) : Prop :=
  (n = 9 \/ n = 10 \/ n = 12 \/ 32 <= n <= 126 \/ 160 <= n <= 55295 \/ 57344 <= n <= 1114111)
  /\ ~ (64976 <= n <= 65007) /\ n mod 65536 < 65534.
Definition hex_value (c : N) : N := if c <=? 57 then c - 48 else if c <=? 70 then c - 55 else c - 87.
Definition hex_char (c : N) : Prop := digit c \/ 65 <= c <= 70 \/ 97 <= c <= 102.
Definition number (base : N) (ds : str) : N := fold_left (fun n c => n * base + hex_value c) ds 0.

(** Documents that are to be fed in pieces cut anywhere are written with more
    care ([careful]): no numeric reference of more than 30 digits, and no closing
    bracket as it is in an attribute value. *)
Section W.
Variable careful : bool.

(** [text_as ok m s]: [s] is a way of writing the text [m].  Characters for which
    [ok] holds stand for themselves; an ampersand may be left alone where no
    reference can begin. *)
Inductive text_as (ok : N -> Prop) : str -> str -> Prop :=
| ta_nil : text_as ok [] []
| ta_char : forall c m s, ok c -> c <> 38 -> text_as ok m s -> text_as ok (c :: m) (c :: s)
| ta_amp : forall m s, text_as ok m s ->
    (s = [] \/ exists c r, s = c :: r /\ (c = 9 \/ c = 10 \/ c = 12 \/ c = 32 \/ c = 38 \/ c = 59)) ->
    text_as ok (38 :: m) (38 :: s)
| ta_named : forall k nm v m s, In (k, v) html5 -> lit k = nm ++ [59] -> text_as ok m s ->
    text_as ok (v ++ m) (38 :: nm ++ 59 :: s)
| ta_decimal : forall ds m s, ds <> [] -> Forall digit ds -> (len ds <= if careful then 30 else 4300)%Z -> plain_point (number 10 ds) ->
    text_as ok m s -> text_as ok (number 10 ds :: m) (38 :: 35 :: ds ++ 59 :: s)
| ta_hex : forall x ds m s, x = 88 \/ x = 120 -> ds <> [] -> Forall hex_char ds -> (careful = true -> len ds <= 30)%Z -> plain_point (number 16 ds) ->
    text_as ok m s -> text_as ok (number 16 ds :: m) (38 :: 35 :: x :: ds ++ 59 :: s).

(** ** Attributes *)
(** Values without quotes hold no blanks (of any kind), quotes, or < = > `. *)
Definition bare_char (c : N) : Prop :=
  is_space c = false /\ ~ quote_mark c /\ c <> 60 /\ c <> 61 /\ c <> 62 /\ c <> 96.
(** The last component: the value ends without a quote. *)
Inductive value_as : option str -> str -> bool -> Prop :=
| va_none : value_as None [] false
| va_quoted : forall q w1 w2 v s, quote_mark q -> Forall html_blank w1 -> Forall html_blank w2 ->
    (careful = true -> ~ In 62 s) -> text_as (fun c => c <> q) v s -> value_as (Some v) (w1 ++ 61 :: w2 ++ q :: s ++ [q]) false
| va_bare : forall w1 w2 v s, Forall html_blank w1 -> Forall html_blank w2 -> s <> [] ->
    text_as bare_char v s -> value_as (Some v) (w1 ++ 61 :: w2 ++ s) true.
Inductive attrs_as : list (str * option str) -> str -> bool -> Prop :=
| aa_nil : attrs_as [] [] false
| aa_one : forall w nm k v vs b l s b', w <> [] -> Forall html_blank w ->
    nm <> [] -> Forall name_part nm -> map small nm = k -> value_as v vs b -> attrs_as l s b' ->
    attrs_as ((k, v) :: l) (w ++ nm ++ vs ++ s) (match l with [] => b | _ => b' end).

(** ** Tags *)
Inductive start_as (t : str) (a : list (str * option str)) : str -> Prop :=
| sa_plain : forall nm s b w, spells nm t -> attrs_as a s b -> Forall html_blank w ->
    start_as t a (60 :: nm ++ s ++ w ++ [62]).
(** The form that ends in a slash; a bare value must not run into it. *)
Inductive slashed_as (t : str) (a : list (str * option str)) : str -> Prop :=
| la_slash : forall nm s b w, spells nm t -> attrs_as a s b -> Forall html_blank w -> (b = true -> w <> []) ->
    slashed_as t a (60 :: nm ++ s ++ w ++ [47; 62]).
(** End tags. *)
Inductive end_as (t : str) : str -> Prop :=
| ea_end : forall w1 nm w2, Forall html_blank w1 -> spells nm t -> Forall html_blank w2 ->
    end_as t (60 :: 47 :: w1 ++ nm ++ w2 ++ [62]).

End W.

(** Comments hold no two hyphens in a row and do not end in one. *)
Definition comment_body (b : str) : Prop :=
  (forall x y, b <> x ++ 45 :: 45 :: y) /\ (forall x, b <> x ++ [45]).
(** What is not part of the document: comments, the document type, processing
    instructions. *)
Inductive aside : str -> Prop :=
| as_comment : forall b, comment_body b -> aside (60 :: 33 :: 45 :: 45 :: b ++ [45; 45; 62])
| as_doctype : forall d b, map small d = lit "doctype" -> ~ In 62 b -> aside (60 :: 33 :: d ++ b ++ [62])
| as_instruction : forall b, ~ In 62 b -> aside (60 :: 63 :: b ++ [62]).

(** ** Documents *)
(** Text in an element whose content is not markup. *)
Definition raw_element (t : str) : Prop := t = lit "script" \/ t = lit "style".
Definition raw_text (s : str) : Prop := forall x y, s <> x ++ 60 :: 47 :: y.
Definition at_tag (s : str) : Prop := s = [] \/ exists r, s = 60 :: r.

Inductive written (careful : bool) : list html -> str -> Prop :=
| wr_nil : written careful [] []
| wr_text : forall m s rest src, s <> [] -> text_as careful (fun c => c <> 60) m s -> at_tag src -> written careful rest src ->
    written careful (HText m :: rest) (s ++ src)
| wr_element : forall t a st kids ks en rest src, ~ raw_element t -> void t = false ->
    start_as careful t a st -> written careful kids ks -> end_as t en -> written careful rest src ->
    written careful (HTag t a kids :: rest) (st ++ ks ++ en ++ src)
| wr_empty : forall t a st rest src, void t = false -> slashed_as careful t a st -> written careful rest src ->
    written careful (HTag t a [] :: rest) (st ++ src)
| wr_void : forall t a st rest src, void t = true -> start_as careful t a st \/ slashed_as careful t a st -> written careful rest src ->
    written careful (HTag t a [] :: rest) (st ++ src)
| wr_raw : forall t a st s en rest src, raw_element t ->
    start_as careful t a st -> raw_text s -> end_as t en -> written careful rest src ->
    written careful (HTag t a (match s with [] => [] | _ => [HText s] end) :: rest) (st ++ s ++ en ++ src)
| wr_aside : forall x rest src, aside x -> written careful rest src -> written careful rest (x ++ src).
Close Scope N_scope.
