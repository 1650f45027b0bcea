(** Specification vocabulary: what a character reference stands for. *)
From Verif Require Export SourceSpec.
From Verif Require Import RegexSpec.
Open Scope N_scope.

(** References to 128..159 mean the characters of Windows-1252. *)
Definition windows : list N :=
  [8364; 129; 8218; 402; 8222; 8230; 8224; 8225; 710; 8240; 352; 8249; 338; 141; 381; 143;
   144; 8216; 8217; 8220; 8221; 8226; 8211; 8212; 732; 8482; 353; 8250; 339; 157; 382; 376].
(** Control characters and noncharacters stand for nothing. *)
Definition no_character (n : N) : Prop :=
  1 <= n <= 8 \/ n = 11 \/ 14 <= n <= 31 \/ n = 127 \/ 64976 <= n <= 65007 \/ 65534 <= n mod 65536.
Inductive code_text : N -> str -> Prop :=
| ct_zero : code_text 0 [65533]
| ct_windows : forall n, 128 <= n <= 159 -> code_text n [nth (N.to_nat (n - 128)) windows 0]
| ct_surrogate : forall n, 55296 <= n <= 57343 -> code_text n [65533]
| ct_large : forall n, 1114111 < n -> code_text n [65533]
| ct_nothing : forall n, n <= 1114111 -> no_character n -> code_text n []
| ct_plain : forall n, 0 < n <= 1114111 -> ~ 128 <= n <= 159 -> ~ 55296 <= n <= 57343 -> ~ no_character n -> code_text n [n].

(** [stands_for g t]: the reference [g] (without its ampersand, with its
    semicolon if it has one) stands for [t]. *)
Definition semicolon (s : str) : Prop := s = [] \/ s = [59].
Definition entity_name (n v : str) : Prop := exists k, In (k, v) html5 /\ lit k = n.
Inductive stands_for : str -> str -> Prop :=
| sf_decimal : forall ds s t, ds <> [] -> Forall digit ds -> (len ds <= 4300)%Z -> semicolon s ->
    code_text (number 10 ds) t -> stands_for (35 :: ds ++ s) t
| sf_hex : forall x ds s t, x = 120 \/ x = 88 -> ds <> [] -> Forall hex_char ds -> semicolon s ->
    code_text (number 16 ds) t -> stands_for (35 :: x :: ds ++ s) t
| sf_name : forall c n v, c <> 35 -> entity_name (c :: n) v -> stands_for (c :: n) v
| sf_prefix : forall c n p q v, c <> 35 -> (forall v', ~ entity_name (c :: n) v') ->
    c :: n = p ++ q -> q <> [] -> entity_name p v ->
    (forall p' q' v', c :: n = p' ++ q' -> q' <> [] -> entity_name p' v' -> (length p' <= length p)%nat) ->
    stands_for (c :: n) (v ++ q)
| sf_nothing : forall c n, c <> 35 -> (forall p q v, c :: n = p ++ q -> ~ entity_name p v) ->
    stands_for (c :: n) (38 :: c :: n).
(** The text with its references replaced; the references are what [charref_re]
    finds. *)
Inductive decoded : list item -> str -> Prop :=
| de_nil : decoded [] []
| de_other : forall c l t, decoded l t -> decoded (Other c :: l) (c :: t)
| de_found : forall m g r l v t, find (fun x => Nat.eqb (fst x) 1) g = Some (1%nat, r) -> stands_for r v -> decoded l t ->
    decoded (Found m g :: l) (v ++ t).
Close Scope N_scope.
