(** Hrefs and gopher items (C44, C45). *)
From Verif Require Export Url.
Open Scope N_scope.

(** A URL scheme: a letter, then letters, digits, plus, minus, dot (RFC 3986 3.1). *)
Definition letter (c : N) : Prop := 65 <= c <= 90 \/ 97 <= c <= 122.
Definition scheme_letter (c : N) : Prop :=
  letter c \/ 48 <= c <= 57 \/ c = 43 \/ c = 45 \/ c = 46.
Definition is_scheme (s : str) : Prop :=
  exists c r, s = c :: r /\ letter c /\ Forall scheme_letter r.
(** [h] is [s], a colon, [rest], and [s] is a scheme. *)
Definition with_scheme (h s rest : str) : Prop := h = s ++ 58 :: rest /\ is_scheme s.

(** No white space or control character in front, no tab or newline inside. *)
Definition clean (h : str) : Prop :=
  ~ In 9 h /\ ~ In 10 h /\ ~ In 13 h /\ forall c r, h = c :: r -> 32 < c.
(** [h] is the path [p] followed by an optional query and fragment. *)
Definition path_then (h p : str) : Prop :=
  exists rest, h = p ++ rest /\ ~ In 63 p /\ ~ In 35 p
  /\ (rest = [] \/ exists c r, rest = c :: r /\ (c = 63 \/ c = 35)).

(** Host names: ASCII, none of the delimiters of RFC 3986 3.2. *)
Definition host_char (c : N) : Prop :=
  c < 128 /\ ~ In c [47; 63; 35; 64; 58; 91; 93; 37].
Definition is_host (h : str) : Prop := h <> [] /\ Forall host_char h.
(** Ports in decimal. *)
Fixpoint decimal (acc : Z) (ds : str) : option Z :=
  match ds with
  | [] => Some acc
  | c :: r => if (48 <=? c) && (c <=? 57) then decimal (10 * acc + Z.of_N c - 48) r else None
  end.

(** Item types by extension. *)
Definition item_types : list (string * string) :=
  [("html", "h"); ("htm", "h"); ("gif", "g"); ("jpg", "I"); ("jpeg", "I"); ("png", "I");
   ("bmp", "I"); ("tiff", "I"); ("txt", "0"); ("csv", "0"); ("tsv", "0"); ("md", "0")]%string.
Fixpoint type_of (l : list (string * string)) (ext : str) : str :=
  match l with
  | [] => lit "9"
  | (e, t) :: r => if seqb ext (lit e) then lit t else type_of r ext
  end.
(** The extension of a file name: what follows its last dot, unless nothing
    precedes that dot. *)
Definition has_extension (name ext : str) : Prop :=
  exists stem, stem <> [] /\ name = stem ++ 46 :: ext /\ ~ In 46 ext.
Definition no_extension (name : str) : Prop := forall ext, ~ has_extension name ext.
(** [path] is a directory part (empty or ending in a slash) and a name. *)
Definition last_component (path dir name : str) : Prop :=
  path = dir ++ name /\ ~ In 47 name /\ (dir = [] \/ exists d, dir = d ++ [47]).
Close Scope N_scope.
