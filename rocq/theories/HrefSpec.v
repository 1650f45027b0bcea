(** Where any href points (C76): a reading of the whole href, by what its parts
    are rather than by how they are cut. *)
From Verif Require Export UrlSpec.
Open Scope N_scope.

(** [a] is [s] up to the first [c], or all of it; [b] what follows the [c]. *)
Definition before (c : N) (s a : str) : Prop := ~ In c a /\ (s = a \/ exists b, s = a ++ c :: b).
Definition after (c : N) (s b : str) : Prop := ~ In c s /\ b = [] \/ exists a, ~ In c a /\ s = a ++ c :: b.

Section Href.
Context `{U : Uni}.
(** Blanks and control characters in front are dropped; tabs and line ends
    everywhere. *)
Definition tidied (h u : str) : Prop :=
  exists lead rest, h = lead ++ rest /\ Forall (fun c => c <= 32) lead /\ (forall c r, rest = c :: r -> 32 < c)
    /\ u = filter (fun c => negb (existsb (N.eqb c) [9; 10; 13])) rest.
(** Scheme, in lower case, and rest. *)
Definition schemed (u s rest : str) : Prop :=
  (exists w, with_scheme u w rest /\ s = lower w)
  \/ (forall w r, ~ with_scheme u w r) /\ s = [] /\ rest = u.
(** Authority and rest. *)
Definition ends_authority (c : N) : Prop := c = 47 \/ c = 63 \/ c = 35.
Definition has_authority (u n t : str) : Prop :=
  (u = lit "//" ++ n ++ t /\ Forall (fun c => ~ ends_authority c) n /\ forall c r, t = c :: r -> ends_authority c)
  \/ (forall r, u <> lit "//" ++ r) /\ n = [] /\ t = u.
(** Authorities refused. *)
Definition refused (n : str) : Prop :=
  In 91 n /\ ~ In 93 n \/ In 93 n /\ ~ In 91 n
  \/ (In 91 n /\ exists r b, after 91 n r /\ before 93 r b /\ u_bracket_ok b = false)
  \/ (exists c, In c n /\ 128 <= c) /\ u_nfkc_bad n = true.
(** Path, without the parameters of its last component where the scheme has
    them. *)
Definition with_parameters : list string :=
  [""; "ftp"; "hdl"; "prospero"; "http"; "imap"; "https"; "shttp"; "rtsp"; "rtsps"; "rtspu"; "sip"; "sips";
   "mms"; "sftp"; "tel"]%string.
Definition path_of (s t p : str) : Prop :=
  exists p0, path_then t p0 /\
    ((exists w, In w with_parameters /\ s = lit w)
       /\ (exists dir name name', last_component p0 dir name /\ before 59 name name' /\ p = dir ++ name')
     \/ (forall w, In w with_parameters -> s <> lit w) /\ p = p0).
(** Host and port of an authority: the user is dropped; a host in brackets may
    contain colons; the zone of an address keeps its case. *)
Definition without_user (n h : str) : Prop := ~ In 64 n /\ h = n \/ exists u, n = u ++ 64 :: h /\ ~ In 64 h.
Definition host_text (n h : str) : Prop :=
  exists hp, without_user n hp /\ (~ In 91 hp /\ before 58 hp h \/ In 91 hp /\ exists r, after 91 hp r /\ before 93 r h).
Definition port_text (n p : str) : Prop :=
  exists hp, without_user n hp /\ (~ In 91 hp /\ after 58 hp p \/ In 91 hp /\ exists r q, after 91 hp r /\ after 93 r q /\ after 58 q p).
Definition host_of (n : str) (o : option str) : Prop :=
  exists h, host_text n h /\
    (h = [] /\ o = None
     \/ h <> [] /\ ~ In 37 h /\ o = Some (lower h)
     \/ exists a z, h = a ++ 37 :: z /\ ~ In 37 a /\ o = Some (lower a ++ 37 :: z)).
Definition port_number (p : str) (k : Z) : Prop := p <> [] /\ decimal 0 p = Some k /\ (k <= 65535)%Z.
Definition port_of (n : str) (o : res (option Z)) : Prop :=
  exists p, port_text n p /\
    (p = [] /\ o = Ok None \/ (exists k, port_number p k /\ o = Ok (Some k))
     \/ p <> [] /\ (forall k, ~ port_number p k) /\ o = Err EValue).
(** The item type of a path: by what follows its last dot, unless the dot is the
    first character or there is none. *)
Definition item_type (p t : str) : Prop :=
  (exists ext, has_extension p ext /\ t = type_of item_types ext) \/ no_extension p /\ t = lit "1".

(** The target. *)
Definition web (h host : str) (prt : Z) : glink := GLink (lit "h") (lit "URL:" ++ h) (Some host) (Some prt).
Definition leads (href : option str) (host : str) (prt : Z) (r : res glink) : Prop :=
  match href with
  | None => r = Ok (web (lit "None") host prt)
  | Some h => exists u s rest n t p,
      tidied h u /\ schemed u s rest /\ has_authority rest n t /\ path_of s t p /\
      (refused n /\ r = Err EValue
       \/ ~ refused n /\ s <> [] /\ s <> lit "gopher" /\ r = Ok (web h host prt)
       \/ ~ refused n /\ s = [] /\ (exists ty, item_type p ty /\ r = Ok (GLink ty p (Some host) (Some prt)))
       \/ ~ refused n /\ s = lit "gopher" /\ (exists q, port_of n q
            /\ match q with
               | Ok q => exists ty ho, item_type p ty /\ host_of n ho /\ r = Ok (GLink ty p ho q)
               | Err e => r = Err e
               end))
  end.
End Href.
Close Scope N_scope.
