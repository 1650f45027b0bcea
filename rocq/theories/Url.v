(** Link targets: _parser.py:130-185 on top of urllib.parse (CPython 3.11). *)
From Verif Require Export PyStr.
Open Scope N_scope.

Section Url.
Context `{U : Uni}.

(** urllib.parse.scheme_chars *)
Definition scheme_char (c : N) : bool :=
  is_alpha_ascii c || is_digit_ascii c || (c =? 43) || (c =? 45) || (c =? 46).

(** Scheme detection in urlsplit: returns (scheme, rest). *)
Definition split_scheme (url : str) : str * str :=
  let '(h, f, t) := partition 58 url in
  match h with
  | c :: _ =>
      if f && is_alpha_ascii c && forallb scheme_char h then (lower h, t)
      else ([], url)
  | [] => ([], url)
  end.

(** [_splitnetloc(url, 2)] after the leading [//]. *)
Definition netloc_delim (c : N) : bool := (c =? 47) || (c =? 63) || (c =? 35).
Definition split_netloc (s : str) : str * str :=
  (take_while (fun c => negb (netloc_delim c)) s,
   drop_while (fun c => negb (netloc_delim c)) s).

Definition is_ascii (s : str) : bool := forallb (fun c => c <? 128) s.

(** Schemes in urllib.parse.uses_params. *)
Definition uses_params : list str := map lit
  [""; "ftp"; "hdl"; "prospero"; "http"; "imap"; "https"; "shttp"; "rtsp";
   "rtsps"; "rtspu"; "sip"; "sips"; "mms"; "sftp"; "tel"]%string.

(** [_splitparams(url)[0]] (called when [;] occurs in url). *)
Definition split_params (url : str) : str :=
  let '(h, f, t) := rpartition 47 url in
  if f then h ++ [47] ++ fst (fst (partition 59 t))
  else fst (fst (partition 59 url)).

Record parsed_url := PUrl { pu_scheme : str; pu_netloc : str; pu_path : str }.

(** [urlparse(url)] for a str argument, reduced to the three fields the code
    reads. *)
Definition urlparse (url0 : str) : res parsed_url :=
  let url1 := drop_while (fun c => c <=? 32) url0 in
  let url := remove_char 10 (remove_char 13 (remove_char 9 url1)) in
  let '(scheme, url) := split_scheme url in
  let '(netloc, url, has_netloc) :=
    match url with
    | 47 :: 47 :: r => let '(n, u) := split_netloc r in (n, u, true)
    | _ => ([], url, false)
    end in
  let op := has_char 91 netloc in
  let cl := has_char 93 netloc in
  if xorb op cl then Err EValue
  else if op && cl
          && negb (u_bracket_ok (fst (fst (partition 93 (snd (partition 91 netloc))))))
  then Err EValue
  else
    let url := fst (fst (partition 35 url)) in
    let url := fst (fst (partition 63 url)) in
    if negb (is_ascii netloc) && u_nfkc_bad netloc then Err EValue
    else
      let path := if smem scheme uses_params && has_char 59 url
                  then split_params url else url in
      Ok (PUrl scheme netloc path).

(** [_hostinfo] : (hostname, port). *)
Definition hostinfo (netloc : str) : str * option str :=
  let hi := snd (rpartition 64 netloc) in
  let '(_, f, bracketed) := partition 91 hi in
  let '(h, p) :=
    if f then
      let '(h, _, p) := partition 93 bracketed in (h, snd (partition 58 p))
    else
      let '(h, _, p) := partition 58 hi in (h, p) in
  (h, match p with [] => None | _ => Some p end).

(** [parsed.hostname] *)
Definition hostname (netloc : str) : option str :=
  match fst (hostinfo netloc) with
  | [] => None
  | h => let '(a, f, z) := partition 37 h in
         Some (lower a ++ (if f then [37] else []) ++ z)
  end.

(** [parsed.port] *)
Definition port (netloc : str) : res (option Z) :=
  match snd (hostinfo netloc) with
  | None => Ok None
  | Some p =>
      match digits_val 10 0 dec_digit p with
      | Some n => if n <=? 65535 then Ok (Some (Z.of_N n)) else Err EValue
      | None => Err EValue
      end
  end.

(** The dictionary returned by [_parse_href], _parser.py:149-185.
    Simplification: [type] is kept as the string it prints as (the code uses the
    ints 0, 1, 9 and the strings h, g, I). *)
Record glink := GLink {
  gl_type : str; gl_selector : str; gl_host : option str; gl_port : option Z }.

(** [_guess_type], _parser.py:131-146. *)
Definition guess_type (path : str) : str :=
  let '(h, _, ext) := rpartition 46 path in
  match h with
  | [] => lit "1"
  | _ =>
      if smem ext (map lit ["html"; "htm"]%string) then lit "h"
      else if seqb ext (lit "gif") then lit "g"
      else if smem ext (map lit ["jpg"; "jpeg"; "png"; "bmp"; "tiff"]%string) then lit "I"
      else if smem ext (map lit ["txt"; "csv"; "tsv"; "md"]%string) then lit "0"
      else lit "9"
  end.

(** Web links, _parser.py:155-161 and 178-185. *)
Definition web_link (href : str) (ghost : str) (gport : Z) : glink :=
  GLink (lit "h") (lit "URL:" ++ href) (Some ghost) (Some gport).

(** [_parse_href], _parser.py:149-185.  [urlparse(None)] yields bytes fields,
    none of which equals a str, so a missing href takes the last branch with
    the text "None". *)
Definition parse_href (href : option str) (ghost : str) (gport : Z) : res glink :=
  match href with
  | None => Ok (web_link (lit "None") ghost gport)
  | Some h =>
      let* p := urlparse h in
      if seqb (pu_scheme p) (lit "http") || seqb (pu_scheme p) (lit "https")
      then Ok (web_link h ghost gport)
      else if seqb (pu_scheme p) (lit "gopher") then
        let* pt := port (pu_netloc p) in
        Ok (GLink (guess_type (pu_path p)) (pu_path p) (hostname (pu_netloc p)) pt)
      else if seqb (pu_scheme p) [] then
        Ok (GLink (guess_type (pu_path p)) (pu_path p) (Some ghost) (Some gport))
      else Ok (web_link h ghost gport)
  end.
End Url.
Close Scope N_scope.
