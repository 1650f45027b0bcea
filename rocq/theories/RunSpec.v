(** What can go wrong when the command line tool renders a file. *)
From Verif Require Export MarkupSpec HrefSpec PageSpec DepthSpec CliSpec ArgSpec.
Open Scope Z_scope.

Section S.
Context `{U : Uni}.
(** A start tag that cannot be handled: its class has no value, or it is a link or an
    image whose address cannot be read. *)
Definition bad_tag (o : op) (e : exn) : Prop :=
  match o with
  | OStart t a =>
      (dlast (lit "class") a = Some None /\ e = EAttr)
      \/ (dlast (lit "class") a <> Some None /\ t = lit "a" /\ leads (attr "href" a) (lit "my.gopher.com") 70 (Err e))
      \/ (dlast (lit "class") a <> Some None /\ t = lit "img" /\ leads (attr "src" a) (lit "my.gopher.com") 70 (Err e))
  | _ => False
  end.
(** The first of them. *)
Definition first_bad (evs : list op) (e : exn) : Prop :=
  exists before o after, evs = before ++ o :: after /\ (forall o' e', In o' before -> ~ bad_tag o' e') /\ bad_tag o e.
(** [html_of convert source read html]: the HTML of a file with content [read]. *)
Definition html_of (convert : str -> str) (source read html : str) : Prop :=
  exists text, unix_lines read text /\ (is_markdown source -> html = convert text) /\ (~ is_markdown source -> html = text).
End S.
Close Scope Z_scope.
