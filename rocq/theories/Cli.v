(** The command line tool, cli.py.  The Markdown converter is a parameter;
    the arguments are in Args; the decoding of the file and the interpreter's own
    I/O errors are outside the model. *)
From Verif Require Export Themes Feed Warn.
Open Scope Z_scope.

(** [Path(p).name] (pathlib.py:56-93, 788-794, POSIX): the last component that
    is neither empty nor a dot. *)
Definition path_name (p : str) : str :=
  match rev (filter (fun x => negb (seqb x [] || seqb x (lit "."))) (split_on 47%N p)) with
  | [] => []
  | x :: _ => x
  end.
(** [Path(p).suffix], pathlib.py:796-808. *)
Definition path_suffix (p : str) : str :=
  let '(h, f, t) := rpartition 46%N (path_name p) in
  if f then match h, t with
            | _ :: _, _ :: _ => 46%N :: t
            | _, _ => []
            end
  else [].
(** A file opened with mode 'r' (cli.py:26): line ends become newlines. *)
Fixpoint newlines_only (s : str) : str :=
  match s with
  | [] => []
  | 13%N :: r => 10%N :: match r with 10%N :: r' => newlines_only r' | _ => newlines_only r end
  | c :: r => c :: newlines_only r
  end.

(** Observable effects of a run; [EPrint] is [print(text)]. *)
Inductive effect :=
| ERead (path : str)
| EPrint (text : str)
| EWrite (path : str) (text : str).

Section Main.
Context `{U : Uni}.
Variable convert : str -> str.          (* markdown.Markdown(...).convert *)

(** The parser cli.py builds, cli.py:54-64. *)
Definition cli_options : options :=
  Options 67 (Some (root_box 67 (Sides 1 0 1 0) sides0 sides0 None))
    theme_iced_gopher [] (lit "text") (lit "footer") (lit "inline")
    (lit "my.gopher.com") 70 true.

(** [main], cli.py:22-72: what it does and the exception it ends with, if any.
    [read] is the content of the source file. *)
Definition main (source destination : str) (dump : bool) (read : str) : list effect * option exn :=
  let text := newlines_only read in
  let html := if seqb (path_suffix source) (lit ".md") then convert text else text in
  let done := [ERead source] ++ (if dump then [EPrint html] else []) ++ map EPrint (text_says cli_options html) in
  match render_text cli_options html with
  | Ok page => (done ++ [EPrint page], None)
  | Err e => (done, Some e)
  end.
End Main.
Close Scope Z_scope.
