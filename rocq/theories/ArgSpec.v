(** Specification vocabulary: what the arguments of the command line tool mean.
    Nothing here follows the steps of argparse. *)
From Verif Require Export PyStr.
Open Scope N_scope.

(** What an argument that is an option asks for: the page's source to be dumped, the
    help, something unknown, or something an option cannot take. *)
Inductive mark := MDump | MHelp | MUnknown | MRefused.
Inductive meaning := Word | Ambiguous | Marks (l : list mark).

(** -h and -d; letters can be run together; a value or a hyphen after a letter
    spoils all of them, another letter only what begins there. *)
Definition letter (c : N) : option mark := if c =? 104 then Some MHelp else if c =? 100 then Some MDump else None.
Fixpoint letters (s : str) : option (list mark) :=
  match s with
  | [] => Some []
  | c :: r => match letter c, r with
              | None, _ => Some [MUnknown]
              | Some _, (45 | 61) :: _ => None
              | Some m, _ => option_map (cons m) (letters r)
              end
  end.
(** --help and --dump, and every beginning of them. *)
Definition begins (name whole : str) : bool := seqb name (firstn (length name) whole).
Definition long (name : str) : option mark :=
  if begins name (lit "help") then Some MHelp else if begins name (lit "dump") then Some MDump else None.

Section Spec.
Context `{U : Uni}.
(** A negative number: digits, or digits, a point and digits; before a line end. *)
Definition looks_negative (s : str) : Prop := exists a b e, (e = [] \/ e = [10]) /\ b <> [] /\ forallb is_digit a = true /\ forallb is_digit b = true
  /\ (s = 45 :: b ++ e \/ s = 45 :: a ++ 46 :: b ++ e).
(** [negative]: which strings look like negative numbers.  An argument that begins
    with a hyphen and is none of the options is a word all the same if it is such a
    number, or holds a space, or is a hyphen alone. *)
Definition meaning_of (negative : str -> bool) (s : str) : meaning :=
  match s with
  | 45 :: 45 :: r =>
      let name := take_while (fun c => negb (c =? 61)) r in
      match name with
      | [] => Ambiguous
      | _ => match long name with
             | Some m => Marks [if (length name <? length r)%nat then MRefused else m]
             | None => if has_char 32 s then Word else Marks [MUnknown]
             end
      end
  | 45 :: c :: r =>
      match letter c with
      | Some _ => Marks (match letters (c :: r) with Some l => l | None => [MRefused] end)
      | None => if negative s || has_char 32 s then Word else Marks [MUnknown]
      end
  | _ => Word
  end.
End Spec.

(** ** All arguments *)
(** How the tool starts: with source, destination and the flag; with the help text;
    with a message about usage.  The value [None] is an empty list. *)
Inductive start := Given (source destination : option str) (dump : bool) | HelpShown | UsageError.
Definition marks_of (m : meaning) : list mark := match m with Marks l => l | _ => [] end.
Definition is_word_arg (m : meaning) : bool := match m with Word => true | _ => false end.
Definition words (l : list (str * meaning)) : list str := map fst (filter (fun x => is_word_arg (snd x)) l).
(** Help and refusals end the reading where they are met. *)
Fixpoint first_end (l : list mark) : option start :=
  match l with
  | [] => None
  | MHelp :: _ => Some HelpShown
  | MRefused :: _ => Some UsageError
  | _ :: r => first_end r
  end.
Definition is_unknown (m : mark) : bool := match m with MUnknown => true | _ => false end.
Definition is_dump (m : mark) : bool := match m with MDump => true | _ => false end.
Definition is_ambiguous (x : str * meaning) : bool := match snd x with Ambiguous => true | _ => false end.
Definition ends_in_option (l : list (str * meaning)) : bool := match rev l with (_, Marks _) :: _ => true | _ => false end.
(** [before]: the arguments before a first --; [after]: it and all that follow, which
    are words.  Two words are needed, and nothing unknown; a -- at the end, after an
    option, is unknown.  A destination -- is lost, unless the first -- follows an
    option after the source. *)
Definition settle (before : list (str * meaning)) (after : list str) : start :=
  let marks := flat_map (fun x => marks_of (snd x)) before in
  if existsb is_ambiguous before then UsageError
  else match first_end marks with
  | Some r => r
  | None =>
      match existsb is_unknown marks, words before ++ tl after with
      | false, [a; b] =>
          match after, ends_in_option before with
          | [_], true => UsageError
          | _, last => Given (Some a) (if seqb b (lit "--") && negb (last && negb (Nat.eqb (length (words before)) 0)) then None else Some b)
                             (existsb is_dump marks)
          end
      | _, _ => UsageError
      end
  end.
Definition told (negative : str -> bool) (argv : list str) (r : start) : Prop :=
  exists before after, argv = before ++ after /\ ~ In (lit "--") before /\ (after = [] \/ exists l, after = lit "--" :: l)
    /\ r = settle (map (fun s => (s, meaning_of negative s)) before) after.
Close Scope N_scope.
