(** The arguments of the command line tool: [_parse_arguments], cli.py:13-19, and
    the parts of Python 3.11's argparse.py that it runs. *)
From Verif Require Export Cli ArgSpec.

(** cli.py:14-17 and the --help that argparse adds. *)
Inductive act := AHelp | ADump.
Definition option_strings : dict act :=
  [(lit "-h", AHelp); (lit "--help", AHelp); (lit "-d", ADump); (lit "--dump", ADump)].
(** What an option string was found to be: the action, the option string, the
    separator and the explicit argument. *)
Record otuple := OTuple { o_act : option act; o_str : str; o_sep : option str; o_arg : option str }.
(** Values: the list that is left of the strings for a positional without them is
    [None] (argparse.py:2475-2529). *)
Definition value := option str.
(** How [parse_args] ends: [start] of ArgSpec; the help text and status 0; a message
    about usage and status 2. *)
Section Args.
Context `{U : Uni}.
(** argparse.py:1386: two regular expressions, [$] before a last line feed. *)
Definition all_digits (s : str) : bool := match s with [] => false | _ => forallb is_digit s end.
Definition number_end (s : str) : str := match rev s with 10%N :: r => rev r | _ => s end.
Definition negative_number (s : str) : bool :=
  match s with
  | 45%N :: r =>
      let look r := all_digits r || match partition 46%N r with (a, true, b) => forallb is_digit a && all_digits b | _ => false end in
      look r || look (number_end r)
  | _ => false
  end.
(** [_get_option_tuples], argparse.py:2300-2340, for strings of two characters or
    more that begin with a hyphen. *)
Definition option_tuples (s : str) : list otuple :=
  match s with
  | _ :: 45%N :: _ =>
      let '(prefix, sep, arg) := partition 61%N s in
      map (fun x => OTuple (Some (snd x)) (fst x) (if sep then Some [61%N] else None) (if sep then Some arg else None))
          (filter (fun x => startswith prefix (fst x)) option_strings)
  | _ =>
      flat_map (fun x => if seqb (fst x) (firstn 2 s) then [OTuple (Some (snd x)) (fst x) (Some []) (Some (skipn 2 s))]
                         else if startswith s (fst x) then [OTuple (Some (snd x)) (fst x) None None] else []) option_strings
  end.
(** [_parse_optional], argparse.py:2243-2298; [Err]: ambiguous. *)
Definition parse_optional (s : str) : res (option otuple) :=
  match s with
  | [] => Ok None
  | c :: r =>
      if negb (N.eqb c 45) then Ok None
      else match dget s option_strings with
      | Some a => Ok (Some (OTuple (Some a) s None None))
      | None =>
          match r with
          | [] => Ok None
          | _ =>
              let '(before, sep, after) := partition 61%N s in
              match (if sep then dget before option_strings else None) with
              | Some a => Ok (Some (OTuple (Some a) before (Some [61%N]) (Some after)))
              | None =>
                  match option_tuples s with
                  | _ :: _ :: _ => Err EValue
                  | [t] => Ok (Some t)
                  | [] =>
                      if negative_number s then Ok None
                      else if has_char 32 s then Ok None
                      else Ok (Some (OTuple None s None None))
                  end
              end
          end
      end
  end.

(** The pattern of argparse.py:1936-1961, kept with the strings. *)
Inductive kind := KArg | KDash | KOpt (t : otuple).
Fixpoint classify (l : list str) : res (list (str * kind)) :=
  match l with
  | [] => Ok []
  | s :: r =>
      if seqb s (lit "--") then Ok ((s, KDash) :: map (fun x => (x, KArg)) r)
      else let* o := parse_optional s in
           let* rest := classify r in
           Ok ((s, match o with Some t => KOpt t | None => KArg end) :: rest)
  end.

(** [consume_optional], argparse.py:1990-2063, from an explicit argument on: the
    actions to take and the string that is left over; [Err]: ArgumentError.
    [sep]: the separator is not empty. *)
Fixpoint cluster (a : act) (ostr : str) (sep : bool) (arg : str) (taken : list act) {struct arg} : res (list act * list str) :=
  match nth_error ostr 1, arg with
  | Some 45%N, _ => Err EValue
  | _, [] => Err EValue
  | _, c :: r =>
      if sep || N.eqb c 45 then Err EValue
      else match dget [45%N; c] option_strings with
           | None => Ok (taken ++ [a], [45%N :: arg])
           | Some a' =>
               match r with
               | [] => Ok (taken ++ [a; a'], [])
               | 61%N :: r' => cluster a' [45%N; c] true r' (taken ++ [a])
               | _ => cluster a' [45%N; c] false r (taken ++ [a])
               end
           end
  end.
Definition optional (s : str) (t : otuple) : res (list act * list str) :=
  match o_act t, o_arg t with
  | None, _ => Ok ([], [s])
  | Some a, None => Ok ([a], [])
  | Some a, Some x => cluster a (o_str t) (match o_sep t with Some (_ :: _) => true | _ => false end) x []
  end.

(** The namespace: values of the positionals so far, the flag; [extras]. *)
Record astate := AState { as_values : list value; as_dump : bool; as_extras : list str }.
(** [take_action] of options, argparse.py:1967-1987: [None]: the help was asked for. *)
Fixpoint take_actions (l : list act) (st : astate) : option astate :=
  match l with
  | [] => Some st
  | AHelp :: _ => None
  | ADump :: r => take_actions r (AState (as_values st) true (as_extras st))
  end.
(** The pattern of a positional, argparse.py:2342-2350: hyphens, one A, hyphens; on
    the strings: those matched, the rest. *)
Fixpoint dashes (l : list (str * kind)) : list str * list (str * kind) :=
  match l with
  | (s, KDash) :: r => let '(a, b) := dashes r in (s :: a, b)
  | _ => ([], l)
  end.
Definition group (l : list (str * kind)) : option (list str * list (str * kind)) :=
  let '(a, l1) := dashes l in
  match l1 with
  | (s, KArg) :: r => let '(b, l2) := dashes r in Some (a ++ s :: b, l2)
  | _ => None
  end.
Fixpoint groups (k : nat) (l : list (str * kind)) : option (list (list str) * list (str * kind)) :=
  match k with
  | O => Some ([], l)
  | S k => match group l with
           | None => None
           | Some (g, r) => match groups k r with None => None | Some (gs, r') => Some (g :: gs, r') end
           end
  end.
(** [_match_arguments_partial], argparse.py:2227-2241. *)
Fixpoint match_partial (k : nat) (l : list (str * kind)) : list (list str) * list (str * kind) :=
  match k with
  | O => ([], l)
  | S k' => match groups k l with Some x => x | None => match_partial k' l end
  end.
(** [_get_values], argparse.py:2475-2529, for a positional: the first -- is removed;
    one string is the value, none give the empty list. *)
Fixpoint remove_first (s : str) (l : list str) : list str :=
  match l with
  | [] => []
  | x :: r => if seqb x s then r else x :: remove_first s r
  end.
Definition get_value (l : list str) : value :=
  match remove_first (lit "--") l with [s] => Some s | _ => None end.
(** [consume_positionals], argparse.py:2070-2087; two positionals in all. *)
Definition positionals (l : list (str * kind)) (st : astate) : astate * list (str * kind) :=
  let '(gs, r) := match_partial (2 - length (as_values st)) l in
  (AState (as_values st ++ map get_value gs) (as_dump st) (as_extras st), r).
Definition is_opt (x : str * kind) : bool := match snd x with KOpt _ => true | _ => false end.
Fixpoint until_option (l : list (str * kind)) : list str * list (str * kind) :=
  match l with
  | [] => ([], [])
  | x :: r => if is_opt x then ([], l) else let '(a, b) := until_option r in (fst x :: a, b)
  end.
Definition add_extras (l : list str) (st : astate) : astate := AState (as_values st) (as_dump st) (as_extras st ++ l).
(** argparse.py:2089-2157 and 1873-1878.  [fuel]: each turn takes an argument. *)
Fixpoint consume (fuel : nat) (l : list (str * kind)) (st : astate) : start :=
  match fuel with
  | O => UsageError
  | S f =>
      let take l st :=
        match l with
        | (s, KOpt t) :: r =>
            match optional s t with
            | Err _ => UsageError
            | Ok (acts, extra) =>
                match take_actions acts (add_extras extra st) with
                | None => HelpShown
                | Some st' => consume f r st'
                end
            end
        | _ => UsageError
        end in
      if existsb is_opt l then
        match l with
        | (_, KOpt _) :: _ => take l st
        | _ => let '(st1, r) := positionals l st in
               if length r <? length l then consume f r st1
               else let '(strings, r') := until_option l in take r' (add_extras strings st1)
        end
      else
        let '(st1, r) := positionals l st in
        match as_extras st1 ++ map fst r, as_values st1 with
        | [], [s; d] => Given s d (as_dump st1)
        | _, _ => UsageError
        end
  end.
Definition parse_args (argv : list str) : start :=
  match classify argv with
  | Err _ => UsageError
  | Ok l => consume (S (length l)) l (AState [] false [])
  end.

(** The whole tool on an argument list: [main] after [_parse_arguments] (cli.py:22-24).
    [files]: the contents of the files.  Status 0 or 2 without reading any file when
    argparse ends it.  A source that is no string: [Path] raises TypeError. *)
Inductive ended := Exits (status : Z) | Runs (effects : list effect) (raised : option exn).
Definition command (convert : str -> str) (files : str -> str) (argv : list str) : ended :=
  match parse_args argv with
  | HelpShown => Exits 0
  | UsageError => Exits 2
  | Given None _ _ => Runs [] (Some EType)
  | Given (Some source) d dump =>
      let '(l, e) := main convert source (match d with Some x => x | None => [] end) dump (files source) in Runs l e
  end.
End Args.
