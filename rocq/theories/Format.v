(** [template.format( *args, **kwargs )], CPython 3.11
    (Objects/stringlib/unicode_format.h, Python/formatter_unicode.c), called by
    rendering.py at every template (372, 503, 633, 664, 665, 685, 707-720, 751,
    769, 814-828, 862, 880, 940, 986, 1066, 1088, 1181).
    Arguments are strings, integers and None.  [EUnsupported]: attributes
    ([{a.b}]), [!r] and [!a] of strings, and of integers the presentations as a
    character, as a float or by locale, and digit grouping. *)
From Verif Require Export PyStr.

Inductive farg := FStr (s : str) | FInt (z : Z) | FNone.
(** Automatic numbering of fields ([AutoNumber]): not yet known, from 0 up to
    there, or by hand. *)
Inductive fmode := FUnset | FAuto (n : nat) | FManual.
(** [sys.maxsize] *)
Definition max_size : N := 9223372036854775807%N.
(** [str(a)] *)
Definition farg_str (a : farg) : str :=
  match a with FStr s => s | FInt z => str_of_Z z | FNone => lit "None" end.

Section Format.
Context `{U : Uni}.
Open Scope N_scope.

(** [get_integer], unicode_format.h: a number not over [sys.maxsize]. *)
Inductive fnumber := NNot | NBig | NIs (n : N).
Fixpoint get_integer (acc : N) (s : str) : fnumber :=
  match s with
  | [] => NIs acc
  | c :: r => match uni_decimal c with
              | None => NNot
              | Some d => let n := acc * 10 + d in
                          if max_size <? n then NBig else get_integer n r
              end
  end.
Definition field_integer (s : str) : fnumber := match s with [] => NNot | _ => get_integer 0 s end.
(** [l[i]], [None] when out of range. *)
Definition nth_big {A} (l : list A) (i : N) : option A :=
  if N.of_nat (length l) <=? i then None else nth_error l (N.to_nat i).

(** ** Format specifications: [parse_internal_render_format_spec], formatter_unicode.c *)
Record fspec := FSpec {
  fs_fill : N; fs_align : N; fs_sign : option N; fs_z : bool; fs_alt : bool;
  fs_width : option N; fs_comma : bool; fs_under : bool; fs_precision : option N; fs_type : N }.
Definition is_align (c : N) : bool := (c =? 60) || (c =? 62) || (c =? 61) || (c =? 94).
Definition is_sign (c : N) : bool := (c =? 32) || (c =? 43) || (c =? 45).
(** [get_integer], formatter_unicode.c: the digits in front; [None] on overflow. *)
Fixpoint digits_front (acc : N) (s : str) : option (N * str) :=
  match s with
  | [] => Some (acc, [])
  | c :: r => match uni_decimal c with
              | None => Some (acc, s)
              | Some d => let n := acc * 10 + d in
                          if max_size <? n then None else digits_front n r
              end
  end.
Definition number_front (s : str) : res (option N * str) :=
  match s with
  | [] => Ok (None, s)
  | c :: _ => match uni_decimal c with
              | None => Ok (None, s)
              | Some _ => match digits_front 0 s with
                          | Some (n, r) => Ok (Some n, r)
                          | None => Err EValue
                          end
              end
  end.
(** One character, if it is [p]. *)
Definition opt_char (p : N -> bool) (s : str) : option N * str :=
  match s with
  | c :: r => if p c then (Some c, r) else (None, s)
  | [] => (None, s)
  end.
Definition is_some {A} (x : option A) : bool := match x with Some _ => true | None => false end.
Definition parse_spec (s : str) (dalign dtype : N) : res fspec :=
  let '(fill, align, s) :=
    match s with
    | f :: a :: r => if is_align a then (Some f, Some a, r)
                     else if is_align f then (None, Some f, a :: r) else (None, None, s)
    | [f] => if is_align f then (None, Some f, []) else (None, None, s)
    | [] => (None, None, s)
    end in
  let '(sign, s) := opt_char is_sign s in
  let '(z, s) := opt_char (N.eqb 122) s in
  let '(alt, s) := opt_char (N.eqb 35) s in
  let '(zero, s) := match fill with Some _ => (None, s) | None => opt_char (N.eqb 48) s end in
  let* (w, s) := number_front s in
  let '(comma, s) := opt_char (N.eqb 44) s in
  let '(under, s) := opt_char (N.eqb 95) s in
  if is_some comma && is_some under then Err EValue
  else if is_some under && match s with c :: _ => c =? 44 | [] => false end then Err EValue
  else
  let '(dot, s) := opt_char (N.eqb 46) s in
  let* (prec, s) := match dot with
                    | None => Ok (None, s)
                    | Some _ => let* (p, r) := number_front s in
                                match p with None => Err EValue | Some _ => Ok (p, r) end
                    end in
  let* ty := match s with [] => Ok dtype | [c] => Ok c | _ => Err EValue end in
  Ok (FSpec (match fill with Some f => f | None => if is_some zero then 48 else 32 end)
            (match align with Some a => a
             | None => if is_some zero && (dalign =? 62) then 61 else dalign end)
            sign (is_some z) (is_some alt) w (is_some comma) (is_some under) prec ty).

(** [calc_padding] and [fill_padding]. *)
Definition padded (fill align : N) (w : option N) (x : str) : str :=
  let n := match w with Some w => (N.to_nat w - length x)%nat | None => O end in
  let l := if align =? 62 then n else if align =? 94 then Nat.div2 n else O in
  repeat fill l ++ x ++ repeat fill (n - l).
(** [format(s, spec)], [format_string_internal]. *)
Definition format_str (s : str) (spec : str) : res str :=
  match spec with
  | [] => Ok s
  | _ =>
      let* f := parse_spec spec 60 115 in
      if fs_comma f || fs_under f || negb (fs_type f =? 115) || is_some (fs_sign f) || fs_z f || fs_alt f
         || (fs_align f =? 61) then Err EValue
      else Ok (padded (fs_fill f) (fs_align f) (fs_width f)
                 (match fs_precision f with Some p => firstn (N.to_nat p) s | None => s end))
  end.

(** The digits of a number in a base. *)
Definition digit_char (big : bool) (d : N) : N :=
  if d <? 10 then 48 + d else if big then 55 + d else 87 + d.
Fixpoint base_digits (fuel : nat) (base : N) (big : bool) (n : N) (acc : str) : str :=
  match fuel with
  | O => acc
  | S f => let acc := digit_char big (n mod base) :: acc in
           if n <? base then acc else base_digits f base big (n / base) acc
  end.
Definition in_base (base : N) (big : bool) (n : N) : str := base_digits (S (N.to_nat (N.log2 n))) base big n [].
(** Presentation types of integers: base, digits above 9 in capitals, prefix. *)
Definition int_type (ty : N) : option (N * bool * str) :=
  if ty =? 100 then Some (10, false, [])
  else if ty =? 98 then Some (2, false, lit "0b")
  else if ty =? 111 then Some (8, false, lit "0o")
  else if ty =? 120 then Some (16, false, lit "0x")
  else if ty =? 88 then Some (16, true, lit "0X")
  else None.
(** The presentations of an integer that are not modelled: c, n, and those of floats. *)
Definition float_type (ty : N) : bool := existsb (N.eqb ty) (lit "eEfFgG%").
Definition format_int (z : Z) (spec : str) : res str :=
  match spec with
  | [] => Ok (str_of_Z z)
  | _ =>
      let* f := parse_spec spec 62 100 in
      let ty := fs_type f in
      if (fs_comma f && negb (float_type ty || (ty =? 100)))
         || (fs_under f && negb (float_type ty || is_some (int_type ty))) then Err EValue
      else if float_type ty then Err EUnsupported
      else match int_type ty with
      | None =>
          if (ty =? 99) || (ty =? 110)
          then if is_some (fs_precision f) || fs_z f || (ty =? 99) && (is_some (fs_sign f) || fs_alt f)
               then Err EValue else Err EUnsupported
          else Err EValue
      | Some (base, big, prefix) =>
          if is_some (fs_precision f) || fs_z f then Err EValue
          else if fs_comma f || fs_under f then Err EUnsupported
          else
            let sign := if (z <? 0)%Z then [45]
                        else match fs_sign f with
                             | Some c => if c =? 45 then [] else [c]
                             | None => []
                             end in
            let head := sign ++ (if fs_alt f then prefix else []) in
            let body := in_base base big (Z.to_N (Z.abs z)) in
            if fs_align f =? 61
            then Ok (head ++ repeat (fs_fill f)
                       (match fs_width f with Some w => (N.to_nat w - length (head ++ body))%nat | None => O end) ++ body)
            else Ok (padded (fs_fill f) (fs_align f) (fs_width f) (head ++ body))
      end
  end.
(** [render_field]: [format(value, spec)]. *)
Definition format_arg (a : farg) (spec : str) : res str :=
  match a with
  | FStr s => format_str s spec
  | FInt z => format_int z spec
  | FNone => match spec with [] => Ok (lit "None") | _ => Err EType end
  end.

(** ** Fields *)
(** [do_conversion]: [!s], [!r], [!a]. *)
Definition convert (c : option N) (a : farg) : res farg :=
  match c with
  | None => Ok a
  | Some c =>
      if c =? 115 then Ok (FStr (farg_str a))
      else if (c =? 114) || (c =? 97)
           then match a with FStr _ => Err EUnsupported | _ => Ok (FStr (farg_str a)) end
      else Err EValue
  end.
(** [obj[name]], name in brackets: a number is an index, else a key. *)
Definition item_of (a : farg) (name : str) : res farg :=
  match name with
  | [] => Err EValue
  | _ => match field_integer name with
         | NBig => Err EValue
         | NNot => Err EType
         | NIs i => match a with
                    | FStr s => match nth_big s i with Some c => Ok (FStr [c]) | None => Err EIndex end
                    | _ => Err EType
                    end
         end
  end.
(** What follows the first part of a name, [FieldNameIterator_next].  [item]:
    inside brackets, the characters read so far, reversed. *)
Fixpoint walk_name (a : farg) (item : option str) (r : str) : res farg :=
  match item with
  | Some acc =>
      match r with
      | [] => Err EValue
      | c :: r => if c =? 93
                  then match item_of a (rev acc) with Ok b => walk_name b None r | Err e => Err e end
                  else walk_name a (Some (c :: acc)) r
      end
  | None =>
      match r with
      | [] => Ok a
      | c :: r =>
          if c =? 91 then walk_name a (Some []) r
          else if c =? 46
               then match r with
                    | [] => Err EValue
                    | d :: _ => if (d =? 46) || (d =? 91) then Err EValue else Err EUnsupported
                    end
               else Err EValue
      end
  end.
(** [get_field_object] with [field_name_split]. *)
Definition field_value (name : str) (args : list farg) (kw : dict farg) (m : fmode) : res (farg * fmode) :=
  let stop c := (c =? 46) || (c =? 91) in
  let first := take_while (fun c => negb (stop c)) name in
  let rest := drop_while (fun c => negb (stop c)) name in
  let* (a, m') :=
    match first with
    | [] => match m with
            | FManual => Err EValue
            | FUnset => match nth_error args 0 with Some a => Ok (a, FAuto 1) | None => Err EIndex end
            | FAuto n => match nth_error args n with Some a => Ok (a, FAuto (S n)) | None => Err EIndex end
            end
    | _ => match field_integer first with
           | NBig => Err EValue
           | NIs i => match m with
                      | FAuto _ => Err EValue
                      | _ => match nth_big args i with Some a => Ok (a, FManual) | None => Err EIndex end
                      end
           | NNot => match dget first kw with Some a => Ok (a, m) | None => Err EKey end
           end
    end in
  let* b := walk_name a None rest in
  Ok (b, m').

(** ** Templates *)
(** [MarkupIterator_next] and [parse_field] as one machine.  [InName acc item]:
    in the name of a field, [item] inside brackets; [InConv]: after [!];
    [InSpec name conv n acc]: in the specification, [n] braces deep. *)
Inductive fstate :=
| InText
| InName (acc : str) (item : bool)
| InConv (name : str)
| PastConv (name : str) (conv : N)
| InSpec (name : str) (conv : option N) (depth : nat) (acc : str).
(** The machine, with what is to be done at a field (name, conversion, specification). *)
Fixpoint run_template (field : str -> option N -> str -> fmode -> res (str * fmode)) (t : str) (st : fstate) (m : fmode)
  {struct t} : res (str * fmode) :=
  let after r name conv spec :=
    let* (x, m1) := field name conv spec m in
    let* (y, m2) := run_template field r InText m1 in Ok (x ++ y, m2) in
  match st with
  | InText =>
      match t with
      | [] => Ok ([], m)
      | c :: r =>
          if c =? 123 then
            match r with
            | [] => Err EValue
            | d :: r' => if d =? 123 then let* (x, m') := run_template field r' InText m in Ok (c :: x, m')
                         else run_template field r (InName [] false) m
            end
          else if c =? 125 then
            match r with
            | d :: r' => if d =? 125 then let* (x, m') := run_template field r' InText m in Ok (c :: x, m') else Err EValue
            | [] => Err EValue
            end
          else let* (x, m') := run_template field r InText m in Ok (c :: x, m')
      end
  | InName acc item =>
      match t with
      | [] => Err EValue
      | c :: r =>
          if item then run_template field r (InName (c :: acc) (negb (c =? 93))) m
          else if c =? 123 then Err EValue
          else if c =? 91 then run_template field r (InName (c :: acc) true) m
          else if c =? 125 then after r (rev acc) None []
          else if c =? 58 then run_template field r (InSpec (rev acc) None 0 []) m
          else if c =? 33 then run_template field r (InConv (rev acc)) m
          else run_template field r (InName (c :: acc) false) m
      end
  | InConv name => match t with [] => Err EValue | c :: r => run_template field r (PastConv name c) m end
  | PastConv name conv =>
      match t with
      | [] => Err EValue
      | c :: r => if c =? 125 then after r name (Some conv) []
                  else if c =? 58 then run_template field r (InSpec name (Some conv) 0 []) m
                  else Err EValue
      end
  | InSpec name conv n acc =>
      match t with
      | [] => Err EValue
      | c :: r =>
          if c =? 123 then run_template field r (InSpec name conv (S n) (c :: acc)) m
          else if c =? 125 then
            match n with
            | O => after r name conv (rev acc)
            | S n' => run_template field r (InSpec name conv n' (c :: acc)) m
            end
          else run_template field r (InSpec name conv n (c :: acc)) m
      end
  end.
(** [build_string], [output_markup]: a specification with braces is a template
    itself, two deep at most. *)
Fixpoint build (depth : nat) (args : list farg) (kw : dict farg) (t : str) (m : fmode) {struct depth} : res (str * fmode) :=
  match depth with
  | O => Err EValue
  | S d =>
      run_template (fun name conv spec m =>
        let* (a, m1) := field_value name args kw m in
        let* b := convert conv a in
        let* (spec, m2) := if existsb (N.eqb 123) spec then build d args kw spec m1 else Ok (spec, m1) in
        let* x := format_arg b spec in
        Ok (x, m2)) t InText m
  end.
Definition format (t : str) (args : list farg) (kw : dict farg) : res str :=
  let* (x, _) := build 2 args kw t FUnset in Ok x.
Close Scope N_scope.
End Format.
