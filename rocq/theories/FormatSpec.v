(** Specification vocabulary for templates: what Python's [str.format] makes of
    any template string, given arguments that are strings, integers and None.
    [EUnsupported] marks what is outside the model. *)
From Verif Require Export PyStr Format.
Open Scope N_scope.

(** ** Characters *)
Definition one_of (s : string) (c : N) : Prop := In c (lit s).
(** [s] does not begin with a character of the kind [P]. *)
Definition begins_not (P : N -> Prop) (s : str) : Prop := match s with [] => True | c :: _ => ~ P c end.
(** An optional character is read when there is one. *)
Definition optional (P : N -> Prop) (s : str) (x : option N) (rest : str) : Prop :=
  match x with
  | Some c => P c /\ s = c :: rest
  | None => begins_not P s /\ rest = s
  end.

Section F.
Context `{U : Uni}.

(** ** Numbers *)
Definition is_decimal (c : N) : Prop := exists d, uni_decimal c = Some d.
(** A number in decimal digits, of any script. *)
Inductive numeral : str -> N -> Prop :=
| nu_one : forall c d, uni_decimal c = Some d -> numeral [c] d
| nu_more : forall s n c d, numeral s n -> uni_decimal c = Some d -> numeral (s ++ [c]) (10 * n + d).
(** One that Python takes for an index or a width. *)
Definition small_numeral (s : str) (n : N) : Prop := numeral s n /\ n <= max_size.
(** One that it finds too large, as soon as it has read so far. *)
Definition overlong (s : str) : Prop := exists p q n, s = p ++ q /\ numeral p n /\ max_size < n.
Definition no_number (s : str) : Prop := ~ overlong s /\ forall n, ~ numeral s n.

(** ** Arguments *)
(** [str()] of an argument. *)
Definition text_of (a : farg) : str :=
  match a with FStr s => s | FInt z => str_of_Z z | FNone => lit "None" end.
Section A.
Variables (args : list farg) (kws : dict farg).
(** [picked m s a m']: what the first part [s] of a name refers to.  The
    numbering [m]: places without a name count from 0 ([FAuto]: up to there),
    unless there are numbers ([FManual]). *)
Inductive picked : fmode -> str -> farg -> fmode -> Prop :=
| pk_first : forall a, nth_error args 0 = Some a -> picked FUnset [] a (FAuto 1)
| pk_next : forall k a, nth_error args k = Some a -> picked (FAuto k) [] a (FAuto (S k))
| pk_number : forall m s n a, (m = FUnset \/ m = FManual) -> small_numeral s n -> nth_error args (N.to_nat n) = Some a -> picked m s a FManual
| pk_name : forall m s a, s <> [] -> no_number s -> dget s kws = Some a -> picked m s a m.
Inductive unpicked : fmode -> str -> exn -> Prop :=
| up_mixed : unpicked FManual [] EValue
| up_first : nth_error args 0 = None -> unpicked FUnset [] EIndex
| up_next : forall k, nth_error args k = None -> unpicked (FAuto k) [] EIndex
| up_overlong : forall m s, overlong s -> unpicked m s EValue
| up_counted : forall k s n, small_numeral s n -> unpicked (FAuto k) s EValue
| up_number : forall m s n, (m = FUnset \/ m = FManual) -> small_numeral s n -> nth_error args (N.to_nat n) = None -> unpicked m s EIndex
| up_name : forall m s, s <> [] -> no_number s -> dget s kws = None -> unpicked m s EKey.
(** What follows in the name: characters of a string, by their numbers. *)
Inductive within : farg -> str -> farg -> Prop :=
| wt_here : forall a, within a [] a
| wt_item : forall s i n c r b, small_numeral i n -> nth_error s (N.to_nat n) = Some c -> within (FStr [c]) r b ->
    within (FStr s) (lit "[" ++ i ++ lit "]" ++ r) b.
Inductive astray : farg -> str -> exn -> Prop :=
| ay_item : forall s i n c r ex, small_numeral i n -> nth_error s (N.to_nat n) = Some c -> astray (FStr [c]) r ex ->
    astray (FStr s) (lit "[" ++ i ++ lit "]" ++ r) ex
| ay_open : forall a i, ~ In 93 i -> astray a (lit "[" ++ i) EValue
| ay_empty : forall a r, astray a (lit "[]" ++ r) EValue
| ay_overlong : forall a i r, ~ In 93 i -> overlong i -> astray a (lit "[" ++ i ++ lit "]" ++ r) EValue
| ay_key : forall a i r, i <> [] -> ~ In 93 i -> no_number i -> astray a (lit "[" ++ i ++ lit "]" ++ r) EType
| ay_range : forall s i n r, small_numeral i n -> nth_error s (N.to_nat n) = None -> astray (FStr s) (lit "[" ++ i ++ lit "]" ++ r) EIndex
| ay_scalar : forall a i n r, (forall s, a <> FStr s) -> small_numeral i n -> astray a (lit "[" ++ i ++ lit "]" ++ r) EType
| ay_dots : forall a r, r = [] \/ (exists c r', r = c :: r' /\ one_of ".[" c) -> astray a (lit "." ++ r) EValue
| ay_attribute : forall a c r, ~ one_of ".[" c -> astray a (lit "." ++ c :: r) EUnsupported
| ay_other : forall a c r, ~ one_of ".[" c -> astray a (c :: r) EValue.
(** The value of a name. *)
Definition parted (name first rest : str) : Prop :=
  name = first ++ rest /\ (forall c, In c first -> ~ one_of ".[" c) /\ (rest = [] \/ exists c r, rest = c :: r /\ one_of ".[" c).
Definition valued (m : fmode) (name : str) (b : farg) (m' : fmode) : Prop :=
  exists first rest a, parted name first rest /\ picked m first a m' /\ within a rest b.
Definition unvalued (m : fmode) (name : str) (ex : exn) : Prop :=
  exists first rest, parted name first rest
    /\ (unpicked m first ex \/ exists a m', picked m first a m' /\ astray a rest ex).
End A.

(** ** Conversions: [!s], [!r], [!a] *)
Inductive converted : option N -> farg -> farg -> Prop :=
| co_none : forall a, converted None a a
| co_str : forall a, converted (Some 115) a (FStr (text_of a))
| co_repr : forall a c, one_of "ra" c -> (forall s, a <> FStr s) -> converted (Some c) a (FStr (text_of a)).
Inductive unconverted : option N -> farg -> exn -> Prop :=
| uc_repr : forall s c, one_of "ra" c -> unconverted (Some c) (FStr s) EUnsupported
| uc_other : forall a c, ~ one_of "sra" c -> unconverted (Some c) a EValue.

(** ** Format specifications *)
(** [[fill]align][sign][z][#][0][width][,_][.precision][type] *)
Record layout := Layout {
  la_fill : option N; la_align : option N; la_sign : option N; la_z : bool; la_alt : bool; la_zero : bool;
  la_width : option N; la_group : option N; la_precision : option N; la_type : option N }.
Definition alignment : N -> Prop := one_of "<>=^".
(** A character in front of an alignment is the fill. *)
Inductive aligned : str -> option N -> option N -> str -> Prop :=
| al_fill : forall f a r, alignment a -> aligned (f :: a :: r) (Some f) (Some a) r
| al_bare : forall a r, alignment a -> begins_not alignment r -> aligned (a :: r) None (Some a) r
| al_none : forall s, begins_not alignment s -> begins_not alignment (tl s) -> aligned s None None s.
Definition flag (c : N) (s : str) (b : bool) (rest : str) : Prop :=
  optional (eq c) s (if b then Some c else None) rest.
Definition counted (s : str) (x : option N) (rest : str) : Prop :=
  match x with
  | Some n => exists d, small_numeral d n /\ s = d ++ rest /\ begins_not is_decimal rest
  | None => begins_not is_decimal s /\ rest = s
  end.
(** [described s l]: [s] is the specification [l]. *)
Definition described (s : str) (l : layout) : Prop :=
  exists s1 s2 s3 s4 s5 s6 s7 s8,
    aligned s (la_fill l) (la_align l) s1 /\ optional (one_of " +-") s1 (la_sign l) s2
    /\ flag 122 s2 (la_z l) s3 /\ flag 35 s3 (la_alt l) s4
    /\ (if la_fill l then la_zero l = false /\ s5 = s4 else flag 48 s4 (la_zero l) s5)
    /\ counted s5 (la_width l) s6 /\ optional (one_of ",_") s6 (la_group l) s7
    /\ match la_precision l with
       | Some n => exists t, s7 = 46 :: t /\ counted t (Some n) s8
       | None => begins_not (eq 46) s7 /\ s8 = s7
       end
    /\ s8 = match la_type l with Some c => [c] | None => [] end.
(** [fill] on the sides of [x] up to [width] columns. *)
Definition columns (fill align : N) (width : option N) (x out : str) : Prop :=
  exists l r, out = repeat fill l ++ x ++ repeat fill r
    /\ (l + r = match width with Some w => N.to_nat w - length x | None => 0 end)%nat
    /\ (align = 60 /\ l = O \/ align = 62 /\ r = O \/ align = 94 /\ (l = r \/ r = S l)).
Definition fill_of (l : layout) : N :=
  match la_fill l with Some f => f | None => if la_zero l then 48 else 32 end.
(** Strings: no sign, no [z], [#], [=] or grouping, the only type is [s]. *)
Definition text_style (l : layout) : Prop :=
  la_sign l = None /\ la_z l = false /\ la_alt l = false /\ la_align l <> Some 61 /\ la_group l = None
  /\ (la_type l = None \/ la_type l = Some 115).
Definition text_laid (s : str) (l : layout) (out : str) : Prop :=
  columns (fill_of l) (match la_align l with Some a => a | None => 60 end) (la_width l)
    (match la_precision l with Some p => firstn (N.to_nat p) s | None => s end) out.
(** Integers *)
Inductive in_digits (base : N) (capitals : bool) : N -> str -> Prop :=
| dg_last : forall n, n < base -> in_digits base capitals n [nth (N.to_nat n) (lit (if capitals then "0123456789ABCDEF" else "0123456789abcdef")) 0]
| dg_more : forall n s t, base <= n -> in_digits base capitals (n / base) s -> in_digits base capitals (n mod base) t -> in_digits base capitals n (s ++ t).
(** The types of integers: base, capitals, what [#] puts in front. *)
Definition number_type (ty : option N) (base : N) (capitals : bool) (prefix : str) : Prop :=
  (ty = None \/ ty = Some 100) /\ base = 10 /\ capitals = false /\ prefix = []
  \/ ty = Some 98 /\ base = 2 /\ capitals = false /\ prefix = lit "0b"
  \/ ty = Some 111 /\ base = 8 /\ capitals = false /\ prefix = lit "0o"
  \/ ty = Some 120 /\ base = 16 /\ capitals = false /\ prefix = lit "0x"
  \/ ty = Some 88 /\ base = 16 /\ capitals = true /\ prefix = lit "0X".
Definition float_style (ty : option N) : Prop := exists c, ty = Some c /\ one_of "eEfFgG%" c.
Definition signed (z : Z) (sign : option N) : str :=
  if (z <? 0)%Z then lit "-"
  else match sign with Some 43 => lit "+" | Some 32 => lit " " | _ => [] end.
Definition number_laid (z : Z) (l : layout) (out : str) : Prop :=
  la_z l = false /\ la_precision l = None /\ la_group l = None
  /\ exists base capitals prefix body, number_type (la_type l) base capitals prefix
    /\ in_digits base capitals (Z.to_N (Z.abs z)) body
    /\ let head := signed z (la_sign l) ++ (if la_alt l then prefix else []) in
       let align := match la_align l with Some a => a | None => if la_zero l then 61 else 62 end in
       (align <> 61 /\ columns (fill_of l) align (la_width l) (head ++ body) out
        \/ align = 61 /\ exists n, out = head ++ repeat (fill_of l) n ++ body
             /\ n = match la_width l with Some w => (N.to_nat w - length (head ++ body))%nat | None => O end).
Inductive number_wrong : layout -> exn -> Prop :=
(* a type that is none, or one that does not go with what is asked *)
| nw_type : forall l c, la_type l = Some c -> ~ one_of "dboxXcneEfFgG%" c -> number_wrong l EValue
| nw_comma : forall l c, la_group l = Some 44 -> la_type l = Some c -> ~ one_of "deEfFgG%" c -> number_wrong l EValue
| nw_under : forall l c, la_group l = Some 95 -> la_type l = Some c -> ~ one_of "dboxXeEfFgG%" c -> number_wrong l EValue
| nw_precise : forall l, ~ float_style (la_type l) -> la_precision l <> None \/ la_z l = true -> number_wrong l EValue
| nw_character : forall l, la_type l = Some 99 -> la_sign l <> None \/ la_alt l = true -> number_wrong l EValue
(* not modelled: floats, grouping, locales, characters *)
| nw_float : forall l, float_style (la_type l) -> number_wrong l EUnsupported
| nw_group : forall l b k p, number_type (la_type l) b k p -> la_precision l = None -> la_z l = false ->
    la_group l = Some 44 /\ (la_type l = None \/ la_type l = Some 100) \/ la_group l = Some 95 -> number_wrong l EUnsupported
| nw_character_ : forall l, la_type l = Some 99 -> la_group l = None -> la_precision l = None -> la_z l = false ->
    la_sign l = None -> la_alt l = false -> number_wrong l EUnsupported
| nw_locale : forall l, la_type l = Some 110 -> la_group l = None -> la_precision l = None -> la_z l = false -> number_wrong l EUnsupported.

(** [format(a, spec)] *)
Inductive presented : farg -> str -> str -> Prop :=
| pr_plain : forall a, presented a [] (text_of a)
| pr_text : forall s spec l out, spec <> [] -> described spec l -> text_style l -> text_laid s l out -> presented (FStr s) spec out
| pr_number : forall z spec l out, spec <> [] -> described spec l -> number_laid z l out -> presented (FInt z) spec out.
Inductive unpresented : farg -> str -> exn -> Prop :=
| ur_none : forall spec, spec <> [] -> unpresented FNone spec EType
| ur_unread : forall a spec, a <> FNone -> spec <> [] -> (forall l, ~ described spec l) -> unpresented a spec EValue
| ur_text : forall s spec l, spec <> [] -> described spec l -> ~ text_style l -> unpresented (FStr s) spec EValue
| ur_number : forall z spec l ex, spec <> [] -> described spec l -> number_wrong l ex -> unpresented (FInt z) spec ex.

(** ** Places *)
(** A place in a template: [{name!c:spec}]. *)
Record place := Place { pl_name : str; pl_conv : option N; pl_spec : option str }.
Definition place_text (p : place) : str :=
  lit "{" ++ pl_name p
  ++ match pl_conv p with Some c => [33; c] | None => [] end
  ++ match pl_spec p with Some s => 58 :: s | None => [] end
  ++ lit "}".
(** In a name, anything may stand in brackets. *)
Inductive name_text : str -> Prop :=
| nt_nil : name_text []
| nt_char : forall c n, ~ one_of "{}[:!" c -> name_text n -> name_text (c :: n)
| nt_item : forall s n, ~ In 93 s -> name_text n -> name_text (lit "[" ++ s ++ lit "]" ++ n).
(** [braces n s]: [s] closes [n] braces, and those that it opens. *)
Inductive braces : nat -> str -> Prop :=
| br_nil : braces 0 []
| br_char : forall n c s, ~ one_of "{}" c -> braces n s -> braces n (c :: s)
| br_open : forall n s, braces (S n) s -> braces n (123 :: s)
| br_close : forall n s, braces n s -> braces (S n) (125 :: s).
Definition well_written (p : place) : Prop :=
  name_text (pl_name p) /\ match pl_spec p with Some s => braces 0 s | None => True end.
Definition spec_of (p : place) : str := match pl_spec p with Some s => s | None => [] end.

(** ** Templates *)
Section T.
Variables (args : list farg) (kws : dict farg).
(** [given k m t out m']: [out] is the template [t] with its places filled;
    specifications with places are templates themselves, [k] deep at most. *)
Inductive given : nat -> fmode -> str -> str -> fmode -> Prop :=
| gi_end : forall k m, given (S k) m [] [] m
| gi_char : forall k m c t out m', ~ one_of "{}" c -> given (S k) m t out m' -> given (S k) m (c :: t) (c :: out) m'
| gi_brace : forall k m c t out m', one_of "{}" c -> given (S k) m t out m' -> given (S k) m (c :: c :: t) (c :: out) m'
| gi_place : forall k m p t x out m1 m2, well_written p -> stands k m p x m1 -> given (S k) m1 t out m2 ->
    given (S k) m (place_text p ++ t) (x ++ out) m2
with stands : nat -> fmode -> place -> str -> fmode -> Prop :=
| sa_flat : forall k m p a b x m', valued args kws m (pl_name p) a m' -> converted (pl_conv p) a b ->
    ~ In 123 (spec_of p) -> presented b (spec_of p) x -> stands k m p x m'
| sa_nested : forall k m p a b spec x m1 m2, valued args kws m (pl_name p) a m1 -> converted (pl_conv p) a b ->
    In 123 (spec_of p) -> given k m1 (spec_of p) spec m2 -> presented b spec x -> stands k m p x m2.
(** [fails k m t ex]: the first thing in [t] that is wrong raises [ex]. *)
Inductive fails : nat -> fmode -> str -> exn -> Prop :=
| fl_deep : forall m t, fails 0 m t EValue
| fl_char : forall k m c t ex, ~ one_of "{}" c -> fails (S k) m t ex -> fails (S k) m (c :: t) ex
| fl_brace : forall k m c t ex, one_of "{}" c -> fails (S k) m t ex -> fails (S k) m (c :: c :: t) ex
| fl_close : forall k m t, begins_not (eq 125) t -> fails (S k) m (125 :: t) EValue
| fl_open : forall k m t, begins_not (eq 123) t -> (forall p r, well_written p -> 123 :: t <> place_text p ++ r) -> fails (S k) m (123 :: t) EValue
| fl_place : forall k m p t ex, well_written p -> falls k m p ex -> fails (S k) m (place_text p ++ t) ex
| fl_after : forall k m p t x m1 ex, well_written p -> stands k m p x m1 -> fails (S k) m1 t ex ->
    fails (S k) m (place_text p ++ t) ex
with falls : nat -> fmode -> place -> exn -> Prop :=
| fa_name : forall k m p ex, unvalued args kws m (pl_name p) ex -> falls k m p ex
| fa_conv : forall k m p a m1 ex, valued args kws m (pl_name p) a m1 -> unconverted (pl_conv p) a ex -> falls k m p ex
| fa_flat : forall k m p a b m1 ex, valued args kws m (pl_name p) a m1 -> converted (pl_conv p) a b ->
    ~ In 123 (spec_of p) -> unpresented b (spec_of p) ex -> falls k m p ex
| fa_spec : forall k m p a b m1 ex, valued args kws m (pl_name p) a m1 -> converted (pl_conv p) a b ->
    In 123 (spec_of p) -> fails k m1 (spec_of p) ex -> falls k m p ex
| fa_nested : forall k m p a b spec m1 m2 ex, valued args kws m (pl_name p) a m1 -> converted (pl_conv p) a b ->
    In 123 (spec_of p) -> given k m1 (spec_of p) spec m2 -> unpresented b spec ex -> falls k m p ex.
End T.
(** The template [t] with these arguments. *)
Definition formats (args : list farg) (kws : dict farg) (t out : str) : Prop := exists m, given args kws 2 FUnset t out m.
Definition misformats (args : list farg) (kws : dict farg) (t : str) (ex : exn) : Prop := fails args kws 2 FUnset t ex.
End F.
Close Scope N_scope.
