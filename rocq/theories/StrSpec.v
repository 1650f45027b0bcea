(** The operations on text, values and dictionaries that the other specifications
    are written with, as the Python manual describes them: which characters are
    white space, what stripping and splitting give, how numbers are written. *)
From Verif Require Export PyBase Values.
Open Scope N_scope.

(** ** Characters *)
(** White space: tab to carriage return, the four separators, blank, next line,
    no-break space, and the blanks of the Unicode blocks. *)
Definition white : list N :=
  [9; 10; 11; 12; 13; 28; 29; 30; 31; 32; 133; 160; 5760; 8192; 8193; 8194; 8195; 8196; 8197; 8198; 8199; 8200; 8201; 8202;
   8232; 8233; 8239; 8287; 12288].
(** What ends a line: \n \v \f \r, file, group and record separators, next line,
    line and paragraph separators. *)
Definition line_ends : list N := [10; 11; 12; 13; 28; 29; 30; 133; 8232; 8233].
Definition digit_chars : str := lit "0123456789".
Definition small : str := lit "abcdefghijklmnopqrstuvwxyz".
Definition capital : str := lit "ABCDEFGHIJKLMNOPQRSTUVWXYZ".
Definition word_chars : str := small ++ capital ++ digit_chars ++ lit "_".
Definition blank (s : str) : Prop := forall c, In c s -> In c white.
Definition solid (s : str) : Prop := forall c, In c s -> ~ In c white.

(** ** Stripping *)
Definition starts_solid (s : str) : Prop := forall c r, s = c :: r -> ~ In c white.
Definition ends_solid (s : str) : Prop := forall r c, s = r ++ [c] -> ~ In c white.
Definition lstripped (s out : str) : Prop := exists a, s = a ++ out /\ blank a /\ starts_solid out.
Definition rstripped (s out : str) : Prop := exists b, s = out ++ b /\ blank b /\ ends_solid out.
Definition stripped (s out : str) : Prop := exists a b, s = a ++ out ++ b /\ blank a /\ blank b /\ starts_solid out /\ ends_solid out.

(** ** Taking apart and putting together *)
(** The pieces with the separator between each two. *)
Inductive joined (sep : str) : list str -> str -> Prop :=
| jo_none : joined sep [] []
| jo_one : forall x, joined sep [x] x
| jo_more : forall x l s, l <> [] -> joined sep l s -> joined sep (x :: l) (x ++ sep ++ s).
(** Pieces without the separator, at least one. *)
Definition split_at (c : N) (s : str) (l : list str) : Prop := l <> [] /\ joined [c] l s /\ Forall (fun x => ~ In c x) l.
(** Words: what is between the white space. *)
Inductive fields : str -> list str -> Prop :=
| fd_none : forall s, blank s -> fields s []
| fd_word : forall a w s l, blank a -> w <> [] -> solid w -> (s = [] \/ exists c r, s = c :: r /\ In c white) ->
    fields s l -> fields (a ++ w ++ s) (w :: l).
(** Lines: a body without line ends and its end, CR LF counting as one; only the
    last may be without an end. *)
Definition ending (t : str) : Prop := t = [] \/ t = [13; 10] \/ exists c, t = [c] /\ In c line_ends.
Inductive lined : str -> list (str * str) -> Prop :=
| ln_none : lined [] []
| ln_line : forall b t r ls, (forall c, In c b -> ~ In c line_ends) -> ending t -> b ++ t <> [] -> (t = [] -> r = []) ->
    (t = [13] -> forall r', r <> 10 :: r') -> lined r ls -> lined (b ++ t ++ r) ((b, t) :: ls).

(** ** Numbers *)
(** The value of a row of digits. *)
Fixpoint value_of (acc : N) (s : str) : N := match s with [] => acc | c :: r => value_of (10 * acc + (c - 48)) r end.
(** Decimal digits without leading zeros. *)
Definition digits_of (n : N) (s : str) : Prop :=
  s <> [] /\ (forall c, In c s -> In c digit_chars) /\ value_of 0 s = n /\ (forall r, s = 48 :: r -> r = []).
Definition written_number (z : Z) (s : str) : Prop :=
  if (z <? 0)%Z then exists r, s = lit "-" ++ r /\ digits_of (Z.to_N (- z)) r else digits_of (Z.to_N z) s.

(** ** Values *)
(** What counts as false. *)
Definition falsy (v : val) : Prop := In v [VNone; VBool false; VInt 0; VStr []; VList []; VTuple []; VDict []].
(** Dictionaries: the keys in the order in which they came, each with its value. *)
Definition keys {A} (d : dict A) : list str := map fst d.
Definition holds {A} (d : dict A) (k : str) (v : A) : Prop := exists a b, d = a ++ (k, v) :: b /\ ~ In k (keys a).
Close Scope N_scope.
