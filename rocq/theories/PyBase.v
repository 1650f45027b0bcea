(** Python values the model needs: exceptions as values, strings as lists of
    code points, ordered dictionaries.  Everything here models a Python builtin
    used by /repo/gopher_render; the comment on each definition says where. *)
From Coq Require Export String Ascii Bool NArith ZArith Lia List.
Export ListNotations.
Open Scope list_scope.

(** Exceptions that code in /repo can raise (ValueError: _parser.py:362,
    _textwrap.py:44; TypeError: _parser.py:65; KeyError: rendering.py:705;
    IndexError: rendering.py:537; AttributeError: _namedict.py:10,
    _parser.py:503; NameError: rendering.py:1322; AssertionError: raised by the
    standard library's html.parser).  [EFuel] is not a Python
    exception: it marks a loop that did not finish within the given number of
    steps.  [EUnsupported] marks inputs outside the model (see Format.v). *)
Inductive exn :=
| EValue | EType | EKey | EIndex | EAttr | EName | EAssert | EFuel | EUnsupported.

Inductive res (A : Type) :=
| Ok (a : A)
| Err (e : exn).
Arguments Ok {A} a.
Arguments Err {A} e.

Definition bind {A B} (r : res A) (f : A -> res B) : res B :=
  match r with Ok a => f a | Err e => Err e end.

Notation "'let*' x ':=' a 'in' b" := (bind a (fun x => b))
  (at level 200, x pattern, a at level 100, b at level 200).

Fixpoint mapM {A B} (f : A -> res B) (l : list A) : res (list B) :=
  match l with
  | [] => Ok []
  | a :: r => let* b := f a in let* bs := mapM f r in Ok (b :: bs)
  end.

(** A Python [str]: the list of its code points. *)
Definition str := list N.

(** String literals. *)
Fixpoint lit (s : string) : str :=
  match s with
  | EmptyString => []
  | String a r => N_of_ascii a :: lit r
  end.
Arguments lit _%string.

Fixpoint seqb (a b : str) : bool :=
  match a, b with
  | [], [] => true
  | x :: a', y :: b' => N.eqb x y && seqb a' b'
  | _, _ => false
  end.

Definition smem (x : str) (l : list str) : bool := existsb (seqb x) l.

(** [len(s)] *)
Definition len (s : str) : Z := Z.of_nat (length s).

(** [s * n] (empty for n <= 0). *)
Definition srep (s : str) (n : Z) : str := List.concat (repeat s (Z.to_nat n)).
(** [' ' * n] *)
Definition spaces (n : Z) : str := repeat 32%N (Z.to_nat n).
(** ["\n" * n] *)
Definition newlines (n : Z) : str := repeat 10%N (Z.to_nat n).

(** ** Dictionaries: insertion-ordered association lists with unique keys. *)
Definition dict (A : Type) := list (str * A).

Fixpoint dget {A} (k : str) (d : dict A) : option A :=
  match d with
  | [] => None
  | (k', v) :: r => if seqb k k' then Some v else dget k r
  end.

(** [d[k] = v]: an existing key keeps its position, a new one goes last. *)
Fixpoint dset {A} (k : str) (v : A) (d : dict A) : dict A :=
  match d with
  | [] => [(k, v)]
  | (k', v') :: r => if seqb k k' then (k', v) :: r else (k', v') :: dset k v r
  end.

(** [d.update(e)] *)
Fixpoint dupdate {A} (d e : dict A) : dict A :=
  match e with
  | [] => d
  | (k, v) :: r => dupdate (dset k v d) r
  end.

(** [del d[k]] (no error: used when the key is known to be present). *)
Fixpoint ddel {A} (k : str) (d : dict A) : dict A :=
  match d with
  | [] => []
  | (k', v') :: r => if seqb k k' then r else (k', v') :: ddel k r
  end.

Definition dhas {A} (k : str) (d : dict A) : bool :=
  match dget k d with Some _ => true | None => false end.
