(** Dynamically typed Python values, as stored in renderer settings. *)
From Verif Require Export PyStr.
Open Scope Z_scope.

Inductive val :=
| VNone
| VBool (b : bool)
| VInt (z : Z)
| VStr (s : str)
| VList (l : list val)
| VTuple (l : list val)
| VDict (d : list (str * val)).

(** A settings dictionary (rendering.py:294, 364, ...). *)
Definition settings := dict val.

(** bool is a subclass of int in Python. *)
Definition as_int (v : val) : option Z :=
  match v with
  | VInt z => Some z
  | VBool b => Some (if b then 1 else 0)
  | _ => None
  end.

(** Python [==] on these values ([True == 1]; dicts compare regardless of order). *)
Fixpoint val_eqb (a b : val) {struct a} : bool :=
  match a, b with
  | VNone, VNone => true
  | VStr s, VStr t => seqb s t
  | VList l, VList m =>
      (fix go (l m : list val) : bool :=
         match l, m with
         | [], [] => true
         | x :: l', y :: m' => val_eqb x y && go l' m'
         | _, _ => false
         end) l m
  | VTuple l, VTuple m =>
      (fix go (l m : list val) : bool :=
         match l, m with
         | [], [] => true
         | x :: l', y :: m' => val_eqb x y && go l' m'
         | _, _ => false
         end) l m
  | VDict d, VDict e =>
      Nat.eqb (length d) (length e) &&
      (fix go (d : list (str * val)) : bool :=
         match d with
         | [] => true
         | (k, v) :: d' =>
             match dget k e with
             | Some w => val_eqb v w && go d'
             | None => false
             end
         end) d
  | _, _ =>
      match as_int a, as_int b with
      | Some x, Some y => x =? y
      | _, _ => false
      end
  end.

(** Truth value testing ([if settings['capitalized']], rendering.py:371). *)
Definition truth (v : val) : bool :=
  match v with
  | VNone => false
  | VBool b => b
  | VInt z => negb (z =? 0)
  | VStr s => match s with [] => false | _ => true end
  | VList l | VTuple l => match l with [] => false | _ => true end
  | VDict d => match d with [] => false | _ => true end
  end.

(** [str(v)] as used by [format] (rendering.py:1259).  Containers are outside the model. *)
Definition val_str (v : val) : res str :=
  match v with
  | VNone => Ok (lit "None")
  | VBool true => Ok (lit "True")
  | VBool false => Ok (lit "False")
  | VInt z => Ok (str_of_Z z)
  | VStr s => Ok s
  | _ => Err EUnsupported
  end.

(** Typed projections: the operation the code applies raises TypeError
    (or AttributeError for a method call on a non-string). *)
Definition want_int (v : val) : res Z :=
  match as_int v with Some z => Ok z | None => Err EType end.
Definition want_str (v : val) : res str :=
  match v with VStr s => Ok s | _ => Err EAttr end.

(** [settings.name]: attribute access on a namedict, _namedict.py:7-10
    (setting names used by the library are not attributes of dict). *)
Definition sattr (s : settings) (k : str) : res val :=
  match dget k s with Some v => Ok v | None => Err EAttr end.
(** [settings[name]] *)
Definition sitem (s : settings) (k : str) : res val :=
  match dget k s with Some v => Ok v | None => Err EKey end.

Close Scope Z_scope.
