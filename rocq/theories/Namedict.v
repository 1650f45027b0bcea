(** Model of gopher_render/_namedict.py. *)
From Verif Require Export PyBase.

(** Attributes every [namedict] instance has through its type: [dir(dict)] of
    CPython 3.11 plus what _namedict.py:6-25 defines.  Attribute lookup finds
    these before [__getattr__] is consulted. *)
Definition type_attrs : list str := map lit [
  "clear"; "copy"; "fromkeys"; "get"; "items"; "keys"; "pop"; "popitem";
  "setdefault"; "update"; "values";
  "__class__"; "__class_getitem__"; "__contains__"; "__delattr__";
  "__delitem__"; "__dict__"; "__dir__"; "__doc__"; "__eq__"; "__format__";
  "__ge__"; "__getattr__"; "__getattribute__"; "__getitem__"; "__getstate__";
  "__gt__"; "__hash__"; "__init__"; "__init_subclass__"; "__ior__";
  "__iter__"; "__le__"; "__len__"; "__lt__"; "__module__"; "__ne__";
  "__new__"; "__or__"; "__reduce__"; "__reduce_ex__"; "__repr__";
  "__reversed__"; "__ror__"; "__setattr__"; "__setitem__"; "__sizeof__";
  "__str__"; "__subclasshook__"; "__weakref__" ]%string.

Definition reserved (k : str) : bool := smem k type_attrs.

Section ND.
Context {A : Type}.

(** A namedict object: the mapping proper and the instance [__dict__]
    (where [object.__setattr__] stores). *)
Record namedict := ND { nd_map : dict A; nd_inst : dict A }.

(** What an attribute read yields: a stored value or an attribute of the type. *)
Inductive got := GVal (a : A) | GType (name : str).

(** [namedict(d)] *)
Definition nd_of (d : dict A) : namedict := ND d [].

(** Plain dict item protocol (inherited). *)
Definition nd_getitem (s : namedict) (k : str) : res A :=
  match dget k (nd_map s) with Some v => Ok v | None => Err EKey end.
Definition nd_setitem (s : namedict) (k : str) (v : A) : namedict :=
  ND (dset k v (nd_map s)) (nd_inst s).
Definition nd_delitem (s : namedict) (k : str) : res namedict :=
  if dhas k (nd_map s) then Ok (ND (ddel k (nd_map s)) (nd_inst s)) else Err EKey.

(** Attribute read: normal lookup (instance dict, then type), then
    [__getattr__], _namedict.py:7-10. *)
Definition nd_getattr (s : namedict) (k : str) : res got :=
  match dget k (nd_inst s) with
  | Some v => Ok (GVal v)
  | None =>
      if reserved k then Ok (GType k)
      else match dget k (nd_map s) with
           | Some v => Ok (GVal v)
           | None => Err EAttr
           end
  end.

(** [hasattr(self, name)] *)
Definition nd_hasattr (s : namedict) (k : str) : bool :=
  match nd_getattr s k with Ok _ => true | Err _ => false end.

(** [__setattr__], _namedict.py:12-16.  Simplification: [object.__setattr__] on
    the data descriptors [__class__] and [__dict__] is treated like any other
    instance attribute. *)
Definition nd_setattr (s : namedict) (k : str) (v : A) : namedict :=
  if nd_hasattr s k && negb (dhas k (nd_map s))
  then ND (nd_map s) (dset k v (nd_inst s))
  else nd_setitem s k v.

(** [__delattr__], _namedict.py:18-25. *)
Definition nd_delattr (s : namedict) (k : str) : res namedict :=
  if nd_hasattr s k && negb (dhas k (nd_map s))
  then if dhas k (nd_inst s)
       then Ok (ND (nd_map s) (ddel k (nd_inst s)))
       else Err EAttr
  else match nd_delitem s k with
       | Ok s' => Ok s'
       | Err _ => Err EAttr
       end.

(** One client operation and what the client observes. *)
Inductive nd_op :=
| OGetItem (k : str) | OSetItem (k : str) (v : A) | ODelItem (k : str)
| OGetAttr (k : str) | OSetAttr (k : str) (v : A) | ODelAttr (k : str).
Inductive nd_out := RVal (a : A) | RType (k : str) | RNone | RErr (e : exn).

Definition nd_step (s : namedict) (o : nd_op) : namedict * nd_out :=
  match o with
  | OGetItem k => (s, match nd_getitem s k with Ok v => RVal v | Err e => RErr e end)
  | OSetItem k v => (nd_setitem s k v, RNone)
  | ODelItem k => match nd_delitem s k with Ok s' => (s', RNone) | Err e => (s, RErr e) end
  | OGetAttr k => (s, match nd_getattr s k with
                      | Ok (GVal v) => RVal v | Ok (GType n) => RType n
                      | Err e => RErr e end)
  | OSetAttr k v => (nd_setattr s k v, RNone)
  | ODelAttr k => match nd_delattr s k with Ok s' => (s', RNone) | Err e => (s, RErr e) end
  end.

Fixpoint nd_run (s : namedict) (l : list nd_op) : namedict * list nd_out :=
  match l with
  | [] => (s, [])
  | o :: r => let (s1, x) := nd_step s o in
              let (s2, xs) := nd_run s1 r in (s2, x :: xs)
  end.
End ND.
Arguments namedict : clear implicits.
Arguments nd_op : clear implicits.
Arguments nd_out : clear implicits.
