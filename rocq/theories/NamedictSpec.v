(** What a map with two access syntaxes does (C40). *)
From Verif Require Export Namedict.

Section Spec.
Context {A : Type}.
Definition map1 := str -> option A.
Definition put (m : map1) (k : str) (v : option A) : map1 := fun k' => if seqb k k' then v else m k'.

(** One operation on one map: reads see it, writes change one key, a missing
    key is KeyError through items and AttributeError through attributes. *)
Definition map_step (m : map1) (o : nd_op A) : map1 * nd_out A :=
  match o with
  | OGetItem k => (m, match m k with Some v => RVal v | None => RErr EKey end)
  | OGetAttr k => (m, match m k with Some v => RVal v | None => RErr EAttr end)
  | OSetItem k v | OSetAttr k v => (put m k (Some v), RNone)
  | ODelItem k => match m k with Some _ => (put m k None, RNone) | None => (m, RErr EKey) end
  | ODelAttr k => match m k with Some _ => (put m k None, RNone) | None => (m, RErr EAttr) end
  end.
Fixpoint map_run (m : map1) (l : list (nd_op A)) : map1 * list (nd_out A) :=
  match l with
  | [] => (m, [])
  | o :: r => let (m1, x) := map_step m o in let (m2, xs) := map_run m1 r in (m2, x :: xs)
  end.

(** Attribute syntax is used for names dict itself does not define. *)
Definition attr_ok (o : nd_op A) : Prop :=
  match o with
  | OGetAttr k | OSetAttr k _ | ODelAttr k => ~ In k type_attrs
  | _ => True
  end.

(** ** All names *)
(** For a name that dict defines there are two stores: the items, and the
    attributes of the object.  Reading an attribute sees only the latter, or
    what dict defines; assigning to one or deleting one goes to the items if the
    name is a key there. *)
Definition both_step (m a : map1) (o : nd_op A) : map1 * map1 * nd_out A :=
  match o with
  | OGetItem k => (m, a, match m k with Some v => RVal v | None => RErr EKey end)
  | OSetItem k v => (put m k (Some v), a, RNone)
  | ODelItem k => match m k with Some _ => (put m k None, a, RNone) | None => (m, a, RErr EKey) end
  | OGetAttr k => (m, a, if smem k type_attrs then match a k with Some v => RVal v | None => RType k end
                         else match m k with Some v => RVal v | None => RErr EAttr end)
  | OSetAttr k v => match m k with
                    | Some _ => (put m k (Some v), a, RNone)
                    | None => if smem k type_attrs then (m, put a k (Some v), RNone) else (put m k (Some v), a, RNone)
                    end
  | ODelAttr k => match m k with
                  | Some _ => (put m k None, a, RNone)
                  | None => match a k with Some _ => (m, put a k None, RNone) | None => (m, a, RErr EAttr) end
                  end
  end.
Fixpoint both_run (m a : map1) (l : list (nd_op A)) : map1 * map1 * list (nd_out A) :=
  match l with
  | [] => (m, a, [])
  | o :: r => let '(m1, a1, x) := both_step m a o in let '(m2, a2, xs) := both_run m1 a1 r in (m2, a2, x :: xs)
  end.
End Spec.
