(** Specification vocabulary for inherited settings. *)
From Verif Require Export SettingsHeap.

(** The definition of [k] in the most derived class that has one; the list is
    the method resolution order, most derived class first. *)
Fixpoint inherited (k : str) (mro : list settings) : option val :=
  match mro with
  | [] => None
  | s :: r => match dget k s with Some v => Some v | None => inherited k r end
  end.
(** Rule table first, then classes. *)
Definition overridden (k : str) (local : option settings) (s : option val) : option val :=
  match local with
  | Some l => match dget k l with Some v => Some v | None => s end
  | None => s
  end.
(** A dictionary has a key once. *)
Definition keyed (s : settings) : Prop := NoDup (map fst s).
(** Python's [==] of these values: truth values are the numbers 0 and 1, and
    the order of a dictionary does not matter. *)
Inductive numeric : val -> Z -> Prop :=
| nu_int : forall z, numeric (VInt z) z
| nu_true : numeric (VBool true) 1%Z
| nu_false : numeric (VBool false) 0%Z.
Inductive equal_values : val -> val -> Prop :=
| ev_none : equal_values VNone VNone
| ev_text : forall s, equal_values (VStr s) (VStr s)
| ev_number : forall a b z, numeric a z -> numeric b z -> equal_values a b
| ev_list : forall l m, Forall2 equal_values l m -> equal_values (VList l) (VList m)
| ev_tuple : forall l m, Forall2 equal_values l m -> equal_values (VTuple l) (VTuple m)
| ev_dict : forall d e, length d = length e ->
    Forall (fun kv => exists w, dget (fst kv) e = Some w /\ equal_values (snd kv) w) d -> equal_values (VDict d) (VDict e).
Definition equal_settings (a b : settings) : Prop := equal_values (VDict a) (VDict b).
(** No two classes have the same non-empty dictionary. *)
Definition differing (mro : list settings) : Prop :=
  ForallOrdPairs (fun a b => a = [] \/ ~ equal_settings a b) mro.
(** The built-in classes. *)
Definition builtin : list rcls :=
  [Renderer; NonRenderer; InlineRenderer; BlockRenderer; HeaderRenderer; MarkdownHeaderRenderer; ParagraphRenderer; CodeRenderer;
   PreRenderer; LinkRenderer; ExtractedLinkRenderer; ImageRenderer; ExtractedImageLinkRenderer; EmRenderer; StrongRenderer;
   UnderlineRenderer; StrikethroughRenderer; BreakRenderer; BlockQuoteRenderer; ListRenderer; ListItemRenderer;
   OrderedListItemRenderer; DefinitionListRenderer; DefinitionListTermHeaderRenderer; DefinitionListItemRenderer; AnsiEscapeCodeRenderer].
(** What is left of the classes, the least derived one being looked at first: a
    dictionary equal to one that is left already is dropped. *)
Inductive left_of : list settings -> list settings -> Prop :=
| lo_none : left_of [] []
| lo_repeat : forall s r l x, left_of r l -> In x l -> equal_settings s x -> left_of (s :: r) l
| lo_other : forall s r l, left_of r l -> (forall x, In x l -> ~ equal_settings s x) -> left_of (s :: r) (s :: l).

(** The programs considered: names of classes, instances and dictionaries that exist. *)
Definition proper (w : world) (o : sop) : Prop :=
  match o with
  | SNew mro local => Forall (fun c => c < length (w_classes w)) mro /\ (forall b, local = Some b -> b < length (w_dicts w))
  | _ => True
  end.
Fixpoint proper_run (w : world) (ops : list sop) : Prop :=
  match ops with [] => True | o :: r => proper w o /\ proper_run (sstep w o) r end.
