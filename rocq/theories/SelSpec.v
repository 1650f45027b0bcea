(** Specification vocabulary for selectors: CSS semantics over the document
    tree, specificity order, and the rule cascade. *)
From Verif Require Export TreeSpec Select.

(** ** Specificity: lexicographic on (ids, classes and attributes, types) *)
Definition lex_lt (x y : spec3) : Prop :=
  let '(a, b, c) := x in let '(a', b', c') := y in
  (a < a' \/ a = a' /\ (b < b' \/ b = b' /\ c < c'))%Z.

(** ** What a selector is made of *)
(** The simple selectors written in [s], those inside :not() and on both sides
    of a combinator included: [#x] (ids); [.x], [ [x] ], [:x] and [:x()]
    (features); [x] (names).  The universal selector, :not itself and the
    combinators count for nothing. *)
Inductive part := PartId | PartFeature | PartName.
Inductive written_in : sel -> list part -> Prop :=
| wi_any : written_in (SElement None) []
| wi_name : forall t, written_in (SElement (Some t)) [PartName]
| wi_class : forall s c l, written_in s l -> written_in (SClass s c) (PartFeature :: l)
| wi_attrib : forall s a o v l, written_in s l -> written_in (SAttrib s a o v) (PartFeature :: l)
| wi_pseudo : forall s p l, written_in s l -> written_in (SPseudo s p) (PartFeature :: l)
| wi_function : forall s f a l, written_in s l -> written_in (SFunction s f a) (PartFeature :: l)
| wi_id : forall s x l, written_in s l -> written_in (SHash s x) (PartId :: l)
| wi_not : forall s s' l l', written_in s l -> written_in s' l' -> written_in (SNegation s s') (l ++ l')
| wi_pair : forall s c s' l l', written_in s l -> written_in s' l' -> written_in (SCombined s c s') (l ++ l').
Definition parts_eq (x y : part) : {x = y} + {x <> y}.
Proof. decide equality. Defined.
Definition how_many (x : part) (l : list part) : Z := Z.of_nat (count_occ parts_eq l x).

(** ** Elements, parents, siblings *)
Definition element (d : dom) (i : nat) : Prop :=
  exists n t, node_at d i = Some n /\ n_tag n = Some t.
(** [j] is the element that directly contains [i]. *)
Definition parent_element (d : dom) (j i : nat) : Prop :=
  exists n, node_at d i = Some n /\ n_parent n = PNode j.
Inductive ancestor (d : dom) : nat -> nat -> Prop :=
| ancestor_one : forall j i, parent_element d j i -> ancestor d j i
| ancestor_up : forall k j i, ancestor d k j -> parent_element d j i -> ancestor d k i.
(** The elements among the children of [i]'s parent (or of the document), in
    document order; text is not counted. *)
Definition siblings (d : dom) (i : nat) : list nat :=
  match node_at d i with
  | Some n => filter (fun k => match node_at d k with
                               | Some m => match n_tag m with Some _ => true | None => false end
                               | None => false end)
                (match n_parent n with
                 | PRoot => d_root d
                 | PNode j => match node_at d j with Some m => n_children m | None => [] end
                 | PNone => [] end)
  | None => []
  end.

(** ** Attribute operators.  A valueless attribute has the empty value. *)
Definition css_space (c : N) : bool := ((c =? 9) || (c =? 10) || (c =? 12) || (c =? 13) || (c =? 32))%N.
(** [v] is one of the words of [x], separated by CSS white space. *)
Definition css_word (v x : str) : Prop :=
  v <> [] /\ (forall c, In c v -> css_space c = false) /\
  exists l r, x = l ++ v ++ r
    /\ (l = [] \/ exists l' c, l = l' ++ [c] /\ css_space c = true)
    /\ (r = [] \/ exists c r', r = c :: r' /\ css_space c = true).
Definition css_attr (op x v : str) : Prop :=
  (op = lit "exists")
  \/ (op = lit "=" /\ x = v)
  \/ (op = lit "~=" /\ css_word v x)
  \/ (op = lit "|=" /\ (x = v \/ exists r, x = v ++ lit "-" ++ r))
  \/ (op = lit "^=" /\ v <> [] /\ exists r, x = v ++ r)
  \/ (op = lit "$=" /\ v <> [] /\ exists l, x = l ++ v)
  \/ (op = lit "*=" /\ v <> [] /\ exists l r, x = l ++ v ++ r).

(** The attribute values an element carries; class is kept as words. *)
Definition css_aval (av : aval) (op v : str) : Prop :=
  match av with
  | AvNone => css_attr op [] v
  | AvStr x => css_attr op x v
  | AvList l => op = lit "exists" \/ (op = lit "~=" /\ In v l)
  end.

(** ** What a selector means *)
Fixpoint css (d : dom) (s : sel) (i : nat) : Prop :=
  match s with
  | SElement None => element d i
  | SElement (Some t) => exists n, node_at d i = Some n /\ n_tag n = Some t
  | SClass s1 c => css d s1 i /\ exists n, node_at d i = Some n /\ In c (n_classes n)
  | SHash s1 x => css d s1 i /\ exists n, node_at d i = Some n /\ n_id n = Some x
  | SNegation s1 s2 => css d s1 i /\ ~ css d s2 i
  | SAttrib s1 a op v =>
      css d s1 i /\ exists n av, node_at d i = Some n /\ dget a (n_attrs n) = Some av /\ css_aval av op v
  | SPseudo s1 p =>
      css d s1 i /\
      ((p = lit "first-child" /\ exists r, siblings d i = i :: r)
       \/ (p = lit "last-child" /\ exists l, siblings d i = l ++ [i]))
  | SFunction s1 f args =>
      css d s1 i /\
      exists k, (1 <= k)%Z /\ args = [str_of_Z k] /\
      ((f = lit "nth-child" /\ nth_error (siblings d i) (Z.to_nat (k - 1)) = Some i)
       \/ (f = lit "nth-last-child" /\ nth_error (rev (siblings d i)) (Z.to_nat (k - 1)) = Some i))
  | SCombined s1 c s2 =>
      css d s2 i /\
      ((c = lit " " /\ exists j, ancestor d j i /\ css d s1 j)
       \/ (c = lit ">" /\ exists j, parent_element d j i /\ css d s1 j)
       \/ (c = lit "~" /\ exists j l m r, siblings d i = l ++ j :: m ++ i :: r /\ css d s1 j)
       \/ (c = lit "+" /\ exists j l r, siblings d i = l ++ j :: i :: r /\ css d s1 j))
  | SOther => False
  end.

(** ** The selectors the claims cover *)
(** An attribute test whose outcome the code decides as CSS does: a non-empty
    value for the substring operators; the document's attributes of that name
    have a value (unless only presence or a non-empty exact value is asked for),
    use only CSS white space where words are asked for; class is tested only
    for presence and words. *)
Definition regular (d : dom) (a op v : str) : Prop :=
  In op [lit "exists"; lit "="; lit "~="; lit "|="; lit "^="; lit "$="; lit "*="]
  /\ (In op [lit "^="; lit "$="; lit "*="] -> v <> [])
  /\ forall i n av, element d i -> node_at d i = Some n -> dget a (n_attrs n) = Some av ->
       match av with
       | AvNone => op = lit "exists" \/ op = lit "=" /\ v <> []
       | AvStr x => op = lit "~=" -> forall c, In c x -> is_space c = css_space c
       | AvList _ => op = lit "exists" \/ op = lit "~="
       end.
Fixpoint supported (d : dom) (s : sel) : Prop :=
  match s with
  | SElement _ => True
  | SClass s1 _ | SHash s1 _ => supported d s1
  | SNegation s1 s2 => supported d s1 /\ supported d s2
  | SAttrib s1 a op v => supported d s1 /\ regular d a op v
  | SPseudo s1 p => supported d s1 /\ (p = lit "first-child" \/ p = lit "last-child")
  | SFunction s1 f args =>
      supported d s1 /\ (f = lit "nth-child" \/ f = lit "nth-last-child")
      /\ exists k, (1 <= k)%Z /\ args = [str_of_Z k]
  | SCombined s1 c s2 =>
      supported d s1 /\ supported d s2 /\ In c [lit " "; lit ">"; lit "~"; lit "+"]
  | SOther => False
  end.

(** ** The cascade *)
Section Cascade.
Context {C X : Type}.
(** Rule number [k] matches with specificity [sp]. *)
Definition rule_matches (d : dom) (o : obj) (rules : list (rule C)) (k : nat) (ru : rule C) (sp : spec3) : Prop :=
  nth_error rules k = Some ru /\ tag_matches d o (ru_sel ru) = Ok (true, Some sp).
(** Among the matching rules that say [f], rule [k] wins: the most specific,
    and the latest of those equally specific. *)
Definition winner (d : dom) (o : obj) (rules : list (rule C)) (f : rspec C -> option X) (k : nat) (x : X) : Prop :=
  exists ru sp, rule_matches d o rules k ru sp /\ f (ru_spec ru) = Some x /\
    forall k' ru' sp', rule_matches d o rules k' ru' sp' -> f (ru_spec ru') <> None ->
      lex_lt sp' sp \/ sp' = sp /\ k' <= k.
Definition no_rule (d : dom) (o : obj) (rules : list (rule C)) (f : rspec C -> option X) : Prop :=
  forall k ru sp, rule_matches d o rules k ru sp -> f (ru_spec ru) = None.
End Cascade.
(** What a rule says: its renderer, and its value for a setting. *)
Definition rule_renderer {C} (r : rspec C) : option C :=
  match r with RPlain c => c | RPair c _ => c end.
Definition rule_setting {C} (key : str) (r : rspec C) : option val :=
  match r with RPair _ (Some s) => dget key s | _ => None end.
Definition rules_ok {C} (rules : list (rule C)) : Prop :=
  forall ru c s, In ru rules -> ru_spec ru = RPair c (Some s) -> NoDup (dkeys s).
