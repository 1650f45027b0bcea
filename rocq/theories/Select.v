(** Selector matching: gopher_render/_selectors.py, and the renderer lookup
    of _parser.py:303-344. *)
From Verif Require Export Dom.

(** The cssselect 1.1.0 syntax tree (parsed by [cssselect.parse], outside the
    model).  [SOther] stands for node types [_selector_matches] does not know
    (FunctionalPseudoElement included: _selectors.py:285-288, 311-312). *)
Inductive sel :=
| SElement (name : option str)
| SClass (s : sel) (c : str)
| SHash (s : sel) (id : str)
| SNegation (s sub : sel)
| SAttrib (s : sel) (attrib op : str) (value : str)
| SPseudo (s : sel) (ident : str)
| SFunction (s : sel) (name : str) (args : list str)
| SCombined (s : sel) (comb : str) (sub : sel)
| SOther.

(** cssselect's [Selector]: a tree and an optional pseudo-element. *)
Record selector := Selector { sl_tree : sel; sl_pseudo_element : bool }.

Definition spec3 := (Z * Z * Z)%type.
Open Scope Z_scope.

(** cssselect 1.1.0 [specificity()] of the tree node types. *)
Fixpoint sel_specificity (s : sel) : spec3 :=
  match s with
  | SElement (Some _) => (0, 0, 1)
  | SElement None => (0, 0, 0)
  | SClass s _ | SAttrib s _ _ _ | SPseudo s _ | SFunction s _ _ =>
      let '(a, b, c) := sel_specificity s in (a, b + 1, c)
  | SHash s _ => let '(a, b, c) := sel_specificity s in (a + 1, b, c)
  | SNegation s t | SCombined s _ t =>
      let '(a, b, c) := sel_specificity s in
      let '(a', b', c') := sel_specificity t in (a + a', b + b', c + c')
  | SOther => (0, 0, 0)
  end.
Definition specificity (s : selector) : spec3 :=
  let '(a, b, c) := sel_specificity (sl_tree s) in
  if sl_pseudo_element s then (a, b, c + 1) else (a, b, c).

(** ** Comparison, _selectors.py:350-391 *)

(** [_compare(a, b, c)], with [c = None] returning 0 on equality. *)
Definition compare3 (a b : Z) (c : option Z) : Z :=
  if a =? b then match c with None => 0 | Some r => r end else a - b.

(** [_compare_specificity].  [specificity1 is None] raises NameError
    (ArgumentError is not defined), _selectors.py:370-371. *)
Definition compare_specificity (s1 s2 : option spec3) : res Z :=
  match s1 with
  | None => Err EName
  | Some (a1, b1, c1) =>
      match s2 with
      | None => Ok 1
      | Some (a2, b2, c2) =>
          let r := compare3 a1 a2 (Some (compare3 b1 b2 (Some (compare3 c1 c2 None)))) in
          Ok (if r >? 0 then 1 else if r <? 0 then -1 else r)
      end
  end.

(** The [Specificity] wrapper's [__lt__], _selectors.py:408-409. *)
Definition spec_lt (s1 s2 : spec3) : bool :=
  match compare_specificity (Some s1) (Some s2) with
  | Ok r => r <? 0 | Err _ => false end.
(** [__eq__], [__le__], [__gt__], [__ge__], _selectors.py:405-418. *)
Definition spec_eq (s1 s2 : spec3) : bool :=
  match compare_specificity (Some s1) (Some s2) with
  | Ok r => r =? 0 | Err _ => false end.
Definition spec_le (s1 s2 : spec3) : bool :=
  match compare_specificity (Some s1) (Some s2) with
  | Ok r => r <=? 0 | Err _ => false end.
Definition spec_gt (s1 s2 : spec3) : bool :=
  match compare_specificity (Some s1) (Some s2) with
  | Ok r => r >? 0 | Err _ => false end.
Definition spec_ge (s1 s2 : spec3) : bool :=
  match compare_specificity (Some s1) (Some s2) with
  | Ok r => r >=? 0 | Err _ => false end.

(** ** Matching *)

(** What [_selector_matches] is called on: the document root or a node. *)
Inductive obj := ORoot | ONode (i : nat).

(** [not hasattr(tag, 'parent') or tag.parent is None] *)
Definition parent_of (d : dom) (o : obj) : option pref :=
  match o with
  | ORoot => None
  | ONode i => match node_at d i with
               | Some n => match n_parent n with PNone => None | p => Some p end
               | None => None
               end
  end.
Definition obj_of (p : pref) : obj :=
  match p with PNode i => ONode i | _ => ORoot end.
Definition is_data (d : dom) (o : obj) : bool :=
  match o with
  | ORoot => false
  | ONode i => match node_at d i with
               | Some n => match n_data n with Some _ => true | None => false end
               | None => false
               end
  end.
Definition obj_is (o : obj) (i : nat) : bool :=
  match o with ONode j => Nat.eqb i j | ORoot => false end.

(** [l[i]] with Python's negative indices. *)
Definition py_index {A} (l : list A) (i : Z) : res A :=
  let n := Z.of_nat (length l) in
  let j := if i <? 0 then i + n else i in
  if (j <? 0) || (n <=? j) then Err EIndex
  else match nth_error l (Z.to_nat j) with Some a => Ok a | None => Err EIndex end.

(** [int(s)]: optional surrounding whitespace and sign, ASCII digits.
    Simplification: underscores and non-ASCII digits are rejected. *)
Definition py_int (s : str) : res Z :=
  let go (neg : bool) (d : str) :=
    match d with
    | [] => Err EValue
    | _ => match digits_val 10 0 dec_digit d with
           | Some n => Ok (if neg then - Z.of_N n else Z.of_N n)
           | None => Err EValue
           end
    end in
  match strip s with
  | 43%N :: d => go false d
  | 45%N :: d => go true d
  | d => go false d
  end.

Definition list_index (i : nat) (l : list nat) : option nat :=
  (fix go (k : nat) (l : list nat) :=
     match l with
     | [] => None
     | x :: r => if Nat.eqb i x then Some k else go (S k) r
     end) 0%nat l.

(** [_element_matches], _selectors.py:18-26 *)
Definition element_matches (d : dom) (o : obj) (name : option str) : bool :=
  match o with
  | ORoot => false
  | ONode i =>
      match node_at d i with
      | None => false
      | Some n =>
          if is_data d o then false
          else match name with
               | None => true
               | Some e => match n_tag n with Some t => seqb t e | None => false end
               end
      end
  end.

(** The operator part of [_attribute_matches], _selectors.py:138-159. *)
Definition attr_test (attrs : dict aval) (attrib op value : str) : res bool :=
  match dget attrib attrs with
  | None => Ok false
  | Some av =>
      if seqb op (lit "exists") then Ok true
      else
        let v := match av with
                 | AvNone => None
                 | AvStr s => Some s
                 | AvList l => Some (join (lit " ") l)
                 end in
        if seqb op (lit "=") then
          Ok (match v with Some s => seqb s value | None => false end)
        else if seqb op (lit "~=") then
          match v with Some s => Ok (smem value (split_ws s)) | None => Err EAttr end
        else if seqb op (lit "|=") then
          match v with
          | Some s => Ok (seqb s value || startswith (value ++ lit "-") s)
          | None => Err EAttr
          end
        else if seqb op (lit "^=") then
          match v with Some s => Ok (startswith value s) | None => Err EAttr end
        else if seqb op (lit "$=") then
          match v with Some s => Ok (endswith value s) | None => Err EAttr end
        else if seqb op (lit "*=") then
          match v with Some s => Ok (contains value s) | None => Err EType end
        else Ok false
  end.

(** [_any_ancestor_matches], _selectors.py:59-64; [m] is
    [fun t => _selector_matches(t, selector)]. *)
Fixpoint any_ancestor (fuel : nat) (d : dom) (m : obj -> res bool) (o : obj) : res bool :=
  match fuel with
  | O => Err EFuel
  | S f =>
      match parent_of d o with
      | None => Ok false
      | Some p =>
          let* b := m (obj_of p) in
          if b then Ok true else any_ancestor f d m (obj_of p)
      end
  end.

(** The loop of [_general_sibling_matches], _selectors.py:98-103. *)
Fixpoint earlier_sibling (m : obj -> res bool) (o : obj) (l : list nat) : res bool :=
  match l with
  | [] => Ok false
  | x :: r =>
      if obj_is o x then Ok false
      else let* b := m (ONode x) in
           if b then Ok true else earlier_sibling m o r
  end.

(** [_selector_matches] and the functions it dispatches to,
    _selectors.py:18-312. *)
Fixpoint selector_matches (d : dom) (s : sel) (o : obj) {struct s} : res bool :=
  match s with
  | SElement name => Ok (element_matches d o name)
  | SClass s1 c =>                                   (* _selectors.py:40-45 *)
      match o with
      | ORoot => Ok false
      | ONode i =>
          match node_at d i with
          | None => Ok false
          | Some n =>
              if is_data d o then Ok false
              else if smem c (n_classes n) then selector_matches d s1 o else Ok false
          end
      end
  | SHash s1 id =>                                   (* _selectors.py:29-37 *)
      match o with
      | ORoot => Ok false
      | ONode i =>
          match node_at d i with
          | None => Ok false
          | Some n =>
              match n_id n with
              | None => Ok false
              | Some x =>
                  if is_data d o then Ok false
                  else if seqb x id then selector_matches d s1 o else Ok false
              end
          end
      end
  | SNegation s1 s2 =>                               (* _selectors.py:50-56 *)
      if is_data d o then Ok false
      else let* a := selector_matches d s1 o in
           if a then let* b := selector_matches d s2 o in Ok (negb b) else Ok false
  | SAttrib s1 attrib op value =>                    (* _selectors.py:131-159 *)
      let* a := selector_matches d s1 o in
      if a then
        match o with
        | ORoot => Err EAttr
        | ONode i => match node_at d i with
                     | Some n => attr_test (n_attrs n) attrib op value
                     | None => Err EAttr
                     end
        end
      else Ok false
  | SPseudo s1 ident =>                              (* _selectors.py:206-254 *)
      if seqb ident (lit "first-child") || seqb ident (lit "last-child") then
        match parent_of d o with
        | None => Ok false
        | Some p =>
            if is_data d o then Ok false
            else
              let ch := tag_children d p in
              match ch with
              | [] => Ok false
              | _ =>
                  let* x := py_index ch (if seqb ident (lit "first-child") then 0 else -1) in
                  if obj_is o x then selector_matches d s1 o else Ok false
              end
        end
      else Ok false
  | SFunction s1 name args =>                        (* _selectors.py:178-203, 263-282 *)
      if seqb name (lit "nth-child") || seqb name (lit "nth-last-child") then
        match parent_of d o with
        | None => Ok false
        | Some p =>
            if is_data d o then Ok false
            else
              match args with
              | [] => Err EIndex
              | a :: _ =>
                  let* n := py_int a in
                  let ch := tag_children d p in
                  if n >? Z.of_nat (length ch) then Ok false
                  else
                    let* x := py_index ch (if seqb name (lit "nth-child") then n - 1 else - n) in
                    if obj_is o x then selector_matches d s1 o else Ok false
              end
        end
      else Ok false
  | SCombined s1 comb s2 =>                          (* _selectors.py:67-128, 162-173 *)
      if seqb comb (lit " ") then
        let* a := selector_matches d s2 o in
        if a then any_ancestor (S (length (d_nodes d))) d (selector_matches d s1) o
        else Ok false
      else if seqb comb (lit ">") then
        match parent_of d o with
        | None => Ok false
        | Some p =>
            let* a := selector_matches d s2 o in
            if a then selector_matches d s1 (obj_of p) else Ok false
        end
      else if seqb comb (lit "~") then
        match parent_of d o with
        | None => Ok false
        | Some p =>
            let* a := selector_matches d s2 o in
            if a then earlier_sibling (selector_matches d s1) o (tag_children d p)
            else Ok false
        end
      else if seqb comb (lit "+") then
        match parent_of d o with
        | None => Ok false
        | Some p =>
            let* a := selector_matches d s2 o in
            if a then
              let ch := tag_children d p in
              match (match o with ONode i => list_index i ch | ORoot => None end) with
              | None => Err EValue
              | Some O => Ok false
              | Some (S k) =>
                  let* x := py_index ch (Z.of_nat k) in
                  selector_matches d s1 (ONode x)
              end
            else Ok false
        end
      else Ok false
  | SOther => Ok false
  end.

(** [_more_specific], _selectors.py:337-347 *)
Definition more_specific (s1 : spec3) (s2 : option spec3) : res bool :=
  let* r := compare_specificity (Some s1) s2 in Ok (r >? 0).

(** [tag_matches], _selectors.py:315-334 *)
Fixpoint tag_matches_from (d : dom) (o : obj) (acc : bool * option spec3)
  (l : list selector) : res (bool * option spec3) :=
  match l with
  | [] => Ok acc
  | s :: r =>
      let* m := selector_matches d (sl_tree s) o in
      if m then
        let* ms := more_specific (specificity s) (snd acc) in
        tag_matches_from d o (if ms then (true, Some (specificity s)) else acc) r
      else tag_matches_from d o acc r
  end.
Definition tag_matches (d : dom) (o : obj) (l : list selector) : res (bool * option spec3) :=
  tag_matches_from d o (false, None) l.

(** ** RendererMap, _parser.py:303-344 *)
Section RMap.
Context {C : Type}.   (* renderer classes *)

(** A renderer specification as written in a rule table: a class (or None), or
    a tuple (class or None, settings or None). *)
Inductive rspec :=
| RPlain (c : option C)
| RPair (c : option C) (s : option settings).

(** [mapping.renderer[0]], [mapping.renderer[1]] with the TypeError fallback,
    _parser.py:332-337. *)
Definition rspec_class (r : rspec) : option C :=
  match r with RPlain c => c | RPair c _ => c end.
Definition rspec_settings (r : rspec) : option settings :=
  match r with RPlain _ => None | RPair _ s => s end.

Record rule := Rule { ru_sel : list selector; ru_spec : rspec }.

(** The matching loop, _parser.py:319-327. *)
Fixpoint all_matches (d : dom) (o : obj) (rules : list rule) : res (list (spec3 * rspec)) :=
  match rules with
  | [] => Ok []
  | r :: rs =>
      let* (m, sp) := tag_matches d o (ru_sel r) in
      let* rest := all_matches d o rs in
      match m, sp with
      | true, Some s => Ok ((s, ru_spec r) :: rest)
      | _, _ => Ok rest
      end
  end.

(** [all_matches.sort(key=lambda m: m[0])]: a stable sort using only [__lt__]. *)
Fixpoint insert_spec (x : spec3 * rspec) (l : list (spec3 * rspec)) : list (spec3 * rspec) :=
  match l with
  | [] => [x]
  | y :: r => if spec_lt (fst y) (fst x) then y :: insert_spec x r else x :: l
  end.
Fixpoint sort_spec (l : list (spec3 * rspec)) : list (spec3 * rspec) :=
  match l with
  | [] => []
  | x :: r => insert_spec x (sort_spec r)
  end.

(** The combination loop, _parser.py:329-341. *)
Fixpoint combine_specs (acc : option C * settings) (l : list (spec3 * rspec))
  : option C * settings :=
  match l with
  | [] => acc
  | (_, r) :: rest =>
      combine_specs
        (match rspec_class r with Some c => Some c | None => fst acc end,
         match rspec_settings r with Some s => dupdate (snd acc) s | None => snd acc end)
        rest
  end.

(** [get_for_tag], _parser.py:317-344 *)
Definition get_for_tag (d : dom) (o : obj) (rules : list rule) : res (option (C * settings)) :=
  let* ms := all_matches d o rules in
  let '(c, s) := combine_specs (None, []) (sort_spec ms) in
  Ok (match c with Some c => Some (c, s) | None => None end).
End RMap.
Arguments rspec : clear implicits.
Arguments rule : clear implicits.
Close Scope Z_scope.
