(** What any selector makes of any place in a document: it matches, does not
    match, or raises.  Defined over document trees; it knows nothing of arenas,
    node numbers, matching functions or fuel.  [css_at] is the meaning CSS gives
    to the selectors CSS and the code agree on; [judged] is what the code does
    with every selector. *)
From Verif Require Export SelSpec TextSpec PageSpec.
Open Scope Z_scope.

(** ** Places in a document *)
(** A node with its siblings before and after it. *)
Record spot := Spot { sp_before : list tree; sp_here : tree; sp_after : list tree }.
(** A node, the element around it, and so on outwards. *)
Definition site := list spot.
(** The places of [kids], in order, inside [up]. *)
Fixpoint spots (up : site) (before kids : list tree) : list site :=
  match kids with
  | [] => []
  | t :: r => (Spot before t r :: up) :: spots up (before ++ [t]) r
  end.
(** The places directly inside an element. *)
Definition kids_of (t : tree) : list tree := match t with Tag _ _ _ kids => kids | Text _ _ => [] end.
Definition inner_spots (z : site) : list site :=
  match z with [] => [] | x :: _ => spots z [] (kids_of (sp_here x)) end.
(** All places in [t], itself first, in document order. *)
Fixpoint places (up : site) (before : list tree) (t : tree) (after : list tree) {struct t} : list site :=
  let z := Spot before t after :: up in
  z :: match t with
       | Tag _ _ _ kids =>
           (fix go (before kids : list tree) : list site :=
              match kids with
              | [] => []
              | k :: r => places z before k r ++ go (before ++ [k]) r
              end) [] kids
       | Text _ _ => []
       end.
Fixpoint all_places (up : site) (before kids : list tree) : list site :=
  match kids with
  | [] => []
  | k :: r => places up before k r ++ all_places up (before ++ [k]) r
  end.

(** ** Selectors *)
Definition elements (l : list tree) : Z := Z.of_nat (length (filter PageSpec.element l)).
(** A valueless attribute has the empty value. *)
Definition attr_value (x : option str) : str := match x with Some y => y | None => [] end.
Fixpoint css_at (s : sel) (z : site) {struct s} : Prop :=
  match z with
  | Spot before (Tag i t a kids) after :: up =>
      match s with
      | SElement None => True
      | SElement (Some name) => t = name
      | SClass s1 c => css_at s1 z /\ exists x, attr "class" a = Some x /\ css_word c x
      | SHash s1 x => css_at s1 z /\ attr "id" a = Some x
      | SNegation s1 s2 => css_at s1 z /\ ~ css_at s2 z
      | SAttrib s1 k op v => css_at s1 z /\ exists x, dlast k a = Some x /\ css_attr op (attr_value x) v
      | SPseudo s1 p => css_at s1 z /\
          (p = lit "first-child" /\ elements before = 0 \/ p = lit "last-child" /\ elements after = 0)
      | SFunction s1 f args => css_at s1 z /\ exists k, 1 <= k /\ args = [str_of_Z k] /\
          (f = lit "nth-child" /\ elements before = k - 1 \/ f = lit "nth-last-child" /\ elements after = k - 1)
      | SCombined s1 c s2 => css_at s2 z /\
          (c = lit " " /\ (exists l y, up = l ++ y /\ css_at s1 y)
           \/ c = lit ">" /\ css_at s1 up
           \/ c = lit "~" /\ (exists l j m, before = l ++ j :: m
                /\ css_at s1 (Spot l j (m ++ Tag i t a kids :: after) :: up))
           \/ c = lit "+" /\ (exists l j m, before = l ++ j :: m /\ elements m = 0
                /\ css_at s1 (Spot l j (m ++ Tag i t a kids :: after) :: up)))
      | SOther => False
      end
  | _ => False
  end.
(** The selectors covered (as for C05), over the elements of the document. *)
Fixpoint all_attributes (t : tree) : list attributes :=
  match t with Tag _ _ a kids => a :: flat_map all_attributes kids | Text _ _ => [] end.
Definition plain_space (x : str) : Prop := forall c, In c x -> is_space c = css_space c.
Definition testable (F : list tree) (k op v : str) : Prop :=
  In op [lit "exists"; lit "="; lit "~="; lit "|="; lit "^="; lit "$="; lit "*="]
  /\ (In op [lit "^="; lit "$="; lit "*="] -> v <> [])
  /\ forall a, In a (flat_map all_attributes F) ->
       match dlast k a with
       | None => True
       | Some None => op = lit "exists" \/ op = lit "=" /\ v <> []
       | Some (Some x) => (op = lit "~=" -> plain_space x)
                          /\ (k = lit "class" -> op = lit "exists" \/ op = lit "~=")
       end.
Fixpoint covered (F : list tree) (s : sel) : Prop :=
  match s with
  | SElement _ => True
  | SClass s1 _ => covered F s1
      /\ forall a x, In a (flat_map all_attributes F) -> attr "class" a = Some x -> plain_space x
  | SHash s1 _ => covered F s1
  | SNegation s1 s2 => covered F s1 /\ covered F s2
  | SAttrib s1 k op v => covered F s1 /\ testable F k op v
  | SPseudo s1 p => covered F s1 /\ (p = lit "first-child" \/ p = lit "last-child")
  | SFunction s1 f args => covered F s1 /\ (f = lit "nth-child" \/ f = lit "nth-last-child")
      /\ exists k, 1 <= k /\ args = [str_of_Z k]
  | SCombined s1 c s2 => covered F s1 /\ covered F s2 /\ In c [lit " "; lit ">"; lit "~"; lit "+"]
  | SOther => False
  end.

(** ** Every selector *)
Inductive verdict := Yes | No | Fails (e : exn).
(** What asking a selector comes to. *)
Definition outcome (v : verdict) : res bool := match v with Yes => Ok true | No => Ok false | Fails e => Err e end.
Definition says (P : Prop) (v : verdict) : Prop := P /\ v = Yes \/ ~ P /\ v = No.
(** [J] is asked only when [P] holds. *)
Definition provided (P : Prop) (J : verdict -> Prop) (v : verdict) : Prop := P /\ J v \/ ~ P /\ v = No.
(** [K] is asked only when [J] says yes. *)
Definition and_then (J K : verdict -> Prop) (v : verdict) : Prop := J Yes /\ K v \/ J v /\ v <> Yes.
(** The places are asked in turn until one does not say no. *)
Inductive first_of (J : site -> verdict -> Prop) : list site -> verdict -> Prop :=
| fo_none : first_of J [] No
| fo_here : forall z l v, J z v -> v <> No -> first_of J (z :: l) v
| fo_next : forall z l v, J z No -> first_of J l v -> first_of J (z :: l) v.
(** The places around, from the inside. *)
Fixpoint around (up : site) : list site := match up with [] => [] | _ :: r => up :: around r end.
(** The earlier siblings, from the first. *)
Definition earlier (before : list tree) (t : tree) (after : list tree) (up : site) : list site :=
  firstn (length before) (spots up [] (before ++ t :: after)).
(** A whole number as [int] reads it: white space around it, a sign. *)
Definition digits_to (ds : str) : Z := fold_left (fun n c => 10 * n + (Z.of_N c - 48)) ds 0.
Definition whole (x : str) (k : Z) : Prop :=
  exists l sign ds r, x = l ++ sign ++ ds ++ r /\ all_space l = true /\ all_space r = true
    /\ ds <> [] /\ Forall (fun c => 48 <= c <= 57)%N ds
    /\ (sign = [] /\ k = digits_to ds \/ sign = lit "+" /\ k = digits_to ds \/ sign = lit "-" /\ k = - digits_to ds).
(** The place, from 0, that [:nth-child(k)] or [:nth-last-child(k)] asks for
    among [total] elements; for k <= 0 it is counted from the other end. *)
Definition asked_place (f : str) (k total : Z) (p : Z) : Prop :=
  f = lit "nth-child" /\ p = (if 1 <=? k then k - 1 else total + k - 1)
  \/ f = lit "nth-last-child" /\ p = (if 1 <=? k then total - k else - k).
(** The value of an attribute as it is compared: class is its words. *)
Definition spaced (ws : list str) : str := match ws with [] => [] | w :: r => w ++ flat_map (fun x => 32%N :: x) r end.
Definition compared (k x y : str) : Prop :=
  k <> lit "class" /\ y = x \/ k = lit "class" /\ exists ws, words x ws /\ y = spaced ws.
Definition attr_holds (op x v : str) : Prop :=
  op = lit "=" /\ x = v
  \/ op = lit "~=" /\ (exists ws, words x ws /\ In v ws)
  \/ op = lit "|=" /\ (x = v \/ exists r, x = v ++ lit "-" ++ r)
  \/ op = lit "^=" /\ (exists r, x = v ++ r)
  \/ op = lit "$=" /\ (exists l, x = l ++ v)
  \/ op = lit "*=" /\ (exists l r, x = l ++ v ++ r).
Definition attr_verdict (k op v : str) (x : option str) (w : verdict) : Prop :=
  op = lit "exists" /\ w = Yes
  \/ op <> lit "exists" /\
     match x with
     | Some x => exists y, compared k x y /\ says (attr_holds op y v) w
     | None =>
         In op [lit "~="; lit "|="; lit "^="; lit "$="] /\ w = Fails EAttr
         \/ op = lit "*=" /\ w = Fails EType
         \/ ~ In op [lit "~="; lit "|="; lit "^="; lit "$="; lit "*="] /\ w = No
     end.
Fixpoint judged (s : sel) (z : site) (v : verdict) {struct s} : Prop :=
  match z with
  | Spot before (Tag i t a kids) after :: up =>
      match s with
      | SElement None => v = Yes
      | SElement (Some name) => says (t = name) v
      | SClass s1 c => provided (exists x ws, attr "class" a = Some x /\ words x ws /\ In c ws) (judged s1 z) v
      | SHash s1 x => provided (attr "id" a = Some x) (judged s1 z) v
      | SNegation s1 s2 => and_then (judged s1 z) (fun v => exists w, judged s2 z w
            /\ v = match w with Yes => No | No => Yes | Fails e => Fails e end) v
      | SAttrib s1 k op x => and_then (judged s1 z) (fun v =>
            match dlast k a with Some y => attr_verdict k op x y v | None => v = No end) v
      | SPseudo s1 p => provided (p = lit "first-child" /\ elements before = 0 \/ p = lit "last-child" /\ elements after = 0)
            (judged s1 z) v
      | SFunction s1 f args => provided (f = lit "nth-child" \/ f = lit "nth-last-child") (fun v =>
            match args with
            | [] => v = Fails EIndex
            | x :: _ =>
                (forall k, ~ whole x k) /\ v = Fails EValue
                \/ exists k, whole x k /\
                    let total := elements before + 1 + elements after in
                    (total < k /\ v = No
                     \/ k <= total /\ exists p, asked_place f k total p
                         /\ (0 <= p < total /\ provided (elements before = p) (judged s1 z) v
                             \/ ~ 0 <= p < total /\ v = Fails EIndex))
            end) v
      | SCombined s1 c s2 =>
          provided (In c [lit " "; lit ">"; lit "~"; lit "+"]) (and_then (judged s2 z) (fun v =>
             c = lit " " /\ first_of (judged s1) (around up) v
             \/ c = lit ">" /\ judged s1 up v
             \/ c = lit "~" /\ first_of (judged s1) (earlier before (Tag i t a kids) after up) v
             \/ c = lit "+" /\ (elements before = 0 /\ v = No
                  \/ exists l j m, before = l ++ j :: m /\ PageSpec.element j = true /\ elements m = 0
                       /\ judged s1 (Spot l j (m ++ Tag i t a kids :: after) :: up) v))) v
      | SOther => v = No
      end
  | _ => v = No
  end.
