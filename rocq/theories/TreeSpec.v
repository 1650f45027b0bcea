(** Specification vocabulary for the document tree: what a document is, what an
    event history denotes.  Nothing here refers to the model's state. *)
From Verif Require Export Parser BaseFacts StrFacts.

(** Attributes as written in the source; a repeated name counts with its last
    value, [None] is a name without a value. *)
Definition attributes := list (str * option str).
Definition attr (k : string) (a : attributes) : option str :=
  match dlast (lit k) a with Some v => v | None => None end.

(** ** Rose trees with the order number of the event that created each node *)
Inductive tree :=
| Tag (id : nat) (t : str) (a : attributes) (kids : list tree)
| Text (id : nat) (s : str).

Definition tid (t : tree) : nat := match t with Tag i _ _ _ => i | Text i _ => i end.
Fixpoint preorder (t : tree) : list nat :=
  match t with
  | Tag i _ _ kids => i :: flat_map preorder kids
  | Text i _ => [i]
  end.

(** The node carries exactly the attributes [a]; class is kept as its list of
    words. *)
Definition carries (n : node) (a : attributes) : Prop :=
  (forall k, k <> lit "class" ->
     dget k (n_attrs n) =
     match dlast k a with
     | None => None | Some None => Some AvNone | Some (Some s) => Some (AvStr s)
     end)
  /\ dget (lit "class") (n_attrs n) =
     match dlast (lit "class") a with
     | Some (Some s) => Some (AvList (split_ws s)) | Some None => Some AvNone | None => None
     end
  /\ n_classes n = (match attr "class" a with Some s => split_ws s | None => [] end)
  /\ n_id n = attr "id" a.

(** a and img elements know their target and title. *)
Definition link_data (n : node) (t : str) (a : attributes) : Prop :=
  if seqb t (lit "a") then
    exists lk, n_link n = Some lk /\ lk_href lk = attr "href" a /\ lk_title lk = attr "title" a
  else if seqb t (lit "img") then
    exists lk, n_link n = Some lk /\ lk_href lk = attr "src" a /\ lk_title lk = attr "alt" a
  else n_link n = None.

(** [stores d p t]: the arena holds tree [t] under parent [p]. *)
Fixpoint stores (d : dom) (p : pref) (t : tree) : Prop :=
  match t with
  | Tag i tg a kids =>
      (exists n, node_at d i = Some n /\ n_tag n = Some tg /\ n_data n = None
                 /\ n_parent n = p /\ n_children n = map tid kids
                 /\ carries n a /\ link_data n tg a)
      /\ (fix all (l : list tree) : Prop :=
            match l with [] => True | k :: r => stores d (PNode i) k /\ all r end) kids
  | Text i s =>
      exists n, node_at d i = Some n /\ n_tag n = None /\ n_data n = Some s
                /\ n_parent n = (match p with PRoot => PNone | _ => p end)
                /\ n_children n = []
  end.

(** The whole document is the forest [F]. *)
Definition document (d : dom) (F : list tree) : Prop :=
  d_root d = map tid F /\ Forall (stores d PRoot) F.

(** ** Event histories *)

(** br and img have no content. *)
Definition void (t : str) : bool := seqb t (lit "br") || seqb t (lit "img").

(** The tags (innermost first) still open after a history. *)
Definition open_step (o : op) (l : list str) : list str :=
  match o with
  | OStart t _ => if void t then l else t :: l
  | OEnd t => match l with
              | x :: r => if void t then l else if seqb x t then r else l
              | [] => []
              end
  | OData _ => l
  | OClose | OReset => []
  end.
Definition open_after (h : list op) : list str := fold_left (fun l o => open_step o l) h [].

(** The start tags and texts fed since the last reset, in order. *)
Inductive item := ITag (t : str) (a : attributes) | IText (s : str).
Definition item_step (o : op) (l : list item) : list item :=
  match o with
  | OStart t a => l ++ [ITag t a]
  | OData s => l ++ [IText s]
  | OReset => []
  | _ => l
  end.
Definition items (h : list op) : list item := fold_left (fun l o => item_step o l) h [].

Fixpoint tree_items (t : tree) : list item :=
  match t with
  | Tag _ tg a kids => ITag tg a :: flat_map tree_items kids
  | Text _ s => [IText s]
  end.

(** Same item, up to the treatment of whitespace in text. *)
Definition same_item (fed stored : item) : Prop :=
  match fed, stored with
  | ITag t a, ITag t' a' => t = t' /\ a = a'
  | IText s, IText s' => nonspace s' = nonspace s
  | _, _ => False
  end.

(** ** Well-formed documents *)
Inductive html :=
| HTag (t : str) (attrs : attributes) (kids : list html)
| HText (s : str).

(** The events of a document: every element closed, except br and img. *)
Fixpoint events (h : html) : list op :=
  match h with
  | HTag t a kids =>
      OStart t a :: flat_map events kids ++ (if void t then [] else [OEnd t])
  | HText s => [OData s]
  end.

(** Void elements have no content; no pre inside a pre. *)
Fixpoint wf_html (inpre : bool) (h : html) : Prop :=
  match h with
  | HTag t _ kids =>
      (void t = true -> kids = [])
      /\ (seqb t (lit "pre") = true -> inpre = false)
      /\ (fix all (l : list html) : Prop :=
            match l with
            | [] => True
            | k :: r => wf_html (inpre || seqb t (lit "pre")) k /\ all r
            end) kids
  | HText _ => True
  end.

(** [denotes inpre h t]: tree [t] is document [h]; text is verbatim inside pre and
    normalised outside. *)
Inductive denotes : bool -> html -> tree -> Prop :=
| denotes_tag : forall inpre i t a kids kids',
    Forall2 (denotes (inpre || seqb t (lit "pre"))) kids kids' ->
    denotes inpre (HTag t a kids) (Tag i t a kids')
| denotes_text : forall inpre i s,
    denotes inpre (HText s) (Text i (if inpre then s else normalise s)).

(** Whether the last pre tag of a history was a start tag. *)
Definition pre_step (o : op) (b : bool) : bool :=
  match o with
  | OStart t _ => if seqb t (lit "pre") then true else b
  | OEnd t => if seqb t (lit "pre") then false else b
  | _ => b
  end.
Definition inside_pre (h : list op) : bool := fold_left (fun b o => pre_step o b) h false.

(** The elements open after a history, innermost first, each with the order
    number of its start tag among the start tags and texts. *)
Definition opens_step (o : op) (p : nat * list (nat * str)) : nat * list (nat * str) :=
  let '(n, l) := p in
  match o with
  | OStart t _ => (S n, if void t then l else (n, t) :: l)
  | OEnd t => (n, match l with
                  | (i, x) :: r => if void t then l else if seqb x t then r else l
                  | [] => []
                  end)
  | OData _ => (S n, l)
  | OClose => (n, [])
  | OReset => (0, [])
  end.
Definition opens (h : list op) : list (nat * str) :=
  snd (fold_left (fun p o => opens_step o p) h (0, [])).

(** A link or image that gets a reference number. *)
Definition placement (g : cfg) (t : str) : str :=
  if seqb t (lit "img") then g_image g else g_link g.
Definition numbered (g : cfg) (t : str) : bool :=
  (seqb t (lit "a") || seqb t (lit "img")) && negb (seqb (placement g t) (lit "inline")).
(** How many of them were fed. *)
Definition count_numbered (g : cfg) (l : list item) : nat :=
  length (filter (fun x => match x with ITag t _ => numbered g t | IText _ => false end) l).
(** The numbers stored in the tree, in document order. *)
Definition reference_of (g : cfg) (n : node) : list Z :=
  match n_tag n, n_link n with
  | Some t, Some lk => if numbered g t then [lc_reference (lk_ctx lk)] else []
  | _, _ => []
  end.
Definition references (g : cfg) (d : dom) : list Z := flat_map (reference_of g) (d_nodes d).
