(** Settings dictionaries as objects: which dictionaries the metaclass, the
    constructor and attribute access share, copy and update
    (rendering.py:262-341).  [Renderers.class_settings] and [adjust] model the
    same code with dictionary values. *)
From Verif Require Export BoxHeap Renderers.

(** Dictionary objects by address; a class is the address of its [settings]; an
    instance is the address of its [settings] and whether that object is a
    namedict. *)
Record world := World {
  w_dicts : list settings;
  w_classes : list nat;
  w_insts : list (nat * bool) }.
Definition world0 : world := World [] [] [].
Definition dict_at (l : list settings) (a : nat) : settings := nth a l [].

(** The metaclass, rendering.py:269-281: no [settings] in the class body gives a
    fresh namedict; a plain dict is copied into one; a namedict is kept.  The
    dictionary itself is the literal [body]; [named] says it is a namedict.
    Either way the class gets a dictionary of its own with that content. *)
Definition define_class (body : option (settings * bool)) (w : world) : world :=
  match body with
  | None => World (w_dicts w ++ [[]]) (w_classes w ++ [length (w_dicts w)]) (w_insts w)
  | Some (s, true) => World (w_dicts w ++ [s]) (w_classes w ++ [length (w_dicts w)]) (w_insts w)
  | Some (s, false) => World (w_dicts w ++ [s; dupdate [] s]) (w_classes w ++ [S (length (w_dicts w))]) (w_insts w)
  end.

(** [d.update(e)] on the object at [a]. *)
Definition update_at (l : list settings) (a : nat) (e : settings) : list settings :=
  set_nth l a (dupdate (dict_at l a) e).

(** The loop collecting [all_bases], rendering.py:303-307: references to the
    classes' own dictionaries, compared with [==]. *)
Fixpoint base_refs (l : list settings) (acc : list nat) (rmro : list nat) : list nat :=
  match rmro with
  | [] => acc
  | a :: r => base_refs l (if existsb (fun b => settings_eqb (dict_at l a) (dict_at l b)) acc then acc else acc ++ [a]) r
  end.
(** [Renderer.__new__] and [_adjust_settings], rendering.py:296-320, 333-341:
    [mro] lists class numbers; [local] is the address of the [settings] of the
    context. *)
Definition class_dict (w : world) (c : nat) : nat := nth c (w_classes w) 0%nat.
Definition new_instance (mro : list nat) (local : option nat) (w : world) : world :=
  let a := length (w_dicts w) in
  let refs := base_refs (w_dicts w) [] (map (class_dict w) (rev mro)) in
  let l := fold_left (fun l b => update_at l a (dict_at l b)) refs (w_dicts w ++ [[]]) in
  let l := match local with Some b => update_at l a (dict_at l b) | None => l end in
  World l (w_classes w) (w_insts w ++ [(a, true)]).

(** [__getattribute__('settings')], rendering.py:322-331: an attribute that is
    not a namedict is copied into a new one on every access. *)
Definition get_settings (i : nat) (w : world) : option (world * nat) :=
  match nth_error (w_insts w) i with
  | Some (a, true) => Some (w, a)
  | Some (a, false) => Some (World (w_dicts w ++ [dupdate [] (dict_at (w_dicts w) a)]) (w_classes w) (w_insts w), length (w_dicts w))
  | None => None
  end.
(** [inst.settings[k] = v] *)
Definition write_setting (i : nat) (k : str) (v : val) (w : world) : world :=
  match get_settings i w with
  | Some (w', a) => World (set_nth (w_dicts w') a (dset k v (dict_at (w_dicts w') a))) (w_classes w') (w_insts w')
  | None => w
  end.
(** [inst.settings = {...}] with a dictionary made on the spot. *)
Definition assign_settings (i : nat) (s : settings) (named : bool) (w : world) : world :=
  match nth_error (w_insts w) i with
  | Some _ => World (w_dicts w ++ [s]) (w_classes w) (set_nth (w_insts w) i (length (w_dicts w), named))
  | None => w
  end.

Inductive sop :=
| SDefine (body : option (settings * bool))
| SNew (mro : list nat) (local : option nat)
| SWrite (i : nat) (k : str) (v : val)
| SAssign (i : nat) (s : settings) (named : bool).
Definition sstep (w : world) (o : sop) : world :=
  match o with
  | SDefine b => define_class b w
  | SNew m l => new_instance m l w
  | SWrite i k v => write_setting i k v w
  | SAssign i s n => assign_settings i s n w
  end.
Definition srun (ops : list sop) : world := fold_left sstep ops world0.
(** [C.settings] and [r.settings] as read. *)
Definition class_view (w : world) (c : nat) : option settings :=
  option_map (dict_at (w_dicts w)) (nth_error (w_classes w) c).
Definition inst_view (w : world) (i : nat) : option settings :=
  match get_settings i w with Some (w', a) => Some (dict_at (w_dicts w') a) | None => None end.
