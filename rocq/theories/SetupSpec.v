(** The setup of a parser (C77): which rules it has, and how the selectors of the
    tables are written. *)
From Verif Require Export Parser.
Open Scope N_scope.

(** ** A caller's table over the stock one: an entry for the same selector text
    takes the place of the stock entry, the others stay, new ones come after. *)
Definition names {A} (t : dict A) : list str := map fst t.
Inductive replaced {A} (own : dict A) : dict A -> dict A -> Prop :=
| rp_end : replaced own [] []
| rp_own : forall k v w t t', In (k, w) own -> replaced own t t' -> replaced own ((k, v) :: t) ((k, w) :: t')
| rp_stock : forall k v t t', ~ In k (names own) -> replaced own t t' -> replaced own ((k, v) :: t) ((k, v) :: t').
Inductive fresh {A} (stock : dict A) : dict A -> dict A -> Prop :=
| fr_end : fresh stock [] []
| fr_new : forall k v t t', ~ In k (names stock) -> fresh stock t t' -> fresh stock ((k, v) :: t) ((k, v) :: t')
| fr_old : forall k v t t', In k (names stock) -> fresh stock t t' -> fresh stock ((k, v) :: t) t'.
Definition overlay {A} (stock own all : dict A) : Prop :=
  exists olds news, replaced own stock olds /\ fresh stock own news /\ all = olds ++ news.
(** Everything but the entry without a selector. *)
Inductive selecting {A} : dict A -> dict A -> Prop :=
| se_end : selecting [] []
| se_rule : forall k v t t', k <> [] -> selecting t t' -> selecting ((k, v) :: t) ((k, v) :: t')
| se_default : forall v t t', selecting t t' -> selecting (([], v) :: t) t'.

(** ** CSS text of a selector *)
Definition css_letter (c : N) : Prop := 97 <= c <= 122 \/ 65 <= c <= 90 \/ 48 <= c <= 57 \/ c = 45 \/ c = 95.
Definition css_word (w : str) : Prop := w <> [] /\ Forall css_letter w.
Definition css_blank (w : str) : Prop := Forall (fun c => c = 32) w.
(** One compound: an element or *, which may be left out before anything else,
    then classes, ids and pseudo-classes. *)
Inductive compound : str -> sel -> Prop :=
| cm_name : forall w, css_word w -> compound w (SElement (Some w))
| cm_any : compound (lit "*") (SElement None)
| cm_left_out : compound [] (SElement None)
| cm_class : forall t s w, compound t s -> css_word w -> compound (t ++ lit "." ++ w) (SClass s w)
| cm_id : forall t s w, compound t s -> css_word w -> compound (t ++ lit "#" ++ w) (SHash s w)
| cm_pseudo : forall t s w, compound t s -> css_word w -> compound (t ++ lit ":" ++ w) (SPseudo s w).
Inductive css : str -> sel -> Prop :=
| cs_one : forall t s, t <> [] -> compound t s -> css t s
| cs_inside : forall t s u v b, css t s -> b <> [] -> css_blank b -> u <> [] -> compound u v -> css (t ++ b ++ u) (SCombined s (lit " ") v)
| cs_other : forall t s u v b b' c, css t s -> css_blank b -> css_blank b' -> In c [62; 43; 126] -> u <> [] -> compound u v ->
    css (t ++ b ++ [c] ++ b' ++ u) (SCombined s [c] v).
(** A list of selectors; no pseudo-elements. *)
Inductive css_list : str -> list selector -> Prop :=
| cl_one : forall t s, css t s -> css_list t [Selector s false]
| cl_more : forall t s u l b, css t s -> css_blank b -> css_list u l -> css_list (t ++ lit "," ++ b ++ u) (Selector s false :: l).
Close Scope N_scope.
