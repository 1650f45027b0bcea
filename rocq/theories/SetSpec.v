(** Specification vocabulary: how a text is set in a number of columns, and when
    it cannot be. *)
From Verif Require Export LayoutSpec JustSpec.
Open Scope Z_scope.

Section Set_.
Context `{U : Uni}.

(** ** Lines *)
(** Gaps of [n] places that add up to [sum]: as even as can be, the wider ones
    first.  (When a line is too long already, gaps may be none, or less.) *)
Definition even_widths (n : nat) (sum : Z) (gs : list Z) : Prop :=
  length gs = n /\ fold_right Z.add 0 gs = sum
  /\ exists k a b, gs = repeat (k + 1) a ++ repeat k b.
(** [spread_to w l l']: the line [l] made [w] columns wide by its gaps.  A single
    space is a gap; the spaces at its end go, those before it stay. *)
Inductive spread_to (w : Z) (l : str) : str -> Prop :=
| st_fits : len l = w -> spread_to w l l
| st_one : ~ In 32%N (strip l) -> spread_to w l l
| st_gaps : forall ws n gs, len l <> w -> strip l = join (lit " ") ws -> Forall (fun x : str => ~ In 32%N x) ws ->
    length ws = S (S n) -> even_widths (S n) (Z.of_nat (S n) + (w - len l)) gs ->
    spread_to w l (spaces (len l - len (lstrip l)) ++ interleave ws gs).
(** In the middle of [w] columns; text that is too long stays as it is.  When
    the spaces cannot be halved, the odd one is on the left in an odd number of
    columns and on the right in an even number. *)
Definition centred (w : Z) (x out : str) : Prop :=
  (w <= len x /\ out = x)
  \/ exists a b, out = spaces a ++ x ++ spaces b /\ 0 <= a /\ 0 <= b /\ a + b = w - len x
       /\ (a = b \/ if Z.odd w then a = b + 1 else b = a + 1).
(** At the right of [w] columns. *)
Definition at_right (w : Z) (x out : str) : Prop := out = spaces (w - len x) ++ x.

(** ** Texts *)
(** The wrapper [cfg] for [w] columns. *)
Definition widened_to (cfg : wcfg) (w : Z) : wcfg :=
  Wcfg w (w_init cfg) (w_subs cfg) (w_expand cfg) (w_replace cfg) (w_fixse cfg) (w_blw cfg) (w_drop cfg)
    (w_boh_true cfg) (w_boh cfg) (w_tabsize cfg) (w_max_lines cfg) (w_placeholder cfg).
(** [in_columns cfg w text lines]: the lines of the text, laid out as the wrapper
    [cfg] does it, in [w] columns. *)
Definition in_columns (cfg : wcfg) (w : Z) (text : str) (lines : list str) : Prop :=
  layout (widened_to cfg w) text lines.
Inductive set_text (cfg : wcfg) (w : Z) (text : str) : str -> str -> Prop :=
| set_none : set_text cfg w text (lit "none") text
| set_left : forall ls, in_columns cfg w text ls -> set_text cfg w text (lit "left") (join [10%N] ls)
| set_right : forall ls ls', in_columns cfg w text ls -> Forall2 (at_right w) ls ls' ->
    set_text cfg w text (lit "right") (join [10%N] ls')
| set_center : forall ls ls', in_columns cfg w text ls -> Forall2 (centred w) ls ls' ->
    set_text cfg w text (lit "center") (join [10%N] ls')
| set_full : forall ls ls', in_columns cfg w text ls -> all_but_last (spread_to w) ls ls' ->
    set_text cfg w text (lit "full") (join [10%N] ls').

(** ** When there is no layout *)
(** [goes_on cfg n done ps]: after the lines [done], with the pieces [ps] left,
    [n] further turns do not bring the text to its end. *)
Inductive goes_on (cfg : wcfg) : nat -> list str -> list str -> Prop :=
| go_here : forall done ps, ps <> [] -> goes_on cfg 0 done ps
| go_nothing : forall n done ps rest, ps <> [] -> a_line cfg done ps [] rest -> goes_on cfg n done rest -> goes_on cfg (S n) done ps
| go_line : forall n done ps on rest, ps <> [] -> a_line cfg done ps on rest -> on <> [] -> within_limit cfg done on rest ->
    goes_on cfg n (done ++ [indent cfg done ++ concat on]) rest -> goes_on cfg (S n) done ps.
(** The pieces of a text. *)
Definition text_pieces (cfg : wcfg) (text : str) (qs : list str) : Prop :=
  exists t ps,
    (if w_expand cfg then tabs_out (w_tabsize cfg) 0 text t else t = text)
    /\ cut_at (if w_boh_true cfg then hyphen_place else space_break) (if w_replace cfg then map blanked t else t) ps
    /\ (if w_fixse cfg then spaced [] ps qs else qs = ps).
(** The layout of the text never comes to an end. *)
Definition endless (cfg : wcfg) (text : str) : Prop :=
  0 < w_width cfg /\ room_for_limit cfg
  /\ exists qs, text_pieces cfg text qs /\ forall n, goes_on cfg n [] qs.
(** When that is: words are broken, and either blank pieces are dropped, the first
    indent is wider than the line and the first piece is blank; or nothing is
    dropped, the indent of the later lines is wider than the line, no limit is set
    and the text does not fit on the first line. *)
Definition caught (cfg : wcfg) (ps : list str) : Prop :=
  w_blw cfg = true
  /\ ((w_drop cfg = true /\ len (w_init cfg) > w_width cfg /\ exists p r, ps = p :: r /\ blank_piece p)
      \/ (w_drop cfg = false /\ len (w_subs cfg) > w_width cfg /\ w_max_lines cfg = None
          /\ ps <> [] /\ len (w_init cfg) + columns ps > w_width cfg)).
(** The wrapper refuses: no columns, or none for the mark of a shortened text. *)
Definition refused (cfg : wcfg) : Prop := w_width cfg <= 0 \/ ~ room_for_limit cfg.
(** [unset cfg w text j ex]: why the text is not set.  [EFuel] stands for a call
    that does not return. *)
Inductive unset (cfg : wcfg) (w : Z) (text : str) (j : str) : exn -> Prop :=
| un_name : ~ In j (map lit ["none"; "full"; "center"; "left"; "right"]%string) -> unset cfg w text j EKey
| un_refused : In j (map lit ["full"; "center"; "left"; "right"]%string) -> refused (widened_to cfg w) -> unset cfg w text j EValue
| un_endless : In j (map lit ["full"; "center"; "left"; "right"]%string) -> endless (widened_to cfg w) text -> unset cfg w text j EFuel.
End Set_.
Close Scope Z_scope.
