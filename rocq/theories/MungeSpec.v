(** Specification vocabulary: white space before wrapping. *)
From Verif Require Export Textwrap.
Open Scope Z_scope.

(** [tabs_out t col s out]: [out] is [s], written from column [col] on, with each
    tab replaced by the spaces up to the next multiple of [t]; lines end at CR
    and LF.  Without a positive [t] tabs are dropped. *)
Inductive tabs_out (t : Z) : Z -> str -> str -> Prop :=
| to_nil : forall col, tabs_out t col [] []
| to_tab : forall col k r out, 1 <= k <= t -> (t | col + k) ->
    tabs_out t (col + k) r out -> tabs_out t col (9%N :: r) (spaces k ++ out)
| to_drop : forall col r out, t <= 0 -> tabs_out t col r out -> tabs_out t col (9%N :: r) out
| to_line : forall col c r out, c = 10%N \/ c = 13%N -> tabs_out t 0 r out -> tabs_out t col (c :: r) (c :: out)
| to_char : forall col c r out, ~ In c [9; 10; 13]%N -> tabs_out t (col + 1) r out -> tabs_out t col (c :: r) (c :: out).
(** White space within ASCII becomes a space. *)
Definition blanked (c : N) : N := if existsb (N.eqb c) [9; 10; 11; 12; 13]%N then 32%N else c.
(** The settings without the two changes of white space. *)
Definition as_it_is (cfg : wcfg) : wcfg :=
  Wcfg (w_width cfg) (w_init cfg) (w_subs cfg) false false (w_fixse cfg) (w_blw cfg) (w_drop cfg)
    (w_boh_true cfg) (w_boh cfg) (w_tabsize cfg) (w_max_lines cfg) (w_placeholder cfg).
Close Scope Z_scope.
