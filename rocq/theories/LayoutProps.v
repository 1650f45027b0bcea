(** C71: the wrapper, as a whole. *)
From Verif Require Import LayoutSpec LayoutFacts LayoutLines Fixture.
Open Scope Z_scope.

Section LayoutP.
Context `{U : Uni}.

(** The wrapper answers with the lines of the layout of its text, and with
    nothing else. *)
Theorem C71_layout : forall cfg text lines, wrap cfg text = Ok lines <-> layout cfg text lines.
Proof. exact wrap_layout. Qed.
(** A text has at most one layout. *)
Theorem C71_one_layout : forall cfg text a b, layout cfg text a -> layout cfg text b -> a = b.
Proof. intros cfg text a b A B. apply C71_layout in A, B. congruence. Qed.
(** The pieces of a text are determined by where it may be broken. *)
Theorem C71_pieces : forall cfg s ps,
  split_chunks cfg s = ps <-> cut_at (if w_boh_true cfg then hyphen_place else space_break) s ps.
Proof. intros cfg s ps. pose proof (pieces_cut cfg s ps) as P. unfold place in P. split; intros H; [apply P; now symmetry|symmetry; now apply P]. Qed.
(** Laying out a text leaves its first lines as they are: a layout is built line
    by line, each from what the lines before it left. *)
Theorem C71_line : forall cfg done ps on rest on' rest', a_line cfg done ps on rest -> a_line cfg done ps on' rest' -> on = on' /\ rest = rest'.
Proof. exact a_line_one. Qed.
End LayoutP.

Local Existing Instance U0.

(** A width of 12 and all the rest as it is by default, with hyphens. *)
Definition narrow : wcfg := wcfg_default 12.
Example narrow_layout : layout narrow (lit "a well-known trick--it works. So on")
  [lit "a well-known"; lit "trick--it"; lit "works. So on"].
Proof. apply C71_layout. vm_compute. reflexivity. Qed.
Example narrow_dash : layout narrow (lit "one trick--itself")
  [lit "one trick--"; lit "itself"].
Proof. apply C71_layout. vm_compute. reflexivity. Qed.
Example narrow_hyphen : layout narrow (lit "hereby well-known x-ray 10-20")
  [lit "hereby well-"; lit "known x-ray"; lit "10-20"].
Proof. apply C71_layout. vm_compute. reflexivity. Qed.
Example narrow_overlong : layout narrow (lit "a abcdefghijklmnopqrstuvwxyz b")
  [lit "a abcdefghij"; lit "klmnopqrstuv"; lit "wxyz b"].
Proof. apply C71_layout. vm_compute. reflexivity. Qed.
(** The space after a sentence, indents, and a limit of two lines. *)
Definition fussy : wcfg := Wcfg 18 (lit "* ") (lit "  ") true true true true true true true 8 (Some 2) (lit " [...]").
Example fussy_layout : layout fussy (lit "It ends. Oh! so it does go on and on and on")
  [lit "* It ends.  Oh!"; lit "  so it does [...]"].
Proof. apply C71_layout. vm_compute. reflexivity. Qed.
Example fussy_quote : layout fussy (lit "It `is.' Oh A. B")
  [lit "* It `is.'  Oh A."; lit "  B"].
Proof. apply C71_layout. vm_compute. reflexivity. Qed.
Close Scope Z_scope.

Print Assumptions C71_layout.
Print Assumptions C71_one_layout.
Print Assumptions C71_pieces.
Print Assumptions C71_line.
