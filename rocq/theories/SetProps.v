(** C81: how a text is set in columns, or why it is not; C23: when the layout never
    comes to an end. *)
From Verif Require Import BaseFacts StrFacts WrapFacts SetFacts SetHang Fixture.
From Verif Require Export SetSpec.
Open Scope Z_scope.

Section Set_.
Context `{U : Uni}.
(** C81: exactly what a text looks like, and exactly what is raised instead. *)
Theorem C81_set : forall cfg w text j out, justify j cfg w text = Ok out <-> set_text cfg w text j out.
Proof. intros. apply justify_set. Qed.
Theorem C81_unset : forall cfg w text j ex, justify j cfg w text = Err ex <-> unset cfg w text j ex.
Proof. intros. apply justify_unset. Qed.
(** One outcome, whatever the settings and the text. *)
Theorem C81_one : forall cfg w text j a b, set_text cfg w text j a -> set_text cfg w text j b -> a = b.
Proof. intros cfg w text j a b A B. apply justify_set in A, B. congruence. Qed.
Theorem C81_or : forall cfg w text j, (exists out, set_text cfg w text j out) \/ exists ex, unset cfg w text j ex.
Proof.
  intros cfg w text j. destruct (justify j cfg w text) as [out|ex] eqn:E; [left; exists out; now apply justify_set|right; exists ex; now apply justify_unset].
Qed.
Theorem C81_not_both : forall cfg w text j out ex, set_text cfg w text j out -> ~ unset cfg w text j ex.
Proof. intros cfg w text j out ex A B. apply justify_set in A. apply justify_unset in B. congruence. Qed.
(** C23: the layout of a text never comes to an end exactly when the text is
    [caught]; in particular never when lines have room for their indents. *)
Theorem C23_endless : forall cfg text,
  endless cfg text <-> 0 < w_width cfg /\ room_for_limit cfg /\ exists qs, text_pieces cfg text qs /\ caught cfg qs.
Proof. intros. apply endless_iff. Qed.
(** Exactly one of: lines, ValueError, no return. *)
Theorem C23_outcome : forall cfg text,
  (wrap cfg text = Err EValue <-> refused cfg)
  /\ (wrap cfg text = Err EFuel <-> ~ refused cfg /\ exists qs, text_pieces cfg text qs /\ caught cfg qs)
  /\ ((exists lines, wrap cfg text = Ok lines) <-> ~ refused cfg /\ forall qs, text_pieces cfg text qs -> ~ caught cfg qs)
  /\ (forall e, wrap cfg text = Err e -> e = EValue \/ e = EFuel).
Proof.
  intros cfg text. pose proof (wrap_fails cfg text) as WF. pose proof (wrap_hangs cfg text) as WH.
  assert (A : wrap cfg text = Err EValue <-> refused cfg).
  { rewrite WF. split; [intros [[_ R]|[C _]]; [exact R|discriminate]|auto]. }
  split; [exact A|]. split; [exact WH|]. split.
  - destruct (wrap cfg text) as [lines|e] eqn:W.
    + split; [|eauto]. intros _. split; [intros C; apply A in C; discriminate|]. intros qs P C. assert (X : Ok lines = Err EFuel); [|discriminate].
      apply WH. split; [intros R; apply A in R; discriminate|eauto].
    + split; [intros (l & C); discriminate|]. intros (R & N). exfalso. destruct (proj1 (WF e) eq_refl) as [[-> C]|[-> _]]; [contradiction|].
      destruct (proj1 WH eq_refl) as (_ & qs & P & C). exact (N qs P C).
  - intros e E. apply WF in E as [[-> _]|[-> _]]; auto.
Qed.
End Set_.
Print Assumptions C81_set.
Print Assumptions C81_unset.
Print Assumptions C81_one.
Print Assumptions C81_or.
Print Assumptions C81_not_both.
Print Assumptions C23_endless.
Print Assumptions C23_outcome.

(** ** Cases *)
Local Existing Instance U0.
Definition some_cfg : wcfg := Wcfg 0 (lit "  ") (lit "- ") true true true true true true true 8 None (lit " [...]").
Definition some_text : str := lit "Mr. X came.  He went away again. The end of it all".
Ltac set_case := apply justify_set; vm_compute; reflexivity.
Ltac unset_case := apply justify_unset; vm_compute; reflexivity.
Example set_full_case : set_text some_cfg 16 some_text (lit "full")
  (join [10%N] (map lit ["  Mr.    X came."; "-  He  went away"; "-  again.    The"; "- end of it all"]%string)).
Proof. set_case. Qed.
Example set_center_case : set_text some_cfg 17 (lit "in the middle of the line") (lit "center")
  (join [10%N] (map lit ["   in the middle "; "  - of the line  "]%string)).
Proof. set_case. Qed.
Example set_right_case : set_text some_cfg 17 (lit "in the middle of the line") (lit "right")
  (join [10%N] (map lit ["    in the middle"; "    - of the line"]%string)).
Proof. set_case. Qed.
Example unset_name_case : unset some_cfg 17 some_text (lit "justify") EKey.
Proof. unset_case. Qed.
Example unset_refused_case : unset some_cfg 0 some_text (lit "left") EValue.
Proof. unset_case. Qed.
Example unset_endless_case : unset some_cfg 1 (lit " a") (lit "left") EFuel.
Proof. unset_case. Qed.
(** Not caught: the first indent is too wide, but the text does not start with a
    blank; caught: the same text with a blank in front; caught: nothing is dropped
    and the later indent is too wide. *)
Example returns_case : exists lines, wrap (widened_to some_cfg 1) (lit "a b") = Ok lines.
Proof. eexists. vm_compute. reflexivity. Qed.
Definition keeps_cfg (w : Z) : wcfg := Wcfg w [] (lit "> > ") true true false true false true true 8 None [].
Example caught_case : wrap (keeps_cfg 3) (lit "ab cd") = Err EFuel /\ wrap (keeps_cfg 3) (lit "ab ") = Ok [lit "ab "].
Proof. split; vm_compute; reflexivity. Qed.
Close Scope Z_scope.
