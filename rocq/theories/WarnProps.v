(** C78: end tags that close nothing are reported, nothing else is printed. *)
From Verif Require Import WrapFacts WrapLoop WrapWidth.
From Verif Require Import BaseFacts StrFacts SelFacts TreeFacts HistoryFacts DomFacts LineFacts BoxFacts TokFacts CrashFacts.
From Verif Require Import PageSpec PageRead SourceMain MarkupSpec MarkupFacts MarkupMain MarkupProps WarnFacts Fixture.
Section P.
Context `{U : Uni}.
(** C78: over every history of calls, exceptions caught. *)
Theorem C78_history : forall g h s es, run_x g h pstate0 = (s, es) -> run_says g h pstate0 = reported (combine h es).
Proof. intros g h s es H. exact (run_reported g h pstate0 z0 s es Inv0 H). Qed.
(** C78: at any moment an end tag is reported exactly when it is not br or img and
    the innermost open element is another one or there is none. *)
Theorem C78_stray : forall g h s t, run g h pstate0 = Ok s ->
  (step_says (OEnd t) s = [lit "Unsupported or mismatched end tag, ignoring: " ++ t] /\ void t = false /\ (forall r, open_after h <> t :: r))
  \/ (step_says (OEnd t) s = [] /\ (void t = true \/ exists r, open_after h = t :: r)).
Proof.
  intros g h s t H. rewrite (says_step _ _ _ (reach _ _ _ H)). rewrite open_after_z. generalize (map f_tag (z_open (zrun h z0))). intros l. cbn [reports].
  destruct (void t); [right; auto|]. destruct l as [|x l]; [left; repeat split; discriminate|]. destruct (seqb_spec x t) as [->|NE]; [right; split; eauto|left]. repeat split. intros r E. congruence.
Qed.
(** C78: every other call is silent. *)
Theorem C78_silent : forall o s, (forall t, o <> OEnd t) -> step_says o s = [].
Proof. intros o s H. destruct o; try reflexivity. now elim (H t). Qed.
(** C78: a whole source text: the end tags among the calls that its reading makes
    (C74), up to the first start tag that raises. *)
Theorem C78_text : forall o g src evs fail, construct o = Ok g -> source src evs fail ->
  exists done, stops g evs done /\ text_says o src = remarks done.
Proof. exact text_reported. Qed.
(** C78: a document in which every element is closed prints nothing. *)
Theorem C78_document : forall doc, remarks (flat_map events doc) = [].
Proof. intros doc. exact (proj1 (document_quiet doc [])). Qed.
End P.
Local Existing Instance U0.
Definition stray_ops : list op := [OStart (lit "p") []; OEnd (lit "br"); OEnd (lit "b"); OStart (lit "i") [(lit "class", None)]; OEnd (lit "p"); OEnd (lit "i"); OClose; OEnd (lit "p")].
Definition said (t : string) : str := lit "Unsupported or mismatched end tag, ignoring: " ++ lit t.
Example stray_history : run_says g0 stray_ops pstate0 = [said "b"; said "i"; said "p"]
  /\ snd (run_x g0 stray_ops pstate0) = [None; None; None; Some EAttr; None; None; None; None].
Proof. split; vm_compute; reflexivity. Qed.
Example stray_text : exists g, construct default_options = Ok g /\ source (lit "<p>x</b></p></p>") [OStart (lit "p") []; OData (lit "x"); OEnd (lit "b"); OEnd (lit "p"); OEnd (lit "p")] None
  /\ text_says default_options (lit "<p>x</b></p></p>") = [said "b"; said "p"].
Proof.
  eexists. split; [reflexivity|]. split; [|vm_compute; reflexivity]. apply (so_read _ [OStart (lit "p") []; OData (lit "x"); OEnd (lit "b"); OEnd (lit "p"); OEnd (lit "p")] None [] [] None []); read_it.
Qed.
Print Assumptions C78_history.
Print Assumptions C78_stray.
Print Assumptions C78_silent.
Print Assumptions C78_text.
Print Assumptions C78_document.
