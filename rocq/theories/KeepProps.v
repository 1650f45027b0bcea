(** C49: no text is lost. *)
From Verif Require Import WrapFacts WrapLoop WrapWidth WrapProps.
From Verif Require Import BaseFacts StrFacts SelFacts TreeFacts HistoryFacts DomFacts LineFacts BoxFacts.
From Verif Require Import KeepSpec PageRead PageRoom KeepFacts Fixture.
Open Scope Z_scope.

(** C49: whenever there is a page, the visible characters of all text fed are in
    it, in order, however malformed the document, and whatever the page box, the
    format and the placement of links. *)
Theorem C49_kept : forall `{U : Uni} o h out,
  o_renderers o = [] -> o_ext o = [] -> ~ In OClose h ->
  render_doc o h = Ok out -> scattered (nonspace (fed_text h)) out.
Proof.
  intros U o h out H1 H2 NC H. destruct (construct o) as [g|e] eqn:CN; [|unfold render_doc in H; rewrite CN in H; discriminate].
  rewrite (whole o g h H1 H2 CN NC) in H. pose proof (feed_outcome g h [] pstate0 eq_refl NC) as FO. fold (feed_error g h) in FO.
  destruct (feed_error g h) as [e|]; [discriminate|]. destruct FO as (s & R).
  apply kept_scattered. eapply kept_trans; [|eapply page_kept; [eapply reach_leafy; eauto|exact H]].
  apply kept_eq. symmetry. apply tree_text.
Qed.

(** An unbalanced document in a narrow box with margins, after a reset. *)
Local Existing Instance U0.
Definition messy : list op :=
  [OData (lit "gone"); OReset; OStart (lit "blockquote") []; OData (lit " one "); OStart (lit "li") []; OData (lit "twothreefour");
   OEnd (lit "p"); OStart (lit "br") []; OStart (lit "a") [(lit "href", Some (lit "/x"))]; OData (lit "  five six")].
Definition messy_options := Options 67 (Some (root_box 12 (Sides 1 2 1 3) (Sides 0 1 0 1) sides0 None)) [] [] (lit "text") (lit "footer") (lit "footer") (lit "host") 70 true.
Example messy_kept : nonspace (fed_text messy) = lit "onetwothreefourfivesix"
  /\ exists out, render_doc messy_options messy = Ok out.
Proof. split; [vm_compute; reflexivity|eexists; vm_compute; reflexivity]. Qed.
Print Assumptions C49_kept.
Close Scope Z_scope.
