(** What holds of a parser whatever was called, and suffices for closing it. *)
From Verif Require Import BaseFacts StrFacts TreeFacts HistoryFacts DomFacts CssFacts RenderFacts LinkTree.
From Verif Require Export StyleRefs.

Section G.
Context `{U : Uni}.
Record good (g : cfg) (s : pstate) : Prop := Good {
  go_wf : wf_dom (p_dom s);
  go_classes : classes_ok (p_dom s);
  go_links : links_ok g s;
  go_refs : refs_ok g s }.
Lemma go_down : forall g s, good g s -> downward (p_dom s).
Proof.
  intros g s [W _ L _].
  assert (C : forall i n j, node_at (p_dom s) i = Some n -> In j (n_children n) -> (i < j)%nat /\ (j < length (d_nodes (p_dom s)))%nat).
  { intros i n j HN J. destruct (wf_children _ W _ _ _ HN J) as (m & HM & HP). split; [|eapply node_at_lt; eauto].
    pose proof (wf_parent _ W _ _ HM) as K. rewrite HP in K. apply K. }
  intros i n j HN [J|J]; [eauto|]. rewrite (lo_pending _ _ L _ _ HN) in J. apply filter_In in J as [J _]. eauto.
Qed.
Lemma reach_good : forall g h s, run g h pstate0 = Ok s -> good g s.
Proof. intros g h s H. constructor; eauto using reach_wf, reach_classes, reach_links, reach_numbers. Qed.
(** Only the tree, the links at the foot and the next number matter. *)
Lemma good_same : forall g s s', p_dom s' = p_dom s -> p_footer s' = p_footer s -> p_next s' = p_next s -> good g s -> good g s'.
Proof.
  intros g s s' D F N [G1 G2 G3 G4]. constructor; [now rewrite D|now rewrite D| |].
  - destruct G3 as [L1 L2 L3]. constructor; rewrite ?D, ?F; auto.
  - unfold refs_ok in *. now rewrite D, N.
Qed.
End G.
