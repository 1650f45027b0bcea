(** C70: the page under any rule tables. *)
From Verif Require Import WrapFacts WrapLoop WrapWidth.
From Verif Require Import BaseFacts StrFacts SelFacts TreeFacts HistoryFacts DomFacts LineFacts BoxFacts DocFacts.
From Verif Require Import PageSpec PageRead StyleMain Fixture.
From Verif Require Import GoodFacts.
From Verif Require Export StyleSpec.
Open Scope Z_scope.

(** C70: when the selectors of the caller's tables raise nowhere in a document,
    neither do those of the tables built. *)
Theorem C70_quiet : forall `{U : Uni} o g F, construct o = Ok g -> quiet_table F (o_renderers o) -> quiet_table F (o_ext o) -> untroubled g F.
Proof. intros U o g F CN Q1 Q2. apply untroubled_iff. now apply (construct_quiet F o g CN). Qed.

(** C70, every history of handler calls: a page that the cascade, the settings
    and the looks of the elements give is the page produced. *)
Theorem C70_page : forall `{U : Uni} o g h out,
  construct o = Ok g -> ~ In OClose h -> feed_error g h = None ->
  untroubled g (tree_of h) ->
  table_ok (o_renderers o) -> table_ok (o_ext o) ->
  styled_page g (tree_of h) out -> render_doc o h = Ok out.
Proof.
  intros U o g h out CN NC FE UT T1 T2 SP. unfold render_doc. rewrite CN. cbn [bind]. rewrite run_app.
  pose proof (feed_outcome g h [] pstate0 eq_refl NC) as X. fold (feed_error g h) in X. rewrite FE in X. destruct X as (s & X). rewrite X. cbn [bind run step].
  destruct (tree_of_document _ _ _ X) as [D P]. destruct (fresh_run _ _ _ X NC) as [FC FA].
  pose proof (proj1 (untroubled_iff _ _) UT) as [C1 C2]. pose proof (construct_built _ _ _ _ (reach_wf _ _ _ X) D P CN C1 C2 T1 T2) as BU. destruct (assign_total g s BU) as (sg & AS).
  pose proof (close_styled g s _ sg (reach_good _ _ _ X) D P BU AS FA out FC SP) as Q. destruct (close g s); exact Q.
Qed.

(** C70: there is at most one such page. *)
Theorem C70_unique : forall `{U : Uni} o g h out out',
  construct o = Ok g -> ~ In OClose h -> feed_error g h = None ->
  untroubled g (tree_of h) ->
  table_ok (o_renderers o) -> table_ok (o_ext o) ->
  styled_page g (tree_of h) out -> styled_page g (tree_of h) out' -> out = out'.
Proof.
  intros U o g h out out' CN NC FE UT T1 T2 S1 S2.
  pose proof (C70_page o g h out CN NC FE UT T1 T2 S1) as E1. pose proof (C70_page o g h out' CN NC FE UT T1 T2 S2) as E2. congruence.
Qed.

(** C70, well-formed markup. *)
Theorem C70_markup : forall `{U : Uni} o g doc out, construct o = Ok g -> Forall (wf_html false) doc ->
  feed_error g (flat_map events doc) = None ->
  untroubled g (forest_of doc) ->
  table_ok (o_renderers o) -> table_ok (o_ext o) ->
  styled_page g (forest_of doc) out -> render_doc o (flat_map events doc) = Ok out.
Proof.
  intros U o g doc out CN W FE UT T1 T2 SP. rewrite <- (forest_of_tree doc W) in *. eapply C70_page; eauto. apply events_no_close.
Qed.
Close Scope Z_scope.

Print Assumptions C70_quiet.
Print Assumptions C70_page.
Print Assumptions C70_unique.
Print Assumptions C70_markup.
