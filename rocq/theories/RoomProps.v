(** C54: when feeding and rendering succeed. *)
From Verif Require Import WrapFacts WrapLoop WrapWidth WrapProps.
From Verif Require Import BaseFacts StrFacts SelFacts TreeFacts HistoryFacts DomFacts LineFacts BoxFacts.
From Verif Require Import PageSpec PageRead PageRoom Fixture.
Open Scope Z_scope.

(** C54, feeding: no handler raises exactly when the events are acceptable. *)
Theorem C54_feeding : forall `{U : Uni} o g h, construct o = Ok g -> ~ In OClose h ->
  ((exists s, run g h pstate0 = Ok s) <-> acceptable g h).
Proof.
  intros U o g h CN NC. pose proof (feed_outcome g h [] pstate0 eq_refl NC) as FO.
  assert (E : feed_error_from g [] h = None <-> acceptable g h).
  { rewrite feed_error_None. unfold acceptable. cbn [app]. split; intros H b t a after Q; specialize (H b t a after Q); now apply start_error_None. }
  rewrite <- E. destruct (feed_error_from g [] h) as [e|].
  - split; [intros (s & H); congruence|discriminate].
  - tauto.
Qed.
(** C54: for acceptable events rendering succeeds exactly when every wrapped text
    has a column to be put in, and else raises ValueError. *)
Theorem C54_rendering : forall `{U : Uni} o g h,
  o_renderers o = [] -> o_ext o = [] -> construct o = Ok g -> ~ In OClose h -> acceptable g h ->
  if fits_page g (tree_of h)
  then exists out, render_doc o h = Ok out
  else render_doc o h = Err EValue.
Proof.
  intros U o g h H1 H2 CN NC A. pose proof A as A'. rewrite <- (C54_feeding o g h CN NC) in A'. destruct A' as (s & R).
  rewrite (whole o g h H1 H2 CN NC). pose proof (feed_outcome g h [] pstate0 eq_refl NC) as FO. fold (feed_error g h) in FO.
  destruct (feed_error g h) as [e|]; [congruence|]. pose proof (page_outcome g (tree_of h) (reach_leafy g h s R NC)) as P. exact P.
Qed.

(** C54: a page wider than its deepest indentation is always rendered. *)
Theorem C54_wide : forall `{U : Uni} o g h,
  o_renderers o = [] -> o_ext o = [] -> construct o = Ok g -> ~ In OClose h -> acceptable g h ->
  deepest (tree_of h) (positions [] (tree_of h)) < wrap_width (g_box g) ->
  exists out, render_doc o h = Ok out.
Proof.
  intros U o g h H1 H2 CN NC A D. pose proof (C54_rendering o g h H1 H2 CN NC A) as R.
  assert (E : fits_page g (tree_of h) = true); [|now rewrite E in R].
  rewrite fits_page_all. revert D. generalize (positions [] (tree_of h)). generalize (tree_of h).
  induction l as [|t F IH]; intros [|p ps] D; cbn [deepest fits_all] in *; auto. rewrite fits_deep, IH; auto; cbn [page_place pl_wrap]; lia.
Qed.

(** C54: the condition on links listed after their block is needed: outside every
    element such a link raises AttributeError. *)
Theorem C54_toplevel : forall `{U : Uni} o g a after,
  construct o = Ok g -> placement g (lit "a") = lit "after_block" ->
  dlast (lit "class") a <> Some None -> (exists l, parse_href (attr "href" a) (g_host g) (g_port g) = Ok l) ->
  render_doc o (OStart (lit "a") a :: after) = Err EAttr.
Proof.
  intros U o g a after CN P C (l & L). unfold render_doc. rewrite CN. cbn [bind]. cbn [app run step].
  pose proof (start_outcome g [] pstate0 (lit "a") a eq_refl) as SO. unfold start_error in SO. change (is_img (lit "a")) with false in SO.
  change (is_a (lit "a")) with true in SO. cbn [orb] in SO. cbv iota in SO. rewrite L, P, seqb_refl in SO. change (open_after []) with (@nil str) in SO. cbv iota in SO.
  destruct (dlast (lit "class") a) as [[c|]|]; [|congruence|]; rewrite SO; reflexivity.
Qed.

Local Existing Instance U0.
Definition opts (w : Z) l := Options 67 (Some (root_box w sides0 sides0 sides0 None)) [] [] (lit "text") (lit l) (lit "inline") (lit "host") 70 true.
Definition nested := [OStart (lit "blockquote") []; OStart (lit "ol") []; OStart (lit "li") []; OStart (lit "a") [(lit "href", Some (lit "/x"))]; OData (lit "t"); OEnd (lit "nope")].
(** Six columns are enough, five are not. *)
Example room_example : exists g6 g5, construct (opts 6 "after_block") = Ok g6 /\ construct (opts 5 "after_block") = Ok g5
  /\ deepest (tree_of nested) (positions [] (tree_of nested)) = 5
  /\ fits_page g6 (tree_of nested) = true /\ fits_page g5 (tree_of nested) = false
  /\ render_doc (opts 5 "after_block") nested = Err EValue.
Proof.
  eexists. eexists. split; [vm_compute; reflexivity|]. split; [vm_compute; reflexivity|]. split; [vm_compute; reflexivity|].
  split; [vm_compute; reflexivity|]. split; vm_compute; reflexivity.
Qed.
Example acceptable_example : exists g, construct (opts 6 "after_block") = Ok g /\ acceptable g nested.
Proof.
  eexists. split; [vm_compute; reflexivity|]. eapply (C54_feeding (opts 6 "after_block")); [vm_compute; reflexivity| |eexists; vm_compute; reflexivity].
  cbn. intuition discriminate.
Qed.
Print Assumptions C54_feeding.
Print Assumptions C54_rendering.
Print Assumptions C54_wide.
Print Assumptions C54_toplevel.
Close Scope Z_scope.
