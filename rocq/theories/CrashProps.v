(** Properties of a parser whose exceptions are caught: C61, C62. *)
From Verif Require Import CrashFacts HistoryFacts Fixture.

(** C61: a tag whose handler raised is as if it had not been there.  Missing: pre
    tags that raise (refuted below), and a close that raised (next theorem). *)
Theorem C61_failed_tag_partial : forall `{U : Uni} g ops s s' es,
  run_x g ops s = (s', es) ->
  Forall (fun o => match o with OStart t _ => t <> lit "pre" | _ => False end) (rejected ops es) ->
  run g (accepted ops es) s = Ok s'.
Proof. exact @run_accepted. Qed.
Print Assumptions C61_failed_tag_partial.

(** C61: a close that raised changes neither [parsed] nor the tree nor the links
    collected, and closing again raises the same exception. *)
Theorem C61_failed_close : forall `{U : Uni} g s s' e,
  step_x g OClose s = (s', Some e) ->
  p_out s' = p_out s /\ p_dom s' = p_dom s /\ p_footer s' = p_footer s /\ p_next s' = p_next s
  /\ exists s2, step_x g OClose s' = (s2, Some e).
Proof.
  intros U g s s' e H. destruct (close_x_failed _ _ _ _ H) as (H1 & H2 & _ & H4 & H5 & _ & H7). repeat (split; [assumption|]).
  exact (step_x_err g OClose s' e H7).
Qed.
Print Assumptions C61_failed_close.

(** C61: whatever was raised before, after reset the parser is as good as new.
    Missing: as for C15, histories that leave the pre flag set. *)
Theorem C61_reset_partial : forall `{U : Uni} g l1 l2 h1 es1 h2 es2,
  do_calls g l1 parser0 = (h1, es1) -> p_in_pre (h_p h1) = false ->
  do_calls g l2 parser0 = (h2, es2) ->
  do_calls g (l1 ++ CReset :: l2) parser0 = (h2, es1 ++ None :: es2).
Proof.
  intros U g l1. generalize parser0 at 1 3 as h. induction l1 as [|c l1 IH]; intros h l2 h1 es1 h2 es2 H1 P H2; cbn [app do_calls].
  - cbn [do_calls] in H1. injection H1 as <- <-. cbn [do_call]. unfold restart. rewrite (reset_fresh _ P). fold parser0. now rewrite H2.
  - cbn [do_calls] in H1. destruct (do_call g c h) as [h' e]. destruct (do_calls g l1 h') as [h'' es] eqn:D. injection H1 as <- <-.
    now rewrite (IH _ _ _ _ _ _ D P H2).
Qed.
Print Assumptions C61_reset_partial.

(** C62: text that made feed raise makes close raise, too.  Missing: a feed that
    began inside a script or style element (refuted below). *)
Theorem C62_close_raises_partial : forall `{U : Uni} g data h h' e,
  reachable g h -> h_cd h = None -> feed g data h = (h', Some e) ->
  exists h2 e2, finalise g h' = (h2, Some e2).
Proof. exact @failed_feed. Qed.
Print Assumptions C62_close_raises_partial.

(** C62: feed always returns, and raises nothing but AttributeError, ValueError
    or AssertionError. *)
Theorem C62_feed_returns : forall `{U : Uni} g data h h' e,
  reachable g h -> feed g data h = (h', Some e) -> e = EAttr \/ e = EValue \/ e = EAssert.
Proof. exact @feed_raises. Qed.
Print Assumptions C62_feed_returns.

(** ** Where it fails *)
Section R.
Local Existing Instance U0.

(** A pre tag that raised still makes the text after it verbatim. *)
Theorem C61_failed_pre_refuted : exists ops s' es,
  run_x g0 ops pstate0 = (s', es) /\ es = [Some EAttr; None; None]
  /\ (forall s, run g0 (accepted ops es) pstate0 = Ok s -> p_out s <> p_out s').
Proof.
  exists [OStart (lit "pre") [(lit "class", None)]; txt "x  y"; OClose]. eexists. eexists. split; [vm_compute; reflexivity|].
  split; [reflexivity|]. intros s H. vm_compute in H. injection H as <-. vm_compute. discriminate.
Qed.
(** Inside a script element a feed raises, and close does not. *)
Theorem C62_script_refuted : exists h h' h2,
  feed g0 (lit "<script>") parser0 = (h, None)
  /\ feed g0 (lit "<!--</script><p class>-->") h = (h', Some EAttr)
  /\ finalise g0 h' = (h2, None).
Proof. eexists. eexists. eexists. split; [vm_compute; reflexivity|]. split; [vm_compute; reflexivity|vm_compute; reflexivity]. Qed.

(** ** The hypotheses are met *)
Example C61_tag_case : exists s' es,
  run_x g0 [start "p"; txt "a"; OStart (lit "em") [(lit "class", None)]; txt "b"; stop "em"; stop "p"; OClose] pstate0 = (s', es)
  /\ es = [None; None; Some EAttr; None; None; None; None] /\ p_out s' = nl ++ lit "ab" ++ nl
  /\ rejected [start "p"; txt "a"; OStart (lit "em") [(lit "class", None)]; txt "b"; stop "em"; stop "p"; OClose] es = [OStart (lit "em") [(lit "class", None)]].
Proof. eexists. eexists. split; [vm_compute; reflexivity|]. split; [reflexivity|]. split; vm_compute; reflexivity. Qed.
(** Closing fails when the page has no column for the text. *)
Example C61_close_case : exists g s s', construct (Options 67 (Some (root_box 0 sides0 sides0 sides0 None)) [] [] (lit "text") (lit "footer") (lit "inline") [] 70 true) = Ok g
  /\ run g [start "p"; txt "a"; stop "p"] pstate0 = Ok s /\ step_x g OClose s = (s', Some EValue).
Proof. eexists. eexists. eexists. split; [vm_compute; reflexivity|]. split; [vm_compute; reflexivity|vm_compute; reflexivity]. Qed.
Example C61_reset_case : exists h1 es1, do_calls g0 [CFeed (lit "<p>a<b class>"); CClose] parser0 = (h1, es1)
  /\ es1 = [Some EAttr; Some EAttr] /\ p_in_pre (h_p h1) = false /\ h_raw h1 = lit "<p>a<b class>".
Proof. eexists. eexists. split; [vm_compute; reflexivity|]. split; [reflexivity|]. split; vm_compute; reflexivity. Qed.
Example C62_case : exists h h' e, do_calls g0 [CFeed (lit "<p>a")] parser0 = (h, [None]) /\ h_cd h = None
  /\ feed g0 (lit "b<a href='http://[x'>c") h = (h', Some e) /\ e = EValue.
Proof. eexists. eexists. eexists. split; [vm_compute; reflexivity|]. split; [reflexivity|]. split; [vm_compute; reflexivity|reflexivity]. Qed.
Example C62_assert : exists h, feed g0 (lit "<![x[y]]>") parser0 = (h, Some EAssert).
Proof. eexists. vm_compute. reflexivity. Qed.
End R.
Print Assumptions C61_failed_pre_refuted.
Print Assumptions C62_script_refuted.
