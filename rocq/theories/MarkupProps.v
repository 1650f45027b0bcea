(** C74: what a parser reads in any source text whatever, and the page. *)
From Verif Require Import WrapFacts WrapLoop WrapWidth.
From Verif Require Import BaseFacts StrFacts SelFacts TreeFacts HistoryFacts DomFacts LineFacts BoxFacts.
From Verif Require Import PageSpec PageRead PageProps Fixture.
From Verif Require Import MarkupSpec MarkupFacts MarkupMain.
Open Scope N_scope.

Section P.
Context `{U : Uni}.
(** C74: after any calls, feeding more text makes the calls of handlers that the
    specification [reads] (MarkupSpec) gives for the text kept so far and the
    new text, ... *)
Theorem C74_feed : forall g before h es data, do_calls g before parser0 = (h, es) ->
  exists t, reads false (h_cd h) (h_raw h ++ data) t /\ feed g data h = deliver g (h_raw h ++ data) t (h_p h).
Proof.
  intros g before h es data H. eexists. split; [|reflexivity]. apply tokens_reads; [|reflexivity]. eapply calls_raw; [|exact H]. now left.
Qed.
(** C74: ... and closing those for the text that was kept, of which nothing is
    kept back now but the text of an open raw element. *)
Theorem C74_close : forall g before h es, do_calls g before parser0 = (h, es) ->
  exists t, reads true (h_cd h) (h_raw h) t /\
    finalise g h = match deliver g (h_raw h) t (h_p h) with
                   | (h', Some e) => (h', Some e)
                   | (h', None) => let '(p, e) := close_x g (h_p h') in (Parser (h_raw h') (h_cd h') p, e)
                   end.
Proof.
  intros g before h es H. eexists. split; [|reflexivity]. apply tokens_reads; [|reflexivity]. eapply calls_raw; [|exact H]. now left.
Qed.
(** C74: a text is read in one way only. *)
Theorem C74_one_reading : forall fin raw s t t', reads fin raw s t -> reads fin raw s t' -> t = t'.
Proof. intros fin raw s t t' A B. exact (proj1 (reads_one_both fin) _ _ _ A _ B). Qed.
(** C74: every source text has one sequence of calls, ... *)
Theorem C74_source : forall src, exists evs fail, source src evs fail /\ forall evs' fail', source src evs' fail' -> evs' = evs /\ fail' = fail.
Proof. intros src. destruct (source_some src) as (evs & fail & H). exists evs, fail. split; [exact H|]. intros evs' fail' H'. exact (source_one _ _ _ _ _ H' H). Qed.
(** C74: ... and rendering it gives what those calls give. *)
Theorem C74_render : forall o g src evs fail, construct o = Ok g -> source src evs fail ->
  render_text o src = match feed_error g evs with
                      | Some e => Err e
                      | None => match fail with Some e => Err e | None => render_doc o evs end
                      end.
Proof. exact source_render. Qed.
(** C74: with the renderers of the library: the page of the tree that the calls
    denote. *)
Theorem C74_page : forall o g src evs fail, o_renderers o = [] -> o_ext o = [] -> construct o = Ok g -> source src evs fail ->
  render_text o src = match feed_error g evs with
                      | Some e => Err e
                      | None => match fail with Some e => Err e | None => page g (tree_of evs) end
                      end.
Proof.
  intros o g src evs fail H1 H2 CN SO. rewrite (source_render o g src evs fail CN SO). destruct (feed_error g evs) as [e|] eqn:FE; [reflexivity|]. destruct fail as [e|]; [reflexivity|].
  rewrite (C60_events o g evs H1 H2 CN); [now rewrite FE|]. eapply source_quiet; eauto.
Qed.
End P.
Print Assumptions C74_feed.
Print Assumptions C74_close.
Print Assumptions C74_one_reading.
Print Assumptions C74_source.
Print Assumptions C74_render.
Print Assumptions C74_page.

(** ** Cases *)
Local Existing Instance U0.
Ltac read_it := apply tokens_reads; [first [now left|now right; left|now right; right]|vm_compute; reflexivity].
(** Sloppy markup. *)
Definition sloppy_calls : list op :=
  [OStart (lit "p") [(lit "class", Some (lit "a")); (lit "id", Some (lit "x y")); (lit "title", None)]; OData (lit "R&D");
   OStart (lit "br") []; OEnd (lit "br"); OData (lit "1 "); OData (lit "<"); OData (lit " 2"); OEnd (lit "p");
   OData (lit " yes -->"); OData (lit "z")].
Example sloppy : source (lit "<!DOCTYPE html><P CLASS=a  id='x y'title>R&ampD<br/>1 < 2</p x><!-- no -- > yes --></>z</")
  (sloppy_calls ++ [OData (lit "<"); OData (lit "/")]) None.
Proof. apply (so_read _ sloppy_calls None (lit "</") [OData (lit "<"); OData (lit "/")] None []); read_it. Qed.
(** A script, its end written in capitals, and one that is never closed. *)
Example scripts : source (lit "<script>a<b</p></SCRIPT >x<style>y")
  [OStart (lit "script") []; OData (lit "a<b</p>"); OEnd (lit "script"); OData (lit "x"); OStart (lit "style") []] None.
Proof. apply (so_read _ [OStart (lit "script") []; OData (lit "a<b</p>"); OEnd (lit "script"); OData (lit "x"); OStart (lit "style") []] (Some (lit "style")) (lit "y") [] (Some (lit "style")) (lit "y")); read_it. Qed.
(** An unknown marked section. *)
Example bad_section : source (lit "a<![odd[b]]>") [OData (lit "a")] (Some EAssert).
Proof. apply so_feed. read_it. Qed.
(** A reference in two pieces. *)
Example kept_reference : reads false None (lit "a&am") (TStop None (lit "a&am")).
Proof. read_it. Qed.
(** Reading and options that the theorem about pages is about. *)
Example sloppy_page : exists g, construct sample_options = Ok g /\ o_renderers sample_options = [] /\ o_ext sample_options = [] /\
  feed_error g [OStart (lit "p") []; OData (lit "R&D"); OEnd (lit "p")] = None /\
  source (lit "<p>R&ampD</p x>") [OStart (lit "p") []; OData (lit "R&D"); OEnd (lit "p")] None.
Proof.
  eexists. split; [vm_compute; reflexivity|]. split; [reflexivity|]. split; [reflexivity|]. split; [vm_compute; reflexivity|].
  apply (so_read _ [OStart (lit "p") []; OData (lit "R&D"); OEnd (lit "p")] None [] [] None []); read_it.
Qed.
Close Scope N_scope.
