(** C60: what the parser produces with the library's own renderers is the page
    defined in PageSpec, for every document. *)
From Verif Require Import WrapFacts WrapLoop WrapWidth.
From Verif Require Import BaseFacts StrFacts SelFacts TreeFacts HistoryFacts DomFacts LineFacts BoxFacts.
From Verif Require Import PageSpec PageRead Fixture.
Open Scope Z_scope.

(** C60, every history of handler calls: the exception of the first call that
    raises, and else the page of the tree that was read. *)
Theorem C60_events : forall `{U : Uni} o g h,
  o_renderers o = [] -> o_ext o = [] -> construct o = Ok g -> ~ In OClose h ->
  render_doc o h = match feed_error g h with
                   | Some e => Err e
                   | None => page g (tree_of h)
                   end.
Proof. intros U o g h. apply whole. Qed.

(** C60, well-formed markup: the page of the tree that the markup denotes. *)
Theorem C60_markup : forall `{U : Uni} o g doc,
  o_renderers o = [] -> o_ext o = [] -> construct o = Ok g -> Forall (wf_html false) doc ->
  feed_error g (flat_map events doc) = None ->
  render_doc o (flat_map events doc) = page g (forest_of doc).
Proof.
  intros U o g doc H1 H2 H3 W E. rewrite (whole o g _ H1 H2 H3 (events_no_close doc)), E, forest_of_tree; auto.
Qed.

(** C60: the tree read from well-formed markup is the one the markup denotes. *)
Theorem C60_reading : forall `{U : Uni} doc, Forall (wf_html false) doc -> tree_of (flat_map events doc) = forest_of doc.
Proof. intros U. apply forest_of_tree. Qed.

(** A document with most of the elements, and the two sides on it. *)
Local Existing Instance U0.
Definition T t k := HTag (lit t) [] k.
Definition X s := HText (lit s).
Definition A h k := HTag (lit "a") [(lit "href", Some (lit h))] k.
Definition I h := HTag (lit "img") [(lit "src", Some (lit h))] [].
Definition sample : list html :=
  [T "h1" [X "Title "; T "em" [X "x"]]; X " stray ";
   T "p" [X "Hello world this is "; A "http://x.y/z" [X "a link"]; T "br" []; I "/pic.png"];
   T "blockquote" [T "p" [X "quote  one"]; X "  "; T "blockquote" [T "p" [X "inner"; T "code" [X "c"]]; T "p" [X "second"]]; T "p" [X "last"]];
   T "ol" [T "li" [X "one"]; T "li" [X "two "; T "ul" [T "li" [X "sub"]; T "li" [X "sub2"; A "gopher://h/1/x" [X "lnk"]]]]; X " "; T "li" [X "three"]];
   T "dl" [T "dt" [X "t"]; T "dd" [X "d"]; T "dt" [X "t2"]];
   T "pre" [T "code" [HText (lit "a  b" ++ [10%N] ++ lit "c")]; X "x"]; T "p" [T "code" [X "only"]];
   T "foo" [X "bar"; A "http://q" [X "in "; A "/rel" [X "nested"]; I "p.gif"]]; T "div" [X "z"]].
Definition sample_options := Options 67 (Some (root_box 40 (Sides 1 2 1 3) (Sides 0 1 0 1) sides0 None)) [] [] (lit "text") (lit "after_block") (lit "footer") (lit "host") 70 true.
Example sample_wf : Forall (wf_html false) sample.
Proof. unfold sample, T, X, A, I. repeat constructor; intros; try reflexivity; discriminate. Qed.
Example sample_page : exists g out, construct sample_options = Ok g
  /\ feed_error g (flat_map events sample) = None
  /\ page g (forest_of sample) = Ok out /\ render_doc sample_options (flat_map events sample) = Ok out
  /\ Nat.ltb 300 (length out) = true.
Proof.
  eexists. eexists. split; [vm_compute; reflexivity|]. split; [vm_compute; reflexivity|].
  split; [vm_compute; reflexivity|]. split; [vm_compute; reflexivity|]. vm_compute. reflexivity.
Qed.
(** Unbalanced events, an error while feeding, and one while rendering. *)
Example unbalanced_page :
  exists g, construct sample_options = Ok g
  /\ (let h := [OStart (lit "p") []; OData (lit "a"); OEnd (lit "q"); OStart (lit "b") []; OData (lit "c"); OEnd (lit "p")] in
      feed_error g h = None /\ page g (tree_of h) = render_doc sample_options h)
  /\ (let h := [OStart (lit "a") []] in feed_error g h = Some EAttr /\ render_doc sample_options h = Err EAttr).
Proof. eexists. split; [vm_compute; reflexivity|]. split; [split; vm_compute; reflexivity|split; vm_compute; reflexivity]. Qed.
Print Assumptions C60_events.
Print Assumptions C60_markup.
Print Assumptions C60_reading.
Close Scope Z_scope.
