(** C50: the lines of running text fit the page. *)
From Verif Require Import WrapFacts WrapLoop WrapWidth WrapProps.
From Verif Require Import BaseFacts StrFacts SelFacts TreeFacts HistoryFacts DomFacts LineFacts BoxFacts.
From Verif Require Import ProseSpec PageRead PageRoom KeepFacts ProseFacts Fixture.
Open Scope Z_scope.

(** C50, for documents of paragraphs and of quotations and divisions of
    paragraphs: white space at its end aside, no line of the page reaches beyond
    the columns for text.  Missing: the text must not contain escape characters;
    a paragraph must not consist of one piece of code; no white space before the
    first paragraph of a quotation (with these the claim is false, below). *)
Theorem C50_columns_partial : forall `{U : Uni} o g h out,
  o_renderers o = [] -> o_ext o = [] -> construct o = Ok g -> ~ In OClose h ->
  Forall prose (tree_of h) -> no_foot g (tree_of h) ->
  deepest (tree_of h) (positions [] (tree_of h)) < wrap_width (g_box g) ->
  0 <= sd_left (b_margin (g_box g)) ->
  render_doc o h = Ok out -> ~ In 27%N out ->
  forall l, In l (splitlines false out) ->
    len (rstrip l) <= sd_left (b_margin (g_box g)) + wrap_width (g_box g).
Proof.
  intros U o g h out H1 H2 CN NC HP NF D M H NE l I. rewrite (whole o g h H1 H2 CN NC) in H.
  destruct (feed_error g h) as [e|]; [discriminate|]. pose proof (page_narrow g (tree_of h) out HP NF D M H NE) as W.
  pose proof (deepest_nonneg (tree_of h) (positions [] (tree_of h))). rewrite Z.add_comm. eapply narrow_lines; [lia|exact W|exact I].
Qed.
(** C50: so no line is wider than the page. *)
Theorem C50_page_partial : forall `{U : Uni} o h out w m pd,
  o_renderers o = [] -> o_ext o = [] -> ~ In OClose h ->
  o_box o = Some (root_box w m pd sides0 None) ->
  0 <= sd_left m -> 0 <= sd_right m -> 0 <= sd_left pd -> 0 <= sd_right pd ->
  Forall prose (tree_of h) -> o_link o <> lit "footer" ->
  deepest (tree_of h) (positions [] (tree_of h)) < w - sd_left m - sd_right m - sd_left pd - sd_right pd ->
  render_doc o h = Ok out -> ~ In 27%N out ->
  forall l, In l (splitlines false out) -> len (rstrip l) <= w.
Proof.
  intros U o h out w m pd H1 H2 NC B L1 L2 L3 L4 HP NF D H NE l I.
  destruct (construct o) as [g|e] eqn:CN; [|unfold render_doc in H; rewrite CN in H; discriminate].
  assert (GB : g_box g = root_box w m pd sides0 None /\ g_link g = o_link o).
  { unfold construct in CN. rewrite B in CN. destruct (seqb (o_format o) (lit "gophermap") && seqb (o_link o) (lit "inline")); [discriminate|].
    destruct (seqb (o_format o) (lit "gophermap") && seqb (o_host o) []); [discriminate|]. cbv zeta in CN.
    destruct (dget [] (dupdate default_table (o_renderers o))) as [[x y]|]; [|discriminate]. injection CN as <-. split; reflexivity. }
  destruct GB as [GB GL].
  assert (W : wrap_width (g_box g) = w - sd_left m - sd_right m - sd_left pd - sd_right pd).
  { rewrite GB. unfold wrap_width, line_width, both. cbn. lia. }
  pose proof (C50_columns_partial o g h out H1 H2 CN NC HP) as C. rewrite W in C. rewrite GB in C. cbn [root_box b_margin] in C.
  specialize (C ltac:(left; congruence) D L1 H NE l I). lia.
Qed.

(** Nested quotations and divisions, with white space, a link and code in a line. *)
Local Existing Instance U0.
Definition T t k := HTag (lit t) [] k.
Definition X s := HText (lit s).
Definition essay : list op := flat_map events
  [T "p" [X "Some "; T "em" [X "running"]; X " text, with a "; HTag (lit "a") [(lit "href", Some (lit "/x"))] [X "link"]; T "br" []; X "and so on"];
   X " "; T "div" [X " "; T "div" [T "p" [T "code" [X "abc"]; X "unbelievablylongwordthatdoesnotfit"]]; T "p" [X "q"]];
   T "blockquote" [T "p" [X "a quoted paragraph"]; X " "; T "blockquote" [T "div" [X " "; T "p" [X "inner"]]]; T "p" [X "last one here"]; X " "]].
Definition narrow_options (l : string) := Options 67 (Some (root_box 18 (Sides 1 1 1 2) (Sides 0 1 0 0) sides0 None)) [] [] (lit "text") (lit l) (lit l) (lit "host") 70 true.
Example essay_prose : Forall prose (tree_of essay).
Proof.
  assert (E : exists F, tree_of essay = F /\ Forall prose F); [|now destruct E as (F & -> & E)]. eexists. split; [vm_compute; reflexivity|].
  repeat constructor; apply prose_p || idtac.
Qed.
Example essay_page : exists out, render_doc (narrow_options "after_block") essay = Ok out
  /\ deepest (tree_of essay) (positions [] (tree_of essay)) = 4
  /\ forallb (fun l => len (rstrip l) <=? 16) (splitlines false out) = true
  /\ existsb (fun l => len (rstrip l) =? 16) (splitlines false out) = true.
Proof. eexists. split; [vm_compute; reflexivity|]. split; [vm_compute; reflexivity|]. split; vm_compute; reflexivity. Qed.

(** C50 is false when there is white space before the first paragraph of a
    quotation, as in the output of markdown: its first line is a column too wide. *)
Theorem C50_quotation_refuted : exists o h out l,
  o_box o = Some (root_box 8 sides0 sides0 sides0 None)
  /\ h = flat_map events [T "blockquote" [HText nl; T "p" [X "aaaaaa b"]; HText nl]]
  /\ render_doc o h = Ok out /\ In l (splitlines false out) /\ len (rstrip l) = 9.
Proof.
  exists (Options 67 (Some (root_box 8 sides0 sides0 sides0 None)) [] [] (lit "text") (lit "inline") (lit "inline") (lit "host") 70 true).
  eexists. eexists. exists (lit ">  aaaaaa"). split; [reflexivity|]. split; [reflexivity|]. split; [vm_compute; reflexivity|]. split; [vm_compute; auto|reflexivity].
Qed.
(** C50 is false for a paragraph that is one piece of code: it is not wrapped. *)
Theorem C50_code_refuted : exists o h out l,
  o_box o = Some (root_box 8 sides0 sides0 sides0 None)
  /\ h = flat_map events [T "p" [T "code" [X "one two three"]]]
  /\ render_doc o h = Ok out /\ In l (splitlines false out) /\ len (rstrip l) = 15.
Proof.
  exists (Options 67 (Some (root_box 8 sides0 sides0 sides0 None)) [] [] (lit "text") (lit "inline") (lit "inline") (lit "host") 70 true).
  eexists. eexists. exists (lit "`one two three`"). split; [reflexivity|]. split; [reflexivity|]. split; [vm_compute; reflexivity|]. split; [vm_compute; auto|reflexivity].
Qed.
Print Assumptions C50_columns_partial.
Print Assumptions C50_page_partial.
Print Assumptions C50_quotation_refuted.
Print Assumptions C50_code_refuted.
Close Scope Z_scope.
