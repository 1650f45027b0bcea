(** C63: a page from source text.  C19: source text and text events in pieces. *)
From Verif Require Import WrapFacts WrapLoop WrapWidth.
From Verif Require Import BaseFacts StrFacts SelFacts TreeFacts HistoryFacts DomFacts LineFacts BoxFacts.
From Verif Require Import PageSpec PageRead SourceSpec SplitSpec PrintSpec SourceMain SplitFacts ChunkRead PrintFacts PageProps Fixture.

(** C63: source text that is a way of writing a document ([written]: SourceSpec)
    gives what the events of the document give. *)
Theorem C63_source : forall `{U : Uni} careful o doc src,
  written careful doc src -> render_text o src = render_doc o (flat_map events doc).
Proof. intros U careful o doc src. apply source_page. Qed.
Print Assumptions C63_source.

(** C63: and so the page of the tree that the document denotes. *)
Theorem C63_page : forall `{U : Uni} careful o g doc src,
  o_renderers o = [] -> o_ext o = [] -> construct o = Ok g -> Forall (wf_html false) doc ->
  feed_error g (flat_map events doc) = None -> written careful doc src ->
  render_text o src = page g (forest_of doc).
Proof. intros U careful o g doc src H1 H2 H3 H4 H5 W. rewrite (source_page o doc src W). now apply C60_markup. Qed.
Print Assumptions C63_page.

(** C63: two ways of writing one document give one page. *)
Theorem C63_spelling : forall `{U : Uni} c1 c2 o doc src1 src2,
  written c1 doc src1 -> written c2 doc src2 -> render_text o src1 = render_text o src2.
Proof. intros U c1 c2 o doc s1 s2 W1 W2. now rewrite (source_page o doc s1 W1), (source_page o doc s2 W2). Qed.
Print Assumptions C63_spelling.

(** C63: every document (of nonempty texts, none next to another) can be written
    out with escapes and is read back. *)
Theorem C63_print : forall `{U : Uni} o doc,
  Forall printable doc -> texts_apart doc ->
  render_text o (print_doc doc) = render_doc o (flat_map events doc).
Proof. intros U o doc P A. apply (source_page (sm := true)). now apply print_written. Qed.
Print Assumptions C63_print.

(** C19, source text: the pieces in which a carefully written document is fed do
    not matter, if no cut has white space (or a reference) on both sides and text
    directly in numbered lists is white space.  Missing: other cuts (refuted
    below), other sources. *)
Theorem C19_pieces_partial : forall `{U : Uni} o doc l,
  o_renderers o = [] -> o_ext o = [] ->
  written true doc (concat l) -> calm_pieces l -> forallb (tidy false) doc = true ->
  render_pieces o l = render_text o (concat l).
Proof.
  intros U o doc l H1 H2 W C T. transitivity (render_doc o (flat_map events doc)).
  - apply (pieces_page o doc l H1 H2 W C). exact (tidy_blank doc _ W T).
  - symmetry. exact (source_page o doc _ W).
Qed.
Print Assumptions C19_pieces_partial.

(** C19, events: a text delivered in several pieces anywhere in any history gives
    the same page ([resplit]: SplitSpec).  Missing: cuts in white space outside
    pre, and in text directly in a numbered list (refuted). *)
Theorem C19_events_partial : forall `{U : Uni} o h h',
  o_renderers o = [] -> o_ext o = [] -> ~ In OClose h -> resplit [] h h' -> render_doc o h = render_doc o h'.
Proof. intros U o h h' H1 H2 H3 H4. now apply resplit_whole. Qed.
Print Assumptions C19_events_partial.

(** ** Cases that meet the hypotheses *)
Section Cases.
Local Existing Instance U0.
Open Scope N_scope.
Ltac letters := match goal with |- Forall _ ?l => let l' := eval vm_compute in l in change l with l' end; repeat (apply Forall_cons; [unfold name_part, ascii_letter, digit, html_blank; lia|]); apply Forall_nil.

Ltac plain := match goal with |- text_as _ _ ?m ?s => let m' := eval vm_compute in m in let s' := eval vm_compute in s in change m with m'; change s with s' end.
(** A source with names in mixed case, attributes in all forms, references of all
    kinds, a comment and a void element. *)
Definition tom : list html :=
  [HTag (lit "p") [(lit "class", Some (lit "x")); (lit "id", Some (lit "a""b")); (lit "hidden", None)]
     [HText (lit "Tom & J" ++ [233; 233; 32; 60; 32; 38]); HTag (lit "br") [] []; HText (lit "x")]].
Definition tom_src : str :=
  lit "<!DOCTYPE html><P Class=x ID = 'a""b' hidden>Tom &amp; J&#233;&#xE9; &lt; &<Br /><!-- no > page -->x</p >".
Example tom_written : written true tom tom_src.
Proof.
  change tom_src with (lit "<!DOCTYPE html>" ++ lit "<P Class=x ID = 'a""b' hidden>" ++ (lit "Tom &amp; J&#233;&#xE9; &lt; &" ++ lit "<Br />" ++ lit "<!-- no > page -->" ++ lit "x" ++ []) ++ lit "</p >" ++ []).
  apply wr_aside; [apply (as_doctype (lit "DOCTYPE") (lit " html")); [reflexivity|vm_compute; intuition discriminate]|].
  apply wr_element; [intros [H|H]; discriminate|reflexivity| | | |constructor].
  - apply (sa_plain true _ _ (lit "P") (lit " Class=x ID = 'a""b' hidden") false []); [|..|constructor].
    + eexists. eexists. split; [reflexivity|]. split; [unfold ascii_letter; vm_compute; intuition discriminate|]. split; [constructor|reflexivity].
    + apply (aa_one true (lit " ") (lit "Class") (lit "class") (Some (lit "x")) (lit "=x") true [(lit "id", Some (lit "a""b")); (lit "hidden", None)] (lit " ID = 'a""b' hidden") false); [discriminate|letters|discriminate|letters|reflexivity| |].
      { apply (va_bare true [] [] (lit "x") (lit "x")); [constructor|constructor|discriminate|]. plain. apply ta_char; [|discriminate|constructor]. repeat split; try discriminate. intros [H|H]; discriminate. }
      apply (aa_one true (lit " ") (lit "ID") (lit "id") (Some (lit "a""b")) (lit " = 'a""b'") false [(lit "hidden", None)] (lit " hidden") false); [discriminate|letters|discriminate|letters|reflexivity| |].
      { apply (va_quoted true 39 (lit " ") (lit " ") (lit "a""b") (lit "a""b")); [now right|letters|letters|intros _; vm_compute; intuition discriminate|]. plain. repeat (apply ta_char; [discriminate|discriminate|]). constructor. }
      apply (aa_one true (lit " ") (lit "hidden") (lit "hidden") None [] false [] [] false); [discriminate|letters|discriminate|letters|reflexivity|constructor|constructor].
  - apply wr_text; [discriminate| |right; eexists; reflexivity|].
    + plain. do 4 (apply ta_char; [discriminate|discriminate|]). apply (ta_named true _ "amp;" (lit "amp") [38]); [apply amp_in|reflexivity|].
      do 2 (apply ta_char; [discriminate|discriminate|]). 
      apply (ta_decimal true _ (lit "233")); [discriminate|letters|vm_compute; discriminate|unfold plain_point; vm_compute; intuition discriminate|].
      apply (ta_hex true _ 120 (lit "E9")); [now right|discriminate|change (lit "E9") with [69; 57]; repeat (apply Forall_cons; [unfold hex_char, digit; lia|]); apply Forall_nil|intros _; vm_compute; discriminate|unfold plain_point; vm_compute; intuition discriminate|].
      apply ta_char; [discriminate|discriminate|]. apply (ta_named true _ "lt;" (lit "lt") [60]); [apply lt_in|reflexivity|]. apply ta_char; [discriminate|discriminate|].
      apply ta_amp; [constructor|now left].
    + apply wr_void; [reflexivity| |].
      { right. apply (la_slash true _ _ (lit "Br") [] false (lit " ")); [|constructor|letters|discriminate]. eexists. eexists. split; [reflexivity|]. split; [unfold ascii_letter; vm_compute; intuition discriminate|]. split; [letters|reflexivity]. }
      apply wr_aside; [apply (as_comment (lit " no > page ")); split; [intros x y E|intros x E]|].
      * assert (H : In 45 (lit " no > page ")) by (rewrite E; apply in_or_app; right; now left). vm_compute in H. intuition discriminate.
      * assert (H : In 45 (lit " no > page ")) by (rewrite E; apply in_or_app; right; now left). vm_compute in H. intuition discriminate.
      * apply (wr_text true (lit "x") (lit "x")); [discriminate|apply ta_char; [discriminate|discriminate|constructor]|now left|constructor].
  - apply (ea_end _ [] (lit "p") (lit " ")); [constructor| |letters]. eexists. eexists. split; [reflexivity|]. split; [unfold ascii_letter; vm_compute; intuition discriminate|]. split; [constructor|reflexivity].
Qed.
Example tom_page : exists g out, construct sample_options = Ok g /\ Forall (wf_html false) tom /\ feed_error g (flat_map events tom) = None
  /\ render_text sample_options tom_src = Ok out /\ page g (forest_of tom) = Ok out /\ Nat.ltb 20 (length out) = true.
Proof.
  eexists. eexists. split; [vm_compute; reflexivity|]. split; [repeat constructor; intros; try reflexivity; discriminate|].
  split; [vm_compute; reflexivity|]. split; [vm_compute; reflexivity|]. split; [vm_compute; reflexivity|]. vm_compute. reflexivity.
Qed.
(** The sample document of C60 written out. *)
Example sample_print : exists out, render_text sample_options (print_doc sample) = Ok out /\ render_doc sample_options (flat_map events sample) = Ok out /\ Nat.ltb 300 (length out) = true.
Proof. eexists. split; [vm_compute; reflexivity|]. split; [vm_compute; reflexivity|]. vm_compute. reflexivity. Qed.
Definition small_doc : list html :=
  [HTag (lit "p") [(lit "title", Some (lit "a<b>""&"))] [HText (lit "x < y & z"); HTag (lit "img") [(lit "src", Some (lit "/i"))] []; HTag (lit "script") [] [HText (lit "if (a<b) c()")]]].
Example small_printable : Forall printable small_doc /\ texts_apart small_doc
  /\ print_doc small_doc = lit "<p title=""a&lt;b&gt;&quot;&amp;"">x &lt; y &amp; z<img src=""/i""><script>if (a<b) c()</script></p>".
Proof.
  assert (TN : forall t, raw_element t \/ t = lit "p" \/ t = lit "img" -> tag_name t).
  { intros t [H|[->| ->]]; [now apply raw_name| |]; (eexists; eexists; split; [reflexivity|]); (split; [unfold ascii_letter; vm_compute; intuition discriminate|]); (split; [|reflexivity]); letters. }
  assert (AN : forall k, k = lit "title" \/ k = lit "src" -> attr_name k) by (intros k [->| ->]; (split; [discriminate|]); (split; [letters|reflexivity])).
  split; [|split; [repeat constructor|reflexivity]]. constructor; [|constructor]. apply pr_tag; [reflexivity|intros [H|H]; discriminate|auto| | |].
  - constructor; [|constructor]. apply AN. now left.
  - constructor; [constructor|]. constructor; [apply pr_void; [reflexivity|auto|constructor; [|constructor]; apply AN; now right]|]. constructor; [|constructor].
    apply (pr_raw (lit "script") [] (lit "if (a<b) c()")); [now left| |constructor]. intros x y E. assert (H : In 47 (lit "if (a<b) c()")) by (rewrite E; apply in_or_app; right; right; now left). vm_compute in H. intuition discriminate.
  - cbn. repeat split; discriminate.
Qed.
(** The source of [tom] in pieces, cut in a name, in a value, in references and in
    the comment. *)
Definition tom_pieces : list str :=
  [lit "<!DOCT"; lit "YPE html><P Cla"; []; lit "ss=x ID = 'a"; lit """b' hidden>Tom &am"; lit "p; J&#23"; lit "3;&#xE9; &lt; &<B"; lit "r /><!-"; lit "- no > pa"; lit "ge -->x</p >"].
Example tom_calm : concat tom_pieces = tom_src /\ calm_pieces tom_pieces /\ forallb (tidy false) tom = true
  /\ render_pieces sample_options tom_pieces = render_text sample_options tom_src.
Proof.
  split; [reflexivity|]. split; [|split; vm_compute; reflexivity]. assert (C : forall x y d, rev x = d -> (match d with c :: _ => negb (is_space c) && negb (c =? 59) | [] => true end) = true -> calm x y).
  { intros x y d <- H. left. intros a c ->. rewrite rev_app_distr in H. cbn [rev app] in H. apply andb_true_iff in H. destruct H as [H1 H2]. apply negb_true_iff in H1, H2. apply N.eqb_neq in H2. auto. }
  intros l1 l2 E. unfold tom_pieces in E.
  repeat (destruct l1 as [|? l1]; [eapply C; [vm_compute; reflexivity|reflexivity]|cbn [app] in E; first [discriminate E|injection E as <- E]]).
Qed.
Example resplit_case : resplit [] [start "p"; OData (lit "ab " ++ lit "cd"); start "pre"; OData (lit "x " ++ lit " y")]
  [start "p"; txt "ab "; txt "cd"; start "pre"; txt "x "; txt " y"].
Proof.
  apply rs_keep. apply rs_cut; [right; right; reflexivity|discriminate|]. apply rs_keep. apply rs_keep. apply rs_cut; [left; reflexivity|discriminate|]. apply rs_keep. apply rs_nil.
Qed.

(** ** Refutations: cuts that change the page *)
(** White space on both sides. *)
Theorem C19_white_space_refuted : exists o a b, o_renderers o = [] /\ o_ext o = [] /\ render_pieces o [a; b] <> render_text o (a ++ b).
Proof. exists default_options, (lit "<p>x "), (lit " y</p>"). split; [reflexivity|]. split; [reflexivity|]. vm_compute. discriminate. Qed.
(** A closing bracket in an attribute value. *)
Theorem C19_bracket_refuted : exists o a b, o_renderers o = [] /\ o_ext o = [] /\ calm_pieces [a; b] /\ render_pieces o [a; b] <> render_text o (a ++ b).
Proof.
  exists default_options, (lit "<p title= ""a>b"), (lit "c"">text</p>"). split; [reflexivity|]. split; [reflexivity|]. split; [|vm_compute; discriminate].
  intros l1 l2 E. right. destruct l1 as [|x l1]; cbn [app] in E; [subst l2|injection E as <- E; destruct l1 as [|y l1]; cbn [app] in E; [subst l2|injection E as <- E; destruct l1; [cbn in E; subst l2|discriminate]]]; intros c a H; cbn in H; [injection H as <- _|injection H as <- _|discriminate]; split; (reflexivity || discriminate).
Qed.
(** A numeric reference of many digits. *)
Theorem C19_long_reference_refuted : exists o a b, o_renderers o = [] /\ o_ext o = [] /\ calm_pieces [a; b] /\ render_pieces o [a; b] <> render_text o (a ++ b).
Proof.
  exists default_options, (lit "<p>&#0000000000000000000000000000000000000"), (lit "65;</p>"). split; [reflexivity|]. split; [reflexivity|]. split; [|vm_compute; discriminate].
  intros l1 l2 E. right. destruct l1 as [|x l1]; cbn [app] in E; [subst l2|injection E as <- E; destruct l1 as [|y l1]; cbn [app] in E; [subst l2|injection E as <- E; destruct l1; [cbn in E; subst l2|discriminate]]]; intros c a H; cbn in H; [injection H as <- _|injection H as <- _|discriminate]; split; (reflexivity || discriminate).
Qed.
(** Text directly in a numbered list counts as items: one more piece, one more
    number. *)
Theorem C19_numbered_list_refuted : exists o a b, o_renderers o = [] /\ o_ext o = [] /\ calm_pieces [a; b] /\ render_pieces o [a; b] <> render_text o (a ++ b).
Proof.
  exists default_options, (lit "<ol>ab"), (lit "cd<li>item</li></ol>"). split; [reflexivity|]. split; [reflexivity|]. split; [|vm_compute; discriminate].
  intros l1 l2 E. right. destruct l1 as [|x l1]; cbn [app] in E; [subst l2|injection E as <- E; destruct l1 as [|y l1]; cbn [app] in E; [subst l2|injection E as <- E; destruct l1; [cbn in E; subst l2|discriminate]]]; intros c a H; cbn in H; [injection H as <- _|injection H as <- _|discriminate]; split; (reflexivity || discriminate).
Qed.
(** A reference without a semicolon is read as one even in an attribute value,
    where HTML does not. *)
Example copy_in_href : tokens false None (lit "<a href=""?a=1&copy=2"">")
  = TEv (OStart (lit "a") [(lit "href", Some (lit "?a=1" ++ [169] ++ lit "=2"))]) (TStop None []).
Proof. vm_compute. reflexivity. Qed.
End Cases.
