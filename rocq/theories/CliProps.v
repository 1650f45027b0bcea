(** The command line tool (C51). *)
From Verif Require Import WrapFacts WrapLoop WrapWidth.
From Verif Require Import BaseFacts StrFacts SelFacts TreeFacts HistoryFacts DomFacts LineFacts BoxFacts.
From Verif Require Import PageSpec PageRead PageProps StyleSpec StyleProps ShapeProps Fixture.
From Verif Require Import MarkupSpec MarkupFacts MarkupMain MarkupProps WarnFacts CliFacts.
Open Scope Z_scope.

Section P.
Context `{U : Uni}.

(** The destination is never written; whatever the arguments and the file, and
    however the run ends. *)
Theorem C51_not_written_refuted : forall convert source destination dump read path text,
  ~ In (EWrite path text) (fst (main convert source destination dump read)).
Proof.
  intros convert source destination dump read path text. unfold main. cbv zeta. assert (N : ~ In (EWrite path text) (map EPrint (text_says cli_options (if seqb (path_suffix source) (lit ".md") then convert (newlines_only read) else newlines_only read)))) by (intros X; apply in_map_iff in X as (x & X & _); discriminate X).
  destruct (render_text cli_options _); destruct dump; cbn [fst app In]; rewrite ?in_app_iff; cbn [In]; intuition discriminate.
Qed.
(** What it does instead: it reads the source, prints it when asked to (after
    conversion from Markdown, which happens exactly when the name of the file ends
    in .md after at least one other character), prints a line for every end tag
    read that closes nothing (C78), and prints the rendering, or ends in the
    exception that rendering raises. *)
Theorem C51_printed_partial : forall convert source destination dump read text html evs fail g,
  unix_lines read text -> (is_markdown source -> html = convert text) -> (~ is_markdown source -> html = text) ->
  MarkupSpec.source html evs fail -> construct cli_options = Ok g ->
  exists done, stops g evs done /\
  main convert source destination dump read
     = (ERead source :: (if dump then [EPrint html] else []) ++ map EPrint (remarks done) ++ match render_text cli_options html with Ok page => [EPrint page] | Err _ => [] end,
        match render_text cli_options html with Ok _ => None | Err e => Some e end).
Proof.
  intros convert source destination dump read text html evs fail g R M1 M2 SO CN. apply unix_iff in R. subst text.
  assert (E : html = if seqb (path_suffix source) (lit ".md") then convert (newlines_only read) else newlines_only read).
  { destruct (seqb_spec (path_suffix source) (lit ".md")) as [D|D].
    - apply M1. now apply markdown_iff.
    - apply M2. intros K. apply D. now apply markdown_iff. }
  destruct (text_reported _ _ _ _ _ CN SO) as (done & S & T). exists done. split; [exact S|]. unfold main. cbv zeta. rewrite <- E, T.
  destruct (render_text cli_options html); cbn [app]; rewrite <- ?app_assoc, ?app_nil_r; reflexivity.
Qed.
(** So for every source and every file there is one such run. *)
Theorem C51_every_run : forall convert source read, exists text html evs fail g,
  unix_lines read text /\ (is_markdown source -> html = convert text) /\ (~ is_markdown source -> html = text)
  /\ MarkupSpec.source html evs fail /\ construct cli_options = Ok g.
Proof.
  intros convert source read.
  exists (newlines_only read), (if seqb (path_suffix source) (lit ".md") then convert (newlines_only read) else newlines_only read).
  destruct (source_some (if seqb (path_suffix source) (lit ".md") then convert (newlines_only read) else newlines_only read)) as (evs & fail & SO).
  exists evs, fail. eexists. split; [now apply unix_iff|]. split; [|split; [|split; [exact SO|reflexivity]]].
  - intros M. apply markdown_iff in M. now rewrite M, seqb_refl.
  - intros M. destruct (seqb_spec (path_suffix source) (lit ".md")) as [E|E]; auto. elim M. now apply markdown_iff.
Qed.
(** Every content and every name are covered. *)
Theorem C51_lines : forall read, exists text, unix_lines read text /\ forall text', unix_lines read text' -> text' = text.
Proof. intros read. exists (newlines_only read). split; [now apply unix_iff|]. intros t H. apply unix_iff in H. auto. Qed.
Lemma none_before : forall g a b before, feed_error_from g before (a ++ b) = None -> feed_error_from g before a = None.
Proof.
  intros g a b. induction a as [|o a IH]; intros before H; [reflexivity|]. cbn [app feed_error_from] in *.
  destruct (match o with OStart t x => start_error g (open_after before) t x | _ => None end); [discriminate H|]. now apply IH.
Qed.
(** The setup of the parser: plain text with references at the end, images in
    place, 67 columns with one blank line above and below, and the rules of
    iced_gopher after the stock ones. *)
Theorem C51_setup : exists g stock, construct cli_options = Ok g
  /\ g_format g = lit "text" /\ g_link g = lit "footer" /\ g_image g = lit "inline"
  /\ g_host g = lit "my.gopher.com" /\ g_port g = 70 /\ g_optimise g = true
  /\ b_width (g_box g) = 67 /\ b_margin (g_box g) = Sides 1 0 1 0 /\ b_padding (g_box g) = Sides 0 0 0 0 /\ b_border (g_box g) = Sides 0 0 0 0
  /\ b_total_margin (g_box g) = Sides 1 0 1 0 /\ b_total_padding (g_box g) = Sides 0 0 0 0 /\ b_total_border (g_box g) = Sides 0 0 0 0
  /\ b_ltp (g_box g) = 0 /\ b_total_ltp (g_box g) = 0
  /\ g_rules g = stock ++ rules_of theme_iced_gopher /\ length stock = length (ddel [] default_table).
Proof. eexists. exists (rules_of (ddel [] default_table)). repeat split. Qed.
(** The page: what is printed last is the page that the rules give to the tree
    that the source denotes (C74 and C70), and there is one exactly when reading
    it raises nothing and there is such a page. *)
Theorem C51_page : forall convert source destination dump read text html evs fail g page,
  unix_lines read text -> (is_markdown source -> html = convert text) -> (~ is_markdown source -> html = text) ->
  MarkupSpec.source html evs fail -> construct cli_options = Ok g ->
  main convert source destination dump read = (ERead source :: (if dump : bool then [EPrint html] else []) ++ map EPrint (remarks evs) ++ [EPrint page], None)
  <-> feed_error g evs = None /\ fail = None /\ styled_page g (tree_of evs) page.
Proof.
  intros convert source destination dump read text html evs fail g page UL M1 M2 SO CN.
  destruct (C51_printed_partial convert source destination dump read text html evs fail g UL M1 M2 SO CN) as (done & (rest & ES & FN & FF) & E). rewrite E. clear E UL M1 M2.
  rewrite (C74_render _ _ _ _ _ CN SO). pose proof (source_quiet _ _ _ SO) as NC.
  assert (ALL : feed_error g evs = None -> done = evs).
  { intros F. destruct rest as [|o r]; [now rewrite app_nil_r in ES|]. exfalso. specialize (FF o r eq_refl). apply FF. clear - F ES. subst evs.
    unfold feed_error in *. replace (done ++ o :: r) with ((done ++ [o]) ++ r) in F by now rewrite <- app_assoc. apply (none_before g _ _ [] F). }
  assert (IN : In theme_iced_gopher all_themes) by (unfold all_themes; cbn [In]; auto 10).
  pose proof (C70_theme_exact theme_iced_gopher cli_options g evs page IN eq_refl eq_refl CN NC) as X.
  clear - X ALL. revert X. generalize (render_doc cli_options evs). intros r X. destruct (feed_error g evs) as [e|]; [split; [intros H|intros [H _]]; discriminate H|].
  destruct fail as [e|]; [split; [intros H|intros (_ & H & _)]; discriminate H|]. rewrite (ALL eq_refl). destruct r as [p|e].
  - split.
    + intros H. injection H as H. apply app_inv_head in H. apply app_inv_head in H. injection H as ->. destruct (proj1 X eq_refl). auto.
    + intros (_ & _ & S). pose proof (proj2 X (conj eq_refl S)) as K. injection K as ->. reflexivity.
  - split; [intros H; discriminate H|]. intros (_ & _ & S). pose proof (proj2 X (conj eq_refl S)) as K. discriminate K.
Qed.
End P.

(** ** Cases that meet the hypotheses *)
Local Existing Instance U0.
Example run_case : exists page, main (fun x => lit "<p>" ++ x ++ lit "</p>") (lit "/tmp/a.md/.") (lit "/tmp/b") true (lit "y")
  = ([ERead (lit "/tmp/a.md/."); EPrint (lit "<p>y</p>"); EPrint page], None).
Proof. eexists. vm_compute. reflexivity. Qed.
Ltac slash_free := repeat constructor; vm_compute; intuition discriminate.
Example name_cases : is_markdown (lit "/tmp/a.md") /\ is_markdown (lit "a.md//.") /\ ~ is_markdown (lit "/tmp/.md") /\ ~ is_markdown (lit "/x.md/y").
Proof.
  split; [|split; [|split]].
  - exists (lit "a"). split; [discriminate|]. exists [[]; lit "tmp"], []. split; [|split; [|constructor]].
    + split; [discriminate|]. split; [slash_free|reflexivity].
    + intros [|]; discriminate.
  - exists (lit "a"). split; [discriminate|]. exists [], [[]; lit "."]. split; [|split].
    + split; [discriminate|]. split; [slash_free|reflexivity].
    + intros [|]; discriminate.
    + constructor; [now left|]. constructor; [now right|constructor].
  - intros K. apply markdown_iff in K. vm_compute in K. discriminate K.
  - intros K. apply markdown_iff in K. vm_compute in K. discriminate K.
Qed.
Example line_ends : unix_lines [97; 13; 10; 98; 13; 13; 10; 99; 10; 13]%N [97; 10; 98; 10; 10; 99; 10; 10]%N.
Proof. repeat (first [apply ul_crlf|apply ul_cr; [intros; discriminate|]|apply ul_char; [discriminate|]]). apply ul_end. Qed.
(** A file called just ".md" is not converted. *)
Theorem C51_hidden_refuted : exists convert source read page, (exists stem, source = stem ++ lit ".md")
  /\ convert read <> read
  /\ main convert source [] true read = ([ERead source; EPrint read; EPrint page], None).
Proof. exists (fun _ => lit "b"), (lit ".md"), (lit "a"). eexists. split; [exists []; reflexivity|]. split; [discriminate|]. vm_compute. reflexivity. Qed.
(** A source that is read without an exception, and the page. *)
Definition cli_source : str := lit "<pre class=highlight><span class=k>def</span> f</pre>".
Definition cli_calls : list op := [OStart (lit "pre") [(lit "class", Some (lit "highlight"))]; OStart (lit "span") [(lit "class", Some (lit "k"))]; OData (lit "def"); OEnd (lit "span");
  OData (lit " f"); OEnd (lit "pre")].
Example page_reads : MarkupSpec.source cli_source cli_calls None.
Proof. apply (so_read _ cli_calls None [] [] None []); read_it. Qed.
Lemma cli_runs : match main (fun x => x) (lit "a.html") [] false cli_source with ([ERead f; EPrint p], None) => seqb f (lit "a.html") && Nat.ltb 20 (length p) | _ => false end = true.
Proof. vm_compute. reflexivity. Qed.
Example page_case : exists g page, construct cli_options = Ok g /\ feed_error g cli_calls = None /\ styled_page g (tree_of cli_calls) page /\ Nat.ltb 20 (length page) = true.
Proof.
  destruct C51_setup as (g & _ & CN & _). exists g.
  assert (NM : ~ is_markdown (lit "a.html")) by (intros K; apply markdown_iff in K; vm_compute in K; discriminate K).
  assert (UL : unix_lines cli_source cli_source) by (apply unix_iff; vm_compute; reflexivity).
  pose proof (fun p => C51_page (fun x => x) (lit "a.html") [] false cli_source cli_source cli_source cli_calls None g p UL (fun _ => eq_refl) (fun _ => eq_refl) page_reads CN) as X.
  pose proof cli_runs as R. assert (Q : remarks cli_calls = []) by reflexivity. rewrite Q in X. clear Q UL NM. revert R X. generalize (main (fun x => x) (lit "a.html") [] false cli_source).
  intros [ef er] R X. destruct ef as [|e1 l]; [discriminate R|]. destruct e1 as [f| |]; try discriminate R. destruct l as [|e2 l]; [discriminate R|].
  destruct e2 as [| p |]; try discriminate R. destruct l; [|discriminate R]. destruct er; [discriminate R|].
  apply andb_prop in R as [R1 R]. apply seqb_eq in R1. subst f. destruct (proj1 (X p) eq_refl) as (A & _ & B). exists p. auto.
Qed.
(** Stray end tags are reported between the two. *)
Example stray_case : exists page, main (fun x => x) (lit "a.html") [] true (lit "<p>a</b></p></p>")
  = ([ERead (lit "a.html"); EPrint (lit "<p>a</b></p></p>"); EPrint (lit "Unsupported or mismatched end tag, ignoring: b"); EPrint (lit "Unsupported or mismatched end tag, ignoring: p"); EPrint page], None).
Proof. eexists. vm_compute. reflexivity. Qed.

Print Assumptions C51_not_written_refuted.
Print Assumptions C51_printed_partial.
Print Assumptions C51_every_run.
Print Assumptions C51_lines.
Print Assumptions C51_setup.
Print Assumptions C51_page.
Print Assumptions C51_hidden_refuted.
Close Scope Z_scope.
