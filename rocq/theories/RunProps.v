(** C93: the command line tool as a whole, from arguments and file to what it prints. *)
From Verif Require Import WrapFacts WrapLoop WrapWidth.
From Verif Require Import BaseFacts StrFacts SelFacts TreeFacts HistoryFacts DomFacts LineFacts BoxFacts.
From Verif Require Import PageRead PageProps StyleSpec StyleProps ShapeProps MarkupFacts MarkupMain MarkupProps WarnFacts CliFacts CliProps SafeProps DepthProps ArgMain ArgProps RunFacts Fixture.
From Verif Require Import PieceProps TermProps WalkProps.
From Verif Require Export Args RunLimit RunSpec WalkSpec.
Open Scope Z_scope.

Lemma run_is : forall `{U : Uni} convert files argv src d dump, told negative_number argv (Given (Some src) d dump) ->
  command convert files argv = Runs (fst (main convert src [] dump (files src))) (snd (main convert src [] dump (files src))).
Proof. intros U convert files argv src d dump T. apply (C92_command convert files) in T as (s & E & H). injection E as <-. apply H. Qed.
Lemma theme_in : In theme_iced_gopher all_themes.
Proof. unfold all_themes. cbn [In]. auto 10. Qed.
Lemma not_bad : forall `{U : Uni} g evs, tool_cfg g -> (feed_error g evs = None <-> forall e, ~ first_bad evs e).
Proof.
  intros U g evs T. split.
  - intros E e B. apply (feed_is g) in B; [congruence|exact T].
  - intros H. destruct (feed_error g evs) as [e|] eqn:E; [|reflexivity]. apply (feed_is g) in E; [|exact T]. now apply H in E.
Qed.
Lemma raised_is : forall `{U : Uni} convert src dump read html, html_of convert src read html ->
  snd (main convert src [] dump read) = match render_text cli_options html with Ok _ => None | Err e => Some e end.
Proof.
  intros U convert src dump read html (text & UL & M1 & M2). destruct (source_some html) as (evs & fail & SO). destruct tool_is as (g & CN & _).
  destruct (C51_printed_partial convert src [] dump read text html evs fail g UL M1 M2 SO CN) as (done & _ & E). rewrite E. reflexivity.
Qed.
(** Every run has its HTML and its reading, so that what follows is about all runs. *)
Theorem C93_every : forall `{U : Uni} convert read src, exists html evs fail, html_of convert src read html /\ MarkupSpec.source html evs fail
  /\ forall html' evs' fail', html_of convert src read html' -> MarkupSpec.source html' evs' fail' -> html' = html /\ evs' = evs /\ fail' = fail.
Proof.
  intros U convert read src. destruct (C51_every_run convert src read) as (text & html & evs & fail & g & UL & M1 & M2 & SO & _). exists html, evs, fail. split; [exists text; auto|]. split; [exact SO|].
  intros html' evs' fail' (text' & UL' & M1' & M2') SO'. assert (text' = text) as -> by (apply unix_iff in UL; apply unix_iff in UL'; congruence).
  assert (html' = html) as ->. { destruct (seqb_spec (path_suffix src) (lit ".md")) as [D|D]; [apply markdown_iff in D; rewrite M1, M1' by exact D; reflexivity|]. assert (ND : ~ is_markdown src) by (intros K; apply D; now apply markdown_iff). rewrite M2, M2' by exact ND. reflexivity. }
  destruct (source_one _ _ _ _ _ SO SO') as [-> ->]. auto.
Qed.
(** The run prints the page exactly when the HTML is read to its end without a bad
    tag and the rules give it a page. *)
Theorem C93_prints : forall `{U : Uni} convert files argv src d dump html evs fail page,
  told negative_number argv (Given (Some src) d dump) -> html_of convert src (files src) html -> MarkupSpec.source html evs fail ->
  command convert files argv = Runs (ERead src :: (if dump then [EPrint html] else []) ++ map EPrint (remarks evs) ++ [EPrint page]) None
  <-> (forall e, ~ first_bad evs e) /\ fail = None /\ exists g, construct cli_options = Ok g /\ styled_page g (tree_of evs) page.
Proof.
  intros U convert files argv src d dump html evs fail page T (text & UL & M1 & M2) SO. rewrite (run_is convert files argv src d dump T). destruct tool_is as (g & CN & TC & _).
  rewrite <- (not_bad g evs TC). pose proof (C51_page convert src [] dump (files src) text html evs fail g page UL M1 M2 SO CN) as P. destruct (main convert src [] dump (files src)) as [l e]. cbn [fst snd]. split.
  - intros E. injection E as -> ->. destruct (proj1 P eq_refl) as (A & B & C). eauto.
  - intros (A & B & g' & CN' & C). assert (g' = g) as -> by congruence. pose proof (proj2 P (conj A (conj B C))) as E. injection E as -> ->. reflexivity.
Qed.
(** It ends with an exception exactly when there is a bad tag, or else reading the
    HTML fails, or else some text of the page has no room. *)
Theorem C93_fails : forall `{U : Uni} convert files argv src d dump html evs fail e,
  told negative_number argv (Given (Some src) d dump) -> html_of convert src (files src) html -> MarkupSpec.source html evs fail ->
  (exists l, command convert files argv = Runs l (Some e))
  <-> first_bad evs e
      \/ (forall e', ~ first_bad evs e')
         /\ (fail = Some e
             \/ fail = None /\ e = EValue
                /\ exists g listed z page, construct cli_options = Ok g /\ placed_in g (tree_of evs) listed z page /\ cramped g listed z page EValue).
Proof.
  intros U convert files argv src d dump html evs fail e T HO SO. rewrite (run_is convert files argv src d dump T). destruct tool_is as (g & CN & TC & _).
  rewrite (raised_is convert src dump (files src) html HO).
  assert (X : (exists l, Runs (fst (main convert src [] dump (files src))) (match render_text cli_options html with Ok _ => None | Err e0 => Some e0 end) = Runs l (Some e)) <-> render_text cli_options html = Err e).
  { destruct (render_text cli_options html) as [p|x]; split; try discriminate; try (intros (l & E); discriminate E); [intros (l & E); injection E as _ ->; reflexivity|intros E; injection E as ->; eauto]. }
  rewrite X, (C52_source theme_iced_gopher cli_options g html e (or_intror theme_in) eq_refl eq_refl CN). split.
  - intros (evs' & fail' & SO' & H). destruct (source_one _ _ _ _ _ SO' SO) as [-> ->]. rewrite (feed_is g evs e TC), (not_bad g evs TC) in H. destruct H as [H|(H & [K|(K & E & listed & z & page & P & C)])]; [auto|auto|]. right. split; [exact H|]. right. split; [exact K|]. split; [exact E|]. exists g, listed, z, page. auto.
  - intros H. exists evs, fail. split; [exact SO|]. rewrite (feed_is g evs e TC), (not_bad g evs TC). destruct H as [H|(H & [K|(K & E & g' & listed & z & page & CN' & P & C)])]; [auto|auto|]. assert (g' = g) as -> by congruence. right. split; [exact H|]. right. split; [exact K|]. split; [exact E|]. exists listed, z, page. auto.
Qed.
(** No other exceptions than these. *)
Theorem C93_exceptions : forall `{U : Uni} convert files argv l e, command convert files argv = Runs l (Some e) -> e = EAttr \/ e = EValue \/ e = EAssert.
Proof.
  intros U convert files argv l e H. destruct (parse_args argv) as [s d dump| |] eqn:PA; [|unfold command in H; rewrite PA in H; discriminate H|unfold command in H; rewrite PA in H; discriminate H].
  apply C92_told in PA. destruct (C92_command convert files argv _ PA) as (src & -> & _). destruct (C93_every convert (files src) src) as (html & evs & fail & HO & SO & _).
  destruct (proj1 (C93_fails convert files argv src d dump html evs fail e PA HO SO) (ex_intro _ l H)) as [(b & o & a & _ & _ & B)|(_ & [->|(_ & -> & _)])]; [apply bad_raises in B as [->| ->]; auto|apply source_fails in SO as [->| ->]; auto|auto].
Qed.
(** A document that is nested less deep than 67 columns is printed. *)
Theorem C93_fits : forall `{U : Uni} convert files argv src d dump html evs,
  told negative_number argv (Given (Some src) d dump) -> html_of convert src (files src) html -> MarkupSpec.source html evs None ->
  (forall e, ~ first_bad evs e) -> shallow (tree_of evs) 67 ->
  exists page, command convert files argv = Runs (ERead src :: (if dump then [EPrint html] else []) ++ map EPrint (remarks evs) ++ [EPrint page]) None.
Proof.
  intros U convert files argv src d dump html evs T HO SO NB SH. destruct tool_is as (g & CN & TC & W). pose proof (source_quiet _ _ _ SO) as NC. apply (not_bad g evs TC) in NB as FE.
  destruct (C52_depth theme_iced_gopher cli_options g evs (or_intror theme_in) eq_refl eq_refl CN NC FE) as (page & R); [now rewrite W|]. exists page.
  apply (C93_prints convert files argv src d dump html evs None page T HO SO). split; [exact NB|]. split; [reflexivity|]. exists g. split; [exact CN|].
  now apply (C70_theme_exact theme_iced_gopher cli_options g evs page theme_in eq_refl eq_refl CN NC) in R.
Qed.
(** So every file of text without < and & that is not Markdown is printed, whatever
    else it holds; the flag prints it as it is first. *)
Theorem C93_text : forall `{U : Uni} convert files argv src d dump text,
  told negative_number argv (Given (Some src) d dump) -> ~ is_markdown src -> unix_lines (files src) text -> ~ In 60%N text -> ~ In 38%N text ->
  exists page, command convert files argv = Runs (ERead src :: (if dump then [EPrint text] else []) ++ [EPrint page]) None.
Proof.
  intros U convert files argv src d dump text T NM UL N1 N2. assert (HO : html_of convert src (files src) text) by (exists text; split; [exact UL|split; [contradiction|auto]]).
  destruct text as [|c r] eqn:ET.
  - destruct (C93_fits convert files argv src d dump [] [] T HO nothing_source) as (page & E); [intros e (b & o & a & Q & _); destruct b; discriminate|intros z []|]. exists page. exact E.
  - destruct (C93_fits convert files argv src d dump (c :: r) [OData (c :: r)] T HO) as (page & E); [apply plain_source; auto; discriminate| | |exists page; exact E].
    + intros e (b & o & a & Q & _ & B). destruct b as [|x b]; [injection Q as <- _; exact B|injection Q as _ Q; destruct b; discriminate Q].
    + intros z J. cbn in J. destruct J as [<-|[]]. cbn. lia.
Qed.

(** What it leaves behind on a terminal: if the HTML has no ESC of its own and nothing with a class is inside a heading, paragraph, item, term, definition
    or link, the page ends in the style it began with. *)
Theorem C93_terminal : forall `{U : Uni} convert files argv src d dump html evs page,
  told negative_number argv (Given (Some src) d dump) -> html_of convert src (files src) html -> MarkupSpec.source html evs None ->
  sane_case -> ~ In 27%N html -> set_apart (tree_of evs) ->
  command convert files argv = Runs (ERead src :: (if dump then [EPrint html] else []) ++ map EPrint (remarks evs) ++ [EPrint page]) None ->
  exists shown, AnsiSpec.display AnsiSpec.plain page = (shown, AnsiSpec.plain) /\ WrapSpec.styled page (map fst shown).
Proof.
  intros U convert files argv src d dump html evs page T HO SO SC CH SA E. apply (C93_prints convert files argv src d dump html evs None page T HO SO) in E as (NB & _ & g & CN & SP).
  destruct tool_is as (g' & CN' & TC & _). assert (g' = g) as -> by congruence. apply (not_bad g evs TC) in NB. pose proof (source_quiet _ _ _ SO) as NC.
  assert (R : render_doc cli_options evs = Ok page) by (apply (C70_theme_exact theme_iced_gopher cli_options g evs page theme_in eq_refl eq_refl CN NC); auto).
  refine (C89_theme_source theme_iced_gopher cli_options html evs page theme_in eq_refl eq_refl SC _ CH SO SA _); [vm_compute; intuition discriminate|]. rewrite (C74_render _ _ _ _ _ CN SO), NB. exact R.
Qed.

(** ** The limit on nested calls *)
Lemma html_is : forall `{U : Uni} convert src read html, html_of convert src read html -> html = if seqb (path_suffix src) (lit ".md") then convert (newlines_only read) else newlines_only read.
Proof.
  intros U convert src read html (text & UL & M1 & M2). apply unix_iff in UL. subst text. destruct (seqb_spec (path_suffix src) (lit ".md")) as [D|D]; [apply M1; now apply markdown_iff|apply M2; intros K; apply D; now apply markdown_iff].
Qed.
(** A document that is nested less deep than there are calls left: as without a limit. *)
Theorem C93_within : forall `{U : Uni} frames convert files argv src d dump html evs fail,
  told negative_number argv (Given (Some src) d dump) -> html_of convert src (files src) html -> MarkupSpec.source html evs fail ->
  (nesting (tree_of evs) < frames)%nat -> command_within frames convert files argv = Ends (command convert files argv).
Proof.
  intros U frames convert files argv src d dump html evs fail T HO SO L. rewrite (run_is convert files argv src d dump T). apply C92_told in T. unfold command_within, main. rewrite T. cbv zeta. rewrite <- (html_is convert src (files src) html HO).
  rewrite (C91_text cli_options html evs fail frames SO L). destruct (render_text cli_options html); reflexivity.
Qed.
(** Without a file to read the limit does not matter. *)
Theorem C93_no_file : forall `{U : Uni} frames convert files argv,
  (forall src d dump, ~ told negative_number argv (Given (Some src) d dump)) -> command_within frames convert files argv = Ends (command convert files argv).
Proof.
  intros U frames convert files argv H. unfold command_within, command. destruct (parse_args argv) as [[src|] d dump| |] eqn:E; try reflexivity.
  exfalso. apply (H src d dump). apply C92_told. exact E.
Qed.
(** Otherwise RecursionError, unless something else stops it before; everything but
    the page has been printed then. *)
Theorem C93_too_deep : forall `{U : Uni} frames convert files argv src d dump html evs fail,
  told negative_number argv (Given (Some src) d dump) -> html_of convert src (files src) html -> MarkupSpec.source html evs fail ->
  ((exists l, command_within frames convert files argv = EndsTooDeep l) <-> (forall e, ~ first_bad evs e) /\ fail = None /\ (frames <= nesting (tree_of evs))%nat)
  /\ forall l, command_within frames convert files argv = EndsTooDeep l -> l = ERead src :: (if dump then [EPrint html] else []) ++ map EPrint (remarks evs).
Proof.
  intros U frames convert files argv src d dump html evs fail T HO SO. apply C92_told in T. unfold command_within. rewrite T. cbv zeta. rewrite <- (html_is convert src (files src) html HO). destruct tool_is as (g & CN & TC & _).
  pose proof (C91_text_deep theme_iced_gopher cli_options g html evs fail frames (or_intror theme_in) eq_refl eq_refl CN SO) as D. rewrite (not_bad g evs TC) in D.
  destruct (render_text_within frames cli_options html) as [[p|e]|]; (split; [|intros l E; try discriminate E]).
  1,2: split; [intros (l & E); discriminate E|intros H; apply D in H; discriminate H].
  - split; [intros _; now apply D|eauto].
  - injection E as <-. cbn [app]. f_equal. f_equal. f_equal. destruct (proj1 D eq_refl) as (NB & _). apply (not_bad g evs TC) in NB.
    destruct (text_reported _ _ _ _ _ CN SO) as (done & (rest & ES & FN & FF) & TS). rewrite TS. f_equal. destruct rest as [|o r]; [now rewrite app_nil_r in ES|]. exfalso. apply (FF o r eq_refl). subst evs. replace (done ++ o :: r) with ((done ++ [o]) ++ r) in NB by now rewrite <- app_assoc. exact (none_before g _ _ [] NB).
Qed.

(** ** Cases that meet the hypotheses *)
Section Cases.
Local Existing Instance U0.
Example C93_plain_case : told negative_number [lit "-d"; lit "a.txt"; lit "b"] (Given (Some (lit "a.txt")) (Some (lit "b")) true) /\ ~ is_markdown (lit "a.txt") /\ unix_lines (lit "Hi") (lit "Hi").
Proof.
  split; [apply C92_told; vm_compute; reflexivity|]. split; [intros K; apply markdown_iff in K; vm_compute in K; discriminate K|]. apply unix_iff. vm_compute. reflexivity.
Qed.
(** One run for each exception: a class without value, an address that cannot be
    read, a marked section that is none. *)
Definition exception_of (html : str) : option exn := match command (fun s => s) (fun _ => html) [lit "a.html"; lit "b"] with Runs _ e => e | Exits _ => None end.
Example C93_three : exception_of (lit "<p>x<i class>y") = Some EAttr /\ exception_of (lit "<a href='http://[x'>y</a>") = Some EValue /\ exception_of (lit "<![x y]>") = Some EAssert /\ exception_of (lit "<p>x") = None.
Proof. repeat split; vm_compute; reflexivity. Qed.
Example C93_bad_case : first_bad [OStart (lit "p") []; OStart (lit "i") [(lit "class", None)]] EAttr.
Proof. exists [OStart (lit "p") []], (OStart (lit "i") [(lit "class", None)]), []. split; [reflexivity|]. split; [|left; split; reflexivity]. intros o e [<-|[]] [[H _]|[(_ & H & _)|(_ & H & _)]]; vm_compute in H; discriminate H. Qed.
(** Three levels: four calls are enough, three are not. *)
Example C93_limit_case : (exists x, command_within 4 (fun s => s) (fun _ => lit "<ul><li>x") [lit "a.html"; lit "b"] = Ends x) /\ command_within 3 (fun s => s) (fun _ => lit "<ul><li>x") [lit "a.html"; lit "b"] = EndsTooDeep [ERead (lit "a.html")].
Proof. split; [eexists|]; vm_compute; reflexivity. Qed.
(** Arguments that name no file. *)
Example C93_no_file_case : forall src d dump, ~ told negative_number [lit "-h"] (Given (Some src) d dump).
Proof. intros src d dump H. apply C92_told in H. vm_compute in H. discriminate H. Qed.
End Cases.
Close Scope Z_scope.
Print Assumptions C93_every.
Print Assumptions C93_prints.
Print Assumptions C93_fails.
Print Assumptions C93_exceptions.
Print Assumptions C93_fits.
Print Assumptions C93_text.
Print Assumptions C93_terminal.
Print Assumptions C93_within.
Print Assumptions C93_no_file.
Print Assumptions C93_too_deep.
