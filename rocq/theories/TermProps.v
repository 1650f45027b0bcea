(** C89: on a terminal a page leaves the normal rendition behind and shows only its
    text. *)
From Verif Require Import WrapFacts WrapLoop WrapWidth.
From Verif Require Import BaseFacts StrFacts SelFacts TreeFacts HistoryFacts DomFacts LineFacts BoxFacts DocFacts.
From Verif Require Import PageSpec PageRead StyleMain JudgeMain JudgeProps StyleProps ShapeMain ShapeCheck ShapeStock ShapeProps TripProps SafeMain SafeBack SafeCheck SafeProps FitCheck TermMain TermCheck Themes Feed Fixture.
From Verif Require Export TermSpec.
Open Scope Z_scope.

(** ** Any tables *)
(** Where every element passes on the styling inside it, or has none inside: the
    terminal takes the page for text and complete control sequences, and ends as it
    started. *)
Theorem C89_page : forall `{U : Uni} o g h out,
  construct o = Ok g -> ~ In OClose h -> table_ok (o_renderers o) -> table_ok (o_ext o) -> shaped_page g (tree_of h) ->
  sane_case -> clean (g_host g) -> clean_page (tree_of h) -> tidy_page g (tree_of h) ->
  render_doc o h = Ok out ->
  exists shown, AnsiSpec.display AnsiSpec.plain out = (shown, AnsiSpec.plain) /\ WrapSpec.styled out (map fst shown).
Proof.
  intros U o g h out CN NC T1 T2 SH SC CH CP TP H. rewrite (C70_exact_page o g h out CN NC T1 T2 SH) in H. destruct H as (_ & _ & SP).
  destruct (page_well g (tree_of h) SC CH CP TP out SP) as (m & R & TI). destruct (reads_display out m R AnsiSpec.plain) as (shown & D & S0).
  exists shown. rewrite (no_more_plain _ (TI AnsiSpec.plain)) in D. auto.
Qed.
(** That can be seen from the settings alone. *)
Theorem C89_steady : forall `{U : Uni} o g h out,
  construct o = Ok g -> ~ In OClose h -> table_ok (o_renderers o) -> table_ok (o_ext o) -> shaped_page g (tree_of h) ->
  sane_case -> clean (g_host g) -> clean_page (tree_of h) -> steady_page g (tree_of h) ->
  render_doc o h = Ok out ->
  exists shown, AnsiSpec.display AnsiSpec.plain out = (shown, AnsiSpec.plain) /\ WrapSpec.styled out (map fst shown).
Proof. intros U o g h out CN NC T1 T2 SH SC CH CP SP. eapply C89_page; eauto. now apply steady_tidy. Qed.
(** Or from the tables, and where the styled elements are. *)
Theorem C89_tables : forall `{U : Uni} o g h out,
  construct o = Ok g -> ~ In OClose h -> table_ok (o_renderers o) -> table_ok (o_ext o) -> shaped_page g (tree_of h) ->
  sane_case -> clean (g_host g) -> clean_page (tree_of h) -> tidy_tables g -> kept_apart g (tree_of h) ->
  render_doc o h = Ok out ->
  exists shown, AnsiSpec.display AnsiSpec.plain out = (shown, AnsiSpec.plain) /\ WrapSpec.styled out (map fst shown).
Proof. intros U o g h out CN NC T1 T2 SH SC CH CP TT KA. eapply C89_steady; eauto. now apply tables_steady. Qed.
(** Where nothing is styled there are no control sequences. *)
Theorem C89_unstyled : forall `{U : Uni} o g h out,
  construct o = Ok g -> ~ In OClose h -> table_ok (o_renderers o) -> table_ok (o_ext o) -> shaped_page g (tree_of h) ->
  sane_case -> clean (g_host g) -> clean_page (tree_of h) -> tidy_tables g -> unstyled_page g (tree_of h) ->
  render_doc o h = Ok out -> clean out.
Proof.
  intros U o g h out CN NC T1 T2 SH SC CH CP TT UP H. rewrite (C70_exact_page o g h out CN NC T1 T2 SH) in H. destruct H as (_ & _ & SP).
  exact (page_clean g (tree_of h) SC CH TT CP UP out SP).
Qed.

(** ** The shipped tables *)
Lemma construct_host : forall o g, construct o = Ok g -> g_host g = o_host o.
Proof. intros o g H. unfold construct in H. destruct (_ && _); [discriminate|]. destruct (_ && _); [discriminate|]. cbv zeta in H. destruct (dget [] (dupdate default_table (o_renderers o))) as [[x d]|]; [|discriminate]. injection H as <-. reflexivity. Qed.
Lemma shipped_tidy : forall `{U : Uni} t o g, t = [] \/ In t all_themes -> construct o = Ok g -> o_renderers o = t -> o_ext o = [] ->
  tidy_tables g /\ apart_check g = true /\ (t = [] -> no_ansi g = true).
Proof.
  intros U t o g T CN E1 E2.
  assert (A : forallb (fun t => match construct (with_table t) with Ok g => tidy_check g && apart_check g && (match t with [] => no_ansi g | _ => true end) | Err _ => false end) ([] :: all_themes) = true) by (vm_compute; reflexivity).
  rewrite forallb_forall in A. assert (J : In t ([] :: all_themes)) by (destruct T as [->|T]; [now left|now right]). specialize (A _ J). cbv beta in A.
  destruct (construct (with_table t)) as [g'|] eqn:CN'; [|discriminate]. destruct (construct_tables _ _ _ _ CN CN') as (A1 & A2 & A3 & A4); [exact E1|exact E2|].
  apply andb_prop in A as [A A7]. apply andb_prop in A as [A5 A6].
  assert (SP : specs_of g = specs_of g' /\ list_specs_of g = list_specs_of g') by (unfold specs_of, list_specs_of; now rewrite A1, A2, A3, A4). destruct SP as [S1 S2].
  split; [apply tidy_checked; unfold tidy_check in *; now rewrite S1, S2|]. split; [unfold apart_check in *; now rewrite S2, A1, A2|]. intros ->. unfold no_ansi in *. now rewrite S1, S2.
Qed.
(** C89 for the stock rules: the page of a document without control sequences has
    none. *)
Theorem C89_stock : forall `{U : Uni} o g h out, o_renderers o = [] -> o_ext o = [] -> construct o = Ok g -> ~ In OClose h ->
  sane_case -> clean (o_host o) -> clean_page (tree_of h) -> render_doc o h = Ok out -> clean out.
Proof.
  intros U o g h out E1 E2 CN NC SC CH CP H. destruct (shipped_tables [] o g (tree_of h) (or_introl eq_refl) CN E1 E2) as (T1 & T2 & SH & _).
  destruct (shipped_tidy [] o g (or_introl eq_refl) CN E1 E2) as (TT & _ & NA). rewrite <- (construct_host o g CN) in CH.
  eapply C89_unstyled; eauto; [now apply tables_page|]. apply no_ansi_page. auto.
Qed.
(** And for each theme: coloured code leaves no colour behind, wherever nothing with
    a class is inside a heading, a paragraph, an item, a term, a definition or a link. *)
Theorem C89_theme : forall `{U : Uni} t o g h out, In t all_themes -> o_renderers o = t -> o_ext o = [] -> construct o = Ok g -> ~ In OClose h ->
  sane_case -> clean (o_host o) -> clean_page (tree_of h) -> set_apart (tree_of h) -> render_doc o h = Ok out ->
  exists shown, AnsiSpec.display AnsiSpec.plain out = (shown, AnsiSpec.plain) /\ WrapSpec.styled out (map fst shown).
Proof.
  intros U t o g h out T E1 E2 CN NC SC CH CP SA H. destruct (shipped_tables t o g (tree_of h) (or_intror T) CN E1 E2) as (T1 & T2 & SH & _).
  destruct (shipped_tidy t o g (or_intror T) CN E1 E2) as (TT & AC & _). rewrite <- (construct_host o g CN) in CH.
  eapply C89_tables; eauto; [now apply tables_page|]. now apply apart_checked.
Qed.

(** ** Pages that do not *)
Local Existing Instance U0.
Definition bold_em : table := [(lit "em", ([sl (el "em")], RPair (Some AnsiEscapeCodeRenderer) (Some [kv "bold" (VBool true)])))].
Definition bold_in (r : table) : table := bold_em ++ r.
(** A word that is longer than the line is broken inside a control sequence, and the
    rest of the sequence is shown. *)
Theorem C89_long_word_refuted : exists out, render_text (in_columns_of 3 bold_em) (lit "<p><em>abcd</em></p>") = Ok out
  /\ In 109%N (map fst (fst (AnsiSpec.display AnsiSpec.plain out))).
Proof. eexists. split; [vm_compute; reflexivity|]. vm_compute. tauto. Qed.
(** The description of a link in the list is cut, and with it the sequence that
    ends the styling: the rest of the terminal is bold. *)
Theorem C89_description_refuted : exists out, render_text (in_columns_of 40 bold_em) (lit "<p><a href='/x'><em>a long description</em></a></p>") = Ok out
  /\ AnsiSpec.st_bold (snd (AnsiSpec.display AnsiSpec.plain out)) = true.
Proof. eexists. split; [vm_compute; reflexivity|]. vm_compute. reflexivity. Qed.
(** A shipped theme does that too, with coloured code in a link. *)
Theorem C89_theme_refuted : exists out, render_text (in_columns_of 40 theme_monokai_ansi) (lit "<p class='highlight'><a href='/x'><span class='k'>a long description</span></a></p>") = Ok out
  /\ snd (AnsiSpec.display AnsiSpec.plain out) <> AnsiSpec.plain.
Proof. eexists. split; [vm_compute; reflexivity|]. vm_compute. discriminate. Qed.
(** In a heading in capitals the sequences are put in capitals: nothing is bold. *)
Theorem C89_capitals_refuted : exists out,
  render_text (in_columns_of 40 (bold_in [(lit "h1", ([sl (el "h1")], RPair (Some HeaderRenderer) (Some [kv "capitalized" (VBool true)])))])) (lit "<h1><em>ab</em></h1>") = Ok out
  /\ In 27%N out /\ forallb (fun x => negb (AnsiSpec.st_bold (snd x))) (fst (AnsiSpec.display AnsiSpec.plain out)) = true.
Proof. eexists. split; [vm_compute; reflexivity|]. split; [vm_compute; tauto|vm_compute; reflexivity]. Qed.
(** In a spread heading they are spread, and shown. *)
Theorem C89_spread_refuted : exists out,
  render_text (in_columns_of 40 (bold_in [(lit "h1", ([sl (el "h1")], RPair (Some HeaderRenderer) (Some [kv "spread" (VInt 1)])))])) (lit "<h1><em>ab</em></h1>") = Ok out
  /\ In 109%N (map fst (fst (AnsiSpec.display AnsiSpec.plain out))).
Proof. eexists. split; [vm_compute; reflexivity|]. vm_compute. tauto. Qed.

(** ** Cases that meet the hypotheses *)
Lemma u0_sane : sane_case. Proof. intros c L. split; intros [K|[]]; subst c; lia. Qed.
Lemma flat_inside : forall z y, (forall x, In x (inner_spots z) -> inner_spots x = [] /\ ~ marked x) -> inside z y -> ~ marked y.
Proof.
  intros z y H I. assert (J : In y (inner_spots z)); [|now apply H]. induction I as [|x y I IH J]; auto. destruct (H x IH) as [E _]. rewrite E in J. destruct J.
Qed.
Definition plain_spot (x : site) : bool := match x with Spot _ (Text _ _) _ :: _ => true | _ => false end.
Definition apart_here (z : site) : bool :=
  match z with Spot _ (Tag _ t _ _) _ :: _ => negb (existsb (fun n => seqb t (lit n)) laid_tags) || forallb plain_spot (inner_spots z) | _ => true end.
Lemma apart_seen : forall F, forallb apart_here (all_places [] [] F) = true -> set_apart F.
Proof.
  intros F H z y I (before & i & n & a & kids & after & up & IN & ->) IY. rewrite forallb_forall in H. specialize (H _ I). cbn [apart_here] in H.
  assert (E : existsb (fun m => seqb (lit n) (lit m)) laid_tags = true) by (apply existsb_exists; exists n; split; [exact IN|now apply seqb_eq]). rewrite E in H. cbn [negb orb] in H. rewrite forallb_forall in H.
  eapply flat_inside; [|exact IY]. intros x J. specialize (H x J). destruct x as [|[b [t0 n0 a0 k0|j s0] c] u]; try discriminate H. split; [reflexivity|]. intros (b' & i' & t' & a' & k' & f' & u' & M & _). discriminate M.
Qed.
Definition clean_treeb : tree -> bool :=
  fix go t := match t with
  | Text _ s => clean_check s
  | Tag _ _ a kids => forallb (fun p => match snd p with Some v => clean_check v | None => true end) a && forallb go kids
  end.
Fixpoint clean_seen (t : tree) : clean_treeb t = true -> clean_tree t.
Proof.
  destruct t as [i n a kids|i s]; cbn [clean_treeb clean_tree]; [|apply clean_checked]. intros H. apply andb_prop in H as [H1 H2]. split.
  - intros k v I. rewrite forallb_forall in H1. specialize (H1 _ I). cbn [snd] in H1. now apply clean_checked.
  - revert H2. induction kids as [|t kids IH]; intros H; [exact Logic.I|]. cbn [forallb] in H. apply andb_prop in H as [A B]. split; [now apply clean_seen|now apply IH].
Qed.
(** Coloured code, a heading and a paragraph. *)
Definition code_page : list op :=
  [OStart (lit "h1") []; OData (lit "T"); OEnd (lit "h1");
   OStart (lit "div") [(lit "class", Some (lit "highlight"))]; OStart (lit "pre") []; OStart (lit "span") [(lit "class", Some (lit "k"))]; OData (lit "if"); OEnd (lit "span"); OData (lit " x"); OEnd (lit "pre"); OEnd (lit "div");
   OStart (lit "p") []; OData (lit "end"); OEnd (lit "p")].
Lemma code_clean : clean_page (tree_of code_page).
Proof. unfold clean_page. apply Forall_forall. intros t I. apply clean_seen. assert (H : forallb clean_treeb (tree_of code_page) = true) by (vm_compute; reflexivity). rewrite forallb_forall in H. exact (H t I). Qed.
Lemma code_apart : set_apart (tree_of code_page). Proof. apply apart_seen. vm_compute. reflexivity. Qed.
Example theme_case : exists g out, In theme_monokai all_themes /\ construct (in_columns_of 30 theme_monokai) = Ok g /\ ~ In OClose code_page
  /\ sane_case /\ clean (o_host (in_columns_of 30 theme_monokai)) /\ clean_page (tree_of code_page) /\ set_apart (tree_of code_page)
  /\ render_doc (in_columns_of 30 theme_monokai) code_page = Ok out /\ In 27%N out.
Proof.
  destruct (construct (in_columns_of 30 theme_monokai)) as [g|] eqn:CN; [|vm_compute in CN; discriminate].
  destruct (render_doc (in_columns_of 30 theme_monokai) code_page) as [out|] eqn:RD; [|vm_compute in RD; discriminate]. exists g, out.
  split; [unfold all_themes; cbn [In]; tauto|]. split; [reflexivity|]. split; [cbn [code_page In]; intuition discriminate|]. split; [exact u0_sane|]. split; [intros []|]. split; [exact code_clean|]. split; [exact code_apart|].
  split; [reflexivity|]. vm_compute in RD. injection RD as <-. cbn [In]. tauto.
Qed.
(** Bold words in a paragraph whose words are not broken, in a quotation, on a page
    under the rules of the caller: the settings are steady everywhere. *)
Definition bold_page : list op :=
  [OStart (lit "blockquote") []; OStart (lit "p") []; OData (lit "a "); OStart (lit "em") []; OData (lit "b"); OEnd (lit "em"); OEnd (lit "p"); OEnd (lit "blockquote")].
Definition unbroken : table := bold_in [(lit "p", ([sl (el "p")], RPair (Some ParagraphRenderer) (Some [kv "break_long_words" (VBool false)])))].
Example stock_case : exists g out, construct (in_columns_of 30 []) = Ok g /\ ~ In OClose code_page /\ sane_case /\ clean (o_host (in_columns_of 30 [])) /\ clean_page (tree_of code_page)
  /\ render_doc (in_columns_of 30 []) code_page = Ok out /\ clean out.
Proof.
  destruct (construct (in_columns_of 30 [])) as [g|] eqn:CN; [|vm_compute in CN; discriminate].
  destruct (render_doc (in_columns_of 30 []) code_page) as [out|] eqn:RD; [|vm_compute in RD; discriminate]. exists g, out.
  assert (NC : ~ In OClose code_page) by (cbn [code_page In]; intuition discriminate). assert (CH : clean (o_host (in_columns_of 30 []))) by (intros []).
  repeat (split; [first [reflexivity|exact NC|exact u0_sane|exact CH|exact code_clean]|]). exact (C89_stock (in_columns_of 30 []) g code_page out eq_refl eq_refl CN NC u0_sane CH code_clean RD).
Qed.
Definition bold_config : cfg := match construct (in_columns_of 30 unbroken) with Ok g => g | Err _ => Cfg (root_box 0 sides0 sides0 sides0 None) [] [] [] [] 0 [] (RPlain None) [] None true end.
Lemma bold_built : construct (in_columns_of 30 unbroken) = Ok bold_config. Proof. vm_compute. reflexivity. Qed.
Lemma bold_tidy : tidy_tables bold_config. Proof. apply tidy_checked. vm_compute. reflexivity. Qed.
Definition here_of (ns : list string) (z : site) : bool := match z with Spot _ (Tag _ t _ _) _ :: _ => existsb (fun n => seqb t (lit n)) ns | _ => true end.
Definition paragraphb (cl : rcls) : bool := match rc_kind cl with KParagraph => forallb flow_check (class_settings cl) | _ => false end.
Lemma bold_steady : steady_page bold_config (tree_of bold_page).
Proof.
  intros listed z page cl s P G. left. destruct (given_tidy bold_config bold_tidy _ _ _ _ G) as (CS & FS & X).
  assert (HO : here_of ["blockquote"; "p"; "em"]%string z = true).
  { pose proof (placed_all _ _ _ _ _ P) as I. assert (H : forallb (here_of ["blockquote"; "p"; "em"]%string) (all_places [] [] (tree_of bold_page)) = true) by (vm_compute; reflexivity). rewrite forallb_forall in H. exact (H z I). }
  destruct z as [|[before [i t a kids|] after] up]; try contradiction. cbn [here_of] in HO. apply existsb_exists in HO as (n & IN & EN). apply seqb_eq in EN. subst t.
  destruct listed; [exfalso; pose proof (placed_link _ _ _ _ P) as L; cbn [at_link] in L; repeat destruct IN as [<-|IN]; try contradiction; vm_compute in L; discriminate L|].
  assert (CK : forallb (fun ru => match rule_renderer (ru_spec ru) with
     | Some c => flowsb (rc_kind c) || (paragraphb c && forallb (fun s => match subject (sl_tree s) with Some m => seqb m (lit "p") | None => false end) (ru_sel ru))
                 || forallb (fun s => match subject (sl_tree s) with Some m => negb (existsb (fun n => seqb m (lit n)) ["blockquote"; "p"; "em"]%string) | None => false end) (ru_sel ru)
     | None => true end) (g_rules bold_config) = true) by (vm_compute; reflexivity).
  rewrite forallb_forall in CK. cbn [given] in G. destruct G as (over & ST & S0). pose proof ST as ST'.
  destruct ST as [[(k & ru & sp & N & R & E & _) V]|[_ D]].
  - apply nth_error_In in N. specialize (CK ru N). cbv beta in CK. rewrite E in CK. apply orb_prop in CK as [CK|CK]; [apply orb_prop in CK as [CK|CK]|].
    + apply flowsb_iff in CK. apply flow_steady; auto. destruct (rc_kind cl); auto.
    + apply andb_prop in CK as [PB CK]. destruct R as (x & J & Y & _). rewrite forallb_forall in CK. specialize (CK x J). destruct (subject (sl_tree x)) as [m|] eqn:ES; [|discriminate]. pose proof (subject_judged _ _ _ _ _ _ _ _ _ Y ES) as <-. apply seqb_eq in CK. rewrite CK in *.
      unfold paragraphb in PB. destruct (rc_kind cl) eqn:EK; try discriminate. 
      assert (CF : flow_settings (class_settings cl)) by (intros key v Dk; rewrite forallb_forall in PB; exact (flow_checked (key, v) (PB _ (pair_of_key _ _ _ Dk)))).
      assert (SI : shown_inline bold_config (lit "p") = false) by (vm_compute; reflexivity). rewrite SI in S0. clear SI.
      assert (OF : flow_settings over) by (intros key v Dk; destruct (styled_from bold_config _ _ _ ST') as [_ OV]; destruct (OV key v Dk) as (r' & R' & E'); exact (proj2 (tt_rules _ bold_tidy _ _ _ R' E'))).
      destruct S0 as (under & above & CO & SS). unfold computed in CO. rewrite EK in CO. destruct CO as [-> ->].
      assert (SF : flow_settings s).
      { intros key v Dk. rewrite SS in Dk. cbn [inherited dget] in Dk. destruct (dget key over) as [w|] eqn:D2; [injection Dk as <-; exact (OF _ _ D2)|]. destruct (dget key (class_settings cl)) as [w|] eqn:D4; [injection Dk as <-; exact (CF _ _ D4)|discriminate]. }
      split; [intros v Dk; exact (CS _ _ Dk)|]. split; [intros t Dk; exact (proj1 (SF _ _ Dk) "line_template"%string t ltac:(cbn [In]; tauto) eq_refl eq_refl)|]. split.
      * assert (XC : forallb (fun ru => match rule_renderer (ru_spec ru) with Some c => negb (paragraphb c) || match dget (lit "capitalized") (class_settings c) with Some _ => true | None => false end | None => true end) (g_rules bold_config) = true) by (vm_compute; reflexivity).
        rewrite forallb_forall in XC. specialize (XC ru N). cbv beta in XC. rewrite E in XC. assert (PB' : paragraphb cl = true) by (unfold paragraphb; rewrite EK; exact PB). rewrite PB' in XC. cbn [negb orb] in XC.
        assert (Y2 : exists v, dget (lit "capitalized") s = Some v).
        { rewrite SS. cbn [inherited dget]. destruct (dget (lit "capitalized") over); [eauto|]. destruct (dget (lit "capitalized") (class_settings cl)); [eauto|discriminate]. }
        destruct Y2 as (v & Dk). exists v. split; [exact Dk|]. exact (proj1 (proj2 (SF _ _ Dk)) eq_refl).
      * right. specialize (V (lit "break_long_words")). rewrite SS. cbn [inherited dget]. destruct (dget (lit "break_long_words") over) as [v|] eqn:DO.
        -- exists v. split; [reflexivity|]. destruct V as (k' & ru' & sp' & N' & _ & E' & _). apply nth_error_In in N'.
           assert (XB : forallb (fun ru => match rule_setting (lit "break_long_words") (ru_spec ru) with Some v => negb (truth v) | None => true end) (g_rules bold_config) = true) by (vm_compute; reflexivity).
           rewrite forallb_forall in XB. specialize (XB ru' N'). cbv beta in XB. rewrite E' in XB. now apply negb_true_iff in XB.
        -- exfalso.
           assert (IR : In (Rule [sl (el "p")] (RPair (Some ParagraphRenderer) (Some [kv "break_long_words" (VBool false)]))) (g_rules bold_config)).
           { apply (nth_error_In (g_rules bold_config) 6). vm_compute. reflexivity. }
           apply In_nth_error in IR as (k' & IR). cbv beta in V.
           assert (RR : reaches [sl (el "p")] (Spot before (Tag i (lit "p") a kids) after :: up) (specificity (sl (el "p")))).
           { eexists. split; [now left|]. split; [left; auto|]. split; [reflexivity|]. intros s' [<-|[]] _. apply lex_irrefl. }
           pose proof (V _ _ _ IR RR) as W. vm_compute in W. discriminate W.
    + exfalso. destruct R as (x & J & Y & _). rewrite forallb_forall in CK. specialize (CK x J). destruct (subject (sl_tree x)) as [m|] eqn:ES; [|discriminate]. pose proof (subject_judged _ _ _ _ _ _ _ _ _ Y ES) as <-.
      apply negb_true_iff in CK. assert (B : existsb (fun n0 => seqb (lit n) (lit n0)) ["blockquote"; "p"; "em"]%string = true) by (apply existsb_exists; exists n; split; [exact IN|now apply seqb_eq]). congruence.
  - assert (E : rc_kind cl = KRenderer) by (change (g_default bold_config) with (RPlain (Some Renderer)) in D; cbn beta iota in D; destruct D as [D _]; injection D as <-; reflexivity). rewrite E in *. intros page' content. exact Logic.I.
Qed.
Example steady_case : exists g out, construct (in_columns_of 30 unbroken) = Ok g /\ ~ In OClose bold_page /\ table_ok unbroken /\ shaped_page g (tree_of bold_page)
  /\ sane_case /\ clean (g_host g) /\ clean_page (tree_of bold_page) /\ steady_page g (tree_of bold_page)
  /\ render_doc (in_columns_of 30 unbroken) bold_page = Ok out /\ In 27%N out.
Proof.
  destruct (render_doc (in_columns_of 30 unbroken) bold_page) as [out|] eqn:RD; [|vm_compute in RD; discriminate]. exists bold_config, out.
  split; [exact bold_built|]. split; [cbn [bold_page In]; intuition discriminate|]. split; [apply keyed_checked; vm_compute; reflexivity|]. split; [apply fit_page; vm_compute; reflexivity|]. split; [exact u0_sane|]. split; [intros []|].
  split; [apply Forall_forall; intros t I; apply clean_seen; assert (H : forallb clean_treeb (tree_of bold_page) = true) by (vm_compute; reflexivity); rewrite forallb_forall in H; exact (H t I)|]. split; [exact bold_steady|].
  split; [reflexivity|]. vm_compute in RD. injection RD as <-. cbn [In]. tauto.
Qed.
Close Scope Z_scope.

Print Assumptions C89_page.
Print Assumptions C89_steady.
Print Assumptions C89_tables.
Print Assumptions C89_unstyled.
Print Assumptions C89_stock.
Print Assumptions C89_theme.
Print Assumptions C89_long_word_refuted.
Print Assumptions C89_description_refuted.
Print Assumptions C89_theme_refuted.
Print Assumptions C89_capitals_refuted.
Print Assumptions C89_spread_refuted.
