(** C86: with good tables the only thing that goes wrong on a page is text without
    room, and C52 for whole documents. *)
From Verif Require Import WrapFacts WrapLoop WrapWidth.
From Verif Require Import BaseFacts StrFacts SelFacts TreeFacts HistoryFacts DomFacts LineFacts BoxFacts DocFacts.
From Verif Require Import PageSpec PageRead StyleMain JudgeMain JudgeProps StyleProps ShapeMain ShapeCheck ShapeStock ShapeProps TripProps SafeMain SafeBack SafeCheck FitCheck Themes Fixture.
From Verif Require Export SafeSpec.
Open Scope Z_scope.

(** ** Tables good for the page *)
(** Every history: where what the tables give raises nothing, rendering raises only what a handler or a
    selector raises, or what comes of text that has no room. *)
Theorem C86_only_page : forall `{U : Uni} o g h e,
  construct o = Ok g -> ~ In OClose h -> table_ok (o_renderers o) -> table_ok (o_ext o) -> shaped_page g (tree_of h) -> good_page g (tree_of h) ->
  render_doc o h = Err e ->
  feed_error g h = Some e \/ trouble g (tree_of h) e
  \/ exists listed z page, placed_in g (tree_of h) listed z page /\ cramped g listed z page e.
Proof.
  intros U o g h e CN NC T1 T2 SH GT H. rewrite (C80_exact_page o g h e CN NC T1 T2 SH) in H. destruct H as [H|[_ [H|[_ H]]]]; auto. right. right. now apply broken_cramped.
Qed.
(** Where text has no columns there is no page, whatever the tables. *)
Theorem C86_no_room_page : forall `{U : Uni} o g h listed z page,
  construct o = Ok g -> ~ In OClose h -> table_ok (o_renderers o) -> table_ok (o_ext o) -> shaped_page g (tree_of h) ->
  placed_in g (tree_of h) listed z page -> cramped g listed z page EValue ->
  exists e, render_doc o h = Err e.
Proof.
  intros U o g h listed z page CN NC T1 T2 SH P C. destruct (render_doc o h) as [out|e] eqn:E; [|eauto]. exfalso.
  rewrite (C70_exact_page o g h out CN NC T1 T2 SH) in E. destruct E as (_ & _ & E). exact (shown_not_cramped g _ out E _ _ _ P C).
Qed.
(** When moreover no text is indented, exactly then, and it is a ValueError. *)
Theorem C86_exact_page : forall `{U : Uni} o g h e,
  construct o = Ok g -> ~ In OClose h -> table_ok (o_renderers o) -> table_ok (o_ext o) -> shaped_page g (tree_of h) -> good_page g (tree_of h) -> flush_page g (tree_of h) ->
  feed_error g h = None -> untroubled g (tree_of h) ->
  render_doc o h = Err e <-> e = EValue /\ exists listed z page, placed_in g (tree_of h) listed z page /\ cramped g listed z page EValue.
Proof.
  intros U o g h e CN NC T1 T2 SH GT FT FE UT.
  assert (A : forall e, render_doc o h = Err e -> e = EValue /\ exists listed z page, placed_in g (tree_of h) listed z page /\ cramped g listed z page EValue).
  { intros e' H. destruct (C86_only_page o g h e' CN NC T1 T2 SH GT H) as [K|[(l & s & z & r & K1 & K2 & _)|(listed & z & page & P & C)]]; [congruence| |].
    - elim (UT s z e'); auto. rewrite K1. apply in_or_app. right. now left.
    - pose proof (flush_value g _ FT _ _ _ _ P C) as ->. eauto 10. }
  split; [apply A|]. intros (-> & listed & z & page & P & C). destruct (C86_no_room_page o g h listed z page CN NC T1 T2 SH P C) as (e' & E). rewrite E. now destruct (A e' E) as [-> _].
Qed.
(** So a page with room everywhere is produced. *)
Theorem C86_room_page : forall `{U : Uni} o g h,
  construct o = Ok g -> ~ In OClose h -> table_ok (o_renderers o) -> table_ok (o_ext o) -> shaped_page g (tree_of h) -> good_page g (tree_of h) ->
  feed_error g h = None -> untroubled g (tree_of h) ->
  (forall listed z page e, placed_in g (tree_of h) listed z page -> ~ cramped g listed z page e) ->
  exists out, render_doc o h = Ok out.
Proof.
  intros U o g h CN NC T1 T2 SH GT FE UT R. destruct (render_doc o h) as [out|e] eqn:E; [eauto|]. exfalso.
  destruct (C86_only_page o g h e CN NC T1 T2 SH GT E) as [K|[(l & s & z & r & K1 & K2 & _)|(listed & z & page & P & C)]]; [congruence| |exact (R _ _ _ _ P C)].
  elim (UT s z e); auto. rewrite K1. apply in_or_app. right. now left.
Qed.

(** ** Tables good for any page *)
Theorem C86_only : forall `{U : Uni} o g h e,
  construct o = Ok g -> ~ In OClose h -> table_ok (o_renderers o) -> table_ok (o_ext o) -> shaped_tables g -> good_tables g ->
  render_doc o h = Err e ->
  feed_error g h = Some e \/ trouble g (tree_of h) e
  \/ exists listed z page, placed_in g (tree_of h) listed z page /\ cramped g listed z page e.
Proof. intros U o g h e CN NC T1 T2 SH GT. apply C86_only_page; auto; [now apply tables_page|now apply good_tables_page]. Qed.
Theorem C86_no_room : forall `{U : Uni} o g h listed z page,
  construct o = Ok g -> ~ In OClose h -> table_ok (o_renderers o) -> table_ok (o_ext o) -> shaped_tables g ->
  placed_in g (tree_of h) listed z page -> cramped g listed z page EValue ->
  exists e, render_doc o h = Err e.
Proof. intros U o g h listed z page CN NC T1 T2 SH. apply C86_no_room_page; auto. now apply tables_page. Qed.
Theorem C86_exact : forall `{U : Uni} o g h e,
  construct o = Ok g -> ~ In OClose h -> table_ok (o_renderers o) -> table_ok (o_ext o) -> shaped_tables g -> good_tables g -> flush_tables g ->
  feed_error g h = None -> untroubled g (tree_of h) ->
  render_doc o h = Err e <-> e = EValue /\ exists listed z page, placed_in g (tree_of h) listed z page /\ cramped g listed z page EValue.
Proof. intros U o g h e CN NC T1 T2 SH GT FT. apply C86_exact_page; auto; [now apply tables_page|now apply good_tables_page|now apply flush_tables_page]. Qed.
Theorem C86_room : forall `{U : Uni} o g h,
  construct o = Ok g -> ~ In OClose h -> table_ok (o_renderers o) -> table_ok (o_ext o) -> shaped_tables g -> good_tables g ->
  feed_error g h = None -> untroubled g (tree_of h) ->
  (forall listed z page e, placed_in g (tree_of h) listed z page -> ~ cramped g listed z page e) ->
  exists out, render_doc o h = Ok out.
Proof. intros U o g h CN NC T1 T2 SH GT. apply C86_room_page; auto; [now apply tables_page|now apply good_tables_page]. Qed.

(** ** The shipped tables *)
Lemma table_good : forall `{U : Uni} t, (match construct (with_table t) with Ok g => tables_good_check g && flush_check g | Err _ => false end) = true ->
  forall o g, construct o = Ok g -> o_renderers o = t -> o_ext o = [] -> good_tables g /\ flush_tables g.
Proof.
  intros U t H o g CN E1 E2. destruct (construct (with_table t)) as [g'|] eqn:CN'; [|discriminate]. apply andb_prop in H as [H1 H2].
  destruct (construct_tables _ _ _ _ CN CN') as (A1 & A2 & A3 & A4); [exact E1|exact E2|]. split.
  - apply tables_good. unfold tables_good_check in *. now rewrite A1, A2, A3, A4.
  - apply flush_checked. unfold flush_check in *. now rewrite A1, A2, A3, A4.
Qed.
Lemma shipped_tables : forall `{U : Uni} t o g F, t = [] \/ In t all_themes -> construct o = Ok g -> o_renderers o = t -> o_ext o = [] ->
  table_ok (o_renderers o) /\ table_ok (o_ext o) /\ shaped_tables g /\ good_tables g /\ flush_tables g /\ untroubled g F.
Proof.
  intros U t o g F T CN E1 E2.
  assert (A : forallb (fun t => simple_table t && keyed_check t && match construct (with_table t) with Ok g => tables_check g | Err _ => false end
    && match construct (with_table t) with Ok g => tables_good_check g && flush_check g | Err _ => false end) ([] :: all_themes) = true) by (vm_compute; reflexivity).
  rewrite forallb_forall in A. assert (J : In t ([] :: all_themes)) by (destruct T as [->|T]; [now left|now right]). specialize (A _ J).
  apply andb_prop in A as [A A4]. apply andb_prop in A as [A A3]. apply andb_prop in A as [A1 A2].
  rewrite E1, E2. split; [now apply keyed_checked|]. split; [intros ? ? ? ? []|]. split; [eapply table_shaped; eauto|]. destruct (table_good t A4 o g CN E1 E2) as [G1 G2]. split; auto. split; auto.
  apply (C70_quiet o g F CN); rewrite ?E1, ?E2; [now apply simple_table_quiet|intros ? ? ? ? ? ? []].
Qed.
(** C52, every document under the stock rules and under each theme: once the
    handlers have taken it, rendering raises exactly when the text of some block
    has no columns, and then ValueError. *)
Theorem C52_document : forall `{U : Uni} t o g h e, t = [] \/ In t all_themes -> o_renderers o = t -> o_ext o = [] -> construct o = Ok g -> ~ In OClose h ->
  feed_error g h = None ->
  render_doc o h = Err e <-> e = EValue /\ exists listed z page, placed_in g (tree_of h) listed z page /\ cramped g listed z page EValue.
Proof.
  intros U t o g h e T E1 E2 CN NC FE. destruct (shipped_tables t o g (tree_of h) T CN E1 E2) as (T1 & T2 & SH & GT & FT & UT). now apply C86_exact.
Qed.

(** ** Cases that meet the hypotheses *)
Local Existing Instance U0.
(** A list in a list on a page of five columns, and on one of four: the text of
    the inner item has one column, or none. *)
Definition in_columns_of (w : Z) (t : table) : options := Options 67 (Some (root_box w sides0 sides0 sides0 None)) t [] (lit "text") (lit "footer") (lit "inline") [] 70 true.
Definition small_page : list op :=
  [OStart (lit "ul") []; OStart (lit "li") []; OData (lit "a"); OStart (lit "ul") []; OStart (lit "li") []; OData (lit "b c"); OEnd (lit "li"); OEnd (lit "ul"); OEnd (lit "li"); OEnd (lit "ul")].
Example room_case : exists g out, construct (in_columns_of 5 []) = Ok g /\ ~ In OClose small_page /\ feed_error g small_page = None /\ render_doc (in_columns_of 5 []) small_page = Ok out.
Proof. do 2 eexists. split; [vm_compute; reflexivity|]. split; [cbn [small_page In]; intuition discriminate|]. split; vm_compute; reflexivity. Qed.
Example no_room_case : exists g, construct (in_columns_of 4 theme_monokai) = Ok g /\ feed_error g small_page = None
  /\ exists listed z page, placed_in g (tree_of small_page) listed z page /\ cramped g listed z page EValue.
Proof.
  eexists. split; [vm_compute; reflexivity|]. split; [vm_compute; reflexivity|]. match goal with |- context [placed_in ?g _] => set (g0 := g) end.
  assert (T : In theme_monokai all_themes) by (unfold all_themes; cbn [In]; tauto).
  refine (proj2 (proj1 (C52_document theme_monokai (in_columns_of 4 theme_monokai) g0 small_page EValue (or_intror T) eq_refl eq_refl _ _ _) _)).
  - vm_compute. reflexivity.
  - cbn [small_page In]. intuition discriminate.
  - vm_compute. reflexivity.
  - vm_compute. reflexivity.
Qed.
(** Tables of the caller's own that are good: templates with the fields there are,
    colours there are, a link renderer for links only; and tables that are not. *)
Definition AngleLink : rcls := Rcls KLink
  [[kv "templates" (VDict [kv "inline" (VList [vs "{content}<{href}>"; vs "{title}: {content}<{href}>"]); kv "reference" (vs "{content}{link_reference}")])]; set_link; set_inline; set_renderer].
Definition good_table : table :=
  [ (lit "p.note", ([sl (SClass (el "p") (lit "note"))], RPair (Some ParagraphRenderer) (Some [kv "line_template" (vs "| {}"); kv "initial_indent" (VInt 3)])));
    (lit "p em", ([sl (SCombined (el "p") (lit " ") (el "em"))], RPair (Some AnsiEscapeCodeRenderer) (Some [kv "foreground_colour" (VTuple [VInt 1; VInt 2; VInt 3]); kv "bold" (VBool true)])));
    (lit "div a", ([sl (SCombined (el "div") (lit " ") (el "a"))], RPlain (Some AngleLink))) ].
Local Ltac in_rules := cbn [g_rules In]; repeat (first [left; reflexivity|right]).
Example good_case : forall g, construct (in_columns_of 30 good_table) = Ok g -> table_ok good_table /\ shaped_tables g /\ good_tables g /\ ~ flush_tables g.
Proof.
  intros g CN. split; [apply keyed_checked; vm_compute; reflexivity|]. split; [|split].
  - assert (H : match construct (in_columns_of 30 good_table) with Ok g => tables_check g | Err _ => false end = true) by (vm_compute; reflexivity). rewrite CN in H. now apply tables_checked.
  - assert (H : match construct (in_columns_of 30 good_table) with Ok g => tables_good_check g | Err _ => false end = true) by (vm_compute; reflexivity). rewrite CN in H. now apply tables_good.
  - intros [_ H]. assert (X : 3 <= 0); [|lia]. vm_compute in CN. injection CN as <-.
    apply (H (RPair (Some ParagraphRenderer) (Some [kv "line_template" (vs "| {}"); kv "initial_indent" (VInt 3)])) "initial_indent"%string); [|cbn; auto|vm_compute; reflexivity].
    right. exists (Rule [sl (SClass (el "p") (lit "note"))] (RPair (Some ParagraphRenderer) (Some [kv "line_template" (vs "| {}"); kv "initial_indent" (VInt 3)]))). split; [|reflexivity]. in_rules.
Qed.
(** Rules that change the templates of links and those of images, which are not
    alike: neither would do for the other, but no element gets both. *)
Definition both_table : table :=
  [ (lit "a.note", ([sl (SClass (el "a") (lit "note"))], RPair (Some LinkRenderer)
       (Some [kv "templates" (VDict [kv "inline" (VList [vs "{content}<{href}>"; vs "{title}: {content}<{href}>"]); kv "reference" (vs "{content}({link_reference})")])])));
    (lit "p img", ([sl (SCombined (el "p") (lit " ") (el "img"))], RPair (Some ImageRenderer)
       (Some [kv "templates" (VDict [kv "inline" (vs "[{title}]"); kv "reference" (vs "[{title}#{link_reference}]")])]))) ].
Example fit_case : forall g, construct (in_columns_of 30 both_table) = Ok g ->
  table_ok both_table /\ ~ shaped_tables g /\ forall F, shaped_page g F /\ good_page g F.
Proof.
  intros g CN. split; [apply keyed_checked; vm_compute; reflexivity|]. split.
  - vm_compute in CN. injection CN as <-. intros [SM _].
    destruct (SM (RPair (Some LinkRenderer) (Some [kv "templates" (VDict [kv "inline" (VList [vs "{content}<{href}>"; vs "{title}: {content}<{href}>"]); kv "reference" (vs "{content}({link_reference})")])])) LinkRenderer) as [_ H].
    + right. eexists (Rule [sl (SClass (el "a") (lit "note"))] _). split; [in_rules|reflexivity].
    + reflexivity.
    + assert (X : shape_of KLink (lit "templates") (VDict [kv "inline" (vs "[{title}]"); kv "reference" (vs "[{title}#{link_reference}]")])).
      { apply (H (RPair (Some ImageRenderer) (Some [kv "templates" (VDict [kv "inline" (vs "[{title}]"); kv "reference" (vs "[{title}#{link_reference}]")])]))); [|reflexivity].
        right. eexists (Rule [sl (SCombined (el "p") (lit " ") (el "img"))] _). split; [in_rules|reflexivity]. }
      unfold shape_of in X. cbn in X. destruct X as (d & a & b & E & E1 & (x & y & r & K & _) & _). injection E as <-. vm_compute in E1. injection E1 as <-. discriminate K.
  - intros F. apply fit_page. assert (H : match construct (in_columns_of 30 both_table) with Ok g => fit_check g | Err _ => false end = true) by (vm_compute; reflexivity). now rewrite CN in H.
Qed.
Definition bad_template : table := [(lit "em", ([sl (el "em")], RPair (Some EmRenderer) (Some [kv "template" (vs "{} {}")])))].
Definition bad_place : table := [(lit "div", ([sl (el "div")], RPlain (Some LinkRenderer)))].
Example bad_case : (forall g, construct (in_columns_of 30 bad_template) = Ok g -> ~ good_tables g) /\ (forall g, construct (in_columns_of 30 bad_place) = Ok g -> ~ good_tables g).
Proof.
  split; intros g CN GT; vm_compute in CN; injection CN as <-.
  - destruct (gt_classes _ GT (RPair (Some EmRenderer) (Some [kv "template" (vs "{} {}")])) EmRenderer) as [_ H].
    + right. exists (Rule [sl (el "em")] (RPair (Some EmRenderer) (Some [kv "template" (vs "{} {}")]))). split; [|reflexivity]. in_rules.
    + reflexivity.
    + assert (R : takes_text (lit "{} {}")).
      { specialize (H (RPair (Some EmRenderer) (Some [kv "template" (vs "{} {}")])) (lit "template") (vs "{} {}")). apply (fun K1 => H K1 eq_refl (lit "{} {}") eq_refl).
        right. exists (Rule [sl (el "em")] (RPair (Some EmRenderer) (Some [kv "template" (vs "{} {}")]))). split; [|reflexivity]. in_rules. }
      destruct (R []) as (out & E). apply FormatMain.format_ok in E. vm_compute in E. discriminate.
  - assert (X : lit "div" = lit "a").
    { eapply (gt_suits _ GT (Rule [sl (el "div")] (RPlain (Some LinkRenderer))) LinkRenderer _ [] 0%nat (lit "div") [] [] [] []).
      - in_rules.
      - reflexivity.
      - eexists. split; [now left|]. split; [left; auto|]. split; [reflexivity|]. intros s' [<-|[]] _. apply lex_irrefl. }
    vm_compute in X. discriminate.
Qed.

Print Assumptions C86_only_page.
Print Assumptions C86_only.
Print Assumptions C86_no_room_page.
Print Assumptions C86_no_room.
Print Assumptions C86_exact_page.
Print Assumptions C86_exact.
Print Assumptions C86_room_page.
Print Assumptions C86_room.
Print Assumptions C52_document.
Close Scope Z_scope.
