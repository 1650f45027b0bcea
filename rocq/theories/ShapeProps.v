(** C70, exact: which pages are produced under rule tables of the right shape. *)
From Verif Require Import WrapFacts WrapLoop WrapWidth.
From Verif Require Import BaseFacts StrFacts SelFacts TreeFacts HistoryFacts DomFacts LineFacts BoxFacts DocFacts.
From Verif Require Import PageSpec PageRead StyleMain JudgeMain StyleProps ShapeMain ShapeCheck ShapeStock Themes Fixture.
From Verif Require Import GoodFacts.
From Verif Require Export ShapeSpec.
Open Scope Z_scope.

(** C70, every history of handler calls: rendering gives exactly the page that
    the cascade, the settings and the looks of the elements give, and fails when
    there is none or a selector raises.  The settings that reach an element must be
    of the right shape for its renderer. *)
Theorem C70_exact_page : forall `{U : Uni} o g h out,
  construct o = Ok g -> ~ In OClose h ->
  table_ok (o_renderers o) -> table_ok (o_ext o) -> shaped_page g (tree_of h) ->
  render_doc o h = Ok out <-> feed_error g h = None /\ untroubled g (tree_of h) /\ styled_page g (tree_of h) out.
Proof.
  intros U o g h out CN NC T1 T2 SHT. split.
  - intros H. unfold render_doc in H. rewrite CN in H. cbn [bind] in H. rewrite run_app in H.
    pose proof (feed_outcome g h [] pstate0 eq_refl NC) as X. fold (feed_error g h) in X. destruct (feed_error g h) as [e|]; [rewrite X in H; discriminate|]. split; auto.
    destruct X as (s & X). rewrite X in H. cbn [bind run step] in H.
    destruct (tree_of_document _ _ _ X) as [D P]. destruct (fresh_run _ _ _ X NC) as [FC FA]. pose proof (reach_wf _ _ _ X) as WF.
    assert (HA : g_ext_a g <> None) by (eapply ext_a_some; eauto).
    destruct (assign_trouble g s _ WF HA D P (p_asg s)) as [(UT & sg & AS)|(e & _ & AS)]; [|exfalso; unfold close in H; rewrite AS in H; discriminate]. split; auto.
    pose proof (proj1 (untroubled_iff _ _) UT) as [C1 C2]. pose proof (construct_built _ _ _ _ WF D P CN C1 C2 T1 T2) as BU.
    eapply (close_back g s _ sg (reach_good _ _ _ X) D P BU SHT AS FA out FC). destruct (close g s); exact H.
  - intros (FE & UT & SP). eapply C70_page; eauto.
Qed.
(** It is enough that every setting of the tables is. *)
Theorem C70_exact : forall `{U : Uni} o g h out,
  construct o = Ok g -> ~ In OClose h ->
  table_ok (o_renderers o) -> table_ok (o_ext o) -> shaped_tables g ->
  render_doc o h = Ok out <-> feed_error g h = None /\ untroubled g (tree_of h) /\ styled_page g (tree_of h) out.
Proof. intros U o g h out CN NC T1 T2 SHT. apply C70_exact_page; auto. now apply tables_page. Qed.
Theorem C70_exact_markup : forall `{U : Uni} o g doc out,
  construct o = Ok g -> Forall (wf_html false) doc ->
  table_ok (o_renderers o) -> table_ok (o_ext o) -> shaped_tables g ->
  render_doc o (flat_map events doc) = Ok out
  <-> feed_error g (flat_map events doc) = None /\ untroubled g (forest_of doc) /\ styled_page g (forest_of doc) out.
Proof.
  intros U o g doc out CN W T1 T2 SHT. rewrite <- (forest_of_tree doc W) in *. apply C70_exact; auto. apply events_no_close.
Qed.

(** ** The shipped tables *)
(** C70 for the tables that come with the renderer, whatever the other options:
    no selector raises. *)
Theorem C70_stock_exact : forall `{U : Uni} o g h out, o_renderers o = [] -> o_ext o = [] -> construct o = Ok g -> ~ In OClose h ->
  render_doc o h = Ok out <-> feed_error g h = None /\ styled_page g (tree_of h) out.
Proof.
  intros U o g h out E1 E2 CN NC.
  assert (UT : untroubled g (tree_of h)) by (apply (C70_quiet o g _ CN); rewrite ?E1, ?E2; intros ? ? ? ? ? ? []).
  rewrite C70_exact with (g := g); auto; rewrite ?E1, ?E2; try (intros ? ? ? ? []; fail); [tauto|].
  assert (S0 : match construct (with_table []) with Ok g => tables_check g | Err _ => false end = true) by (vm_compute; reflexivity).
  exact (table_shaped [] S0 o g CN E1 E2).
Qed.
(** And for each of the code themes. *)
Theorem C70_theme_exact : forall `{U : Uni} theme o g h out, In theme all_themes -> o_renderers o = theme -> o_ext o = [] -> construct o = Ok g -> ~ In OClose h ->
  render_doc o h = Ok out <-> feed_error g h = None /\ styled_page g (tree_of h) out.
Proof.
  intros U theme o g h out T E1 E2 CN NC.
  assert (A : forallb (fun t => simple_table t && keyed_check t && match construct (with_table t) with Ok g => tables_check g | Err _ => false end) all_themes = true) by (vm_compute; reflexivity).
  rewrite forallb_forall in A. specialize (A _ T). apply andb_prop in A as [A A3]. apply andb_prop in A as [A1 A2].
  assert (UT : untroubled g (tree_of h)) by (apply (C70_quiet o g _ CN); rewrite ?E1, ?E2; [now apply simple_table_quiet|intros ? ? ? ? ? ? []]).
  rewrite C70_exact with (g := g); auto; rewrite ?E1, ?E2; try (intros ? ? ? ? []); [tauto| |].
  - now apply keyed_checked.
  - eapply table_shaped; eauto.
Qed.
(** A caller's tables: a paragraph class with a frame and a margin, two rules for
    one element, a default renderer, and a link line of its own. *)
Local Existing Instance U0.
Definition own_table : table :=
  [ (lit "p.note, div > p", ([sl (SClass (el "p") (lit "note")); sl (chi (el "div") (el "p"))],
       RPair (Some ParagraphRenderer) (Some [kv "border" (VList [vs "-"; vs "|"; vs "="; vs "|"]); kv "margin" (vints [1; 0; 1; 2]); kv "justification" (vs "full")])));
    (lit "p em", ([sl (SCombined (el "p") (lit " ") (el "em"))], RPair None (Some [kv "template" (vs "<{}>"); kv "capitalized" (VBool true)])));
    (lit "h1", ([sl (el "h1")], RPair (Some HeaderRenderer) (Some [kv "underlined" (VBool true); kv "underline_char" (vs "~")])));
    (lit "", ([], RPlain (Some BlockRenderer))) ].
Definition own_options : options :=
  Options 67 (Some (root_box 30 sides0 sides0 sides0 None)) own_table [row "img" NonRenderer] (lit "text") (lit "after_block") (lit "inline") [] 70 true.
Definition T t k := HTag (lit t) [] k.
Definition C t c k := HTag (lit t) [(lit "class", Some (lit c))] k.
Definition X s := HText (lit s).
Definition own_doc : list html :=
  [T "h1" [X "Title"]; C "p" "x note" [X "some words to be laid out "; T "em" [X "inside"]; X " a frame"];
   T "div" [T "p" [X "see "; HTag (lit "a") [(lit "href", Some (lit "/x"))] [X "this"]]; T "em" [X "plain"]]; T "odd" [X "default"]].
Example own_wf : Forall (wf_html false) own_doc.
Proof. unfold own_doc, T, X, C. repeat constructor; intros; try reflexivity; discriminate. Qed.
Example own_exact : exists g out, construct own_options = Ok g
  /\ table_ok (o_renderers own_options) /\ table_ok (o_ext own_options) /\ shaped_tables g
  /\ feed_error g (flat_map events own_doc) = None /\ untroubled g (forest_of own_doc) /\ styled_page g (forest_of own_doc) out
  /\ Nat.ltb 200 (length out) = true.
Proof.
  destruct (construct own_options) as [g|e] eqn:CN; [|vm_compute in CN; discriminate].
  destruct (render_doc own_options (flat_map events own_doc)) as [out|e] eqn:R; [|vm_compute in R; discriminate].
  assert (K : table_ok (o_renderers own_options) /\ table_ok (o_ext own_options) /\ shaped_tables g).
  { split; [|split].
    - apply keyed_checked. vm_compute. reflexivity.
    - apply keyed_checked. vm_compute. reflexivity.
    - apply tables_checked. vm_compute in CN. injection CN as <-. vm_compute. reflexivity. }
  destruct K as (K3 & K4 & K5). exists g, out.
  pose proof (proj1 (C70_exact_markup own_options g own_doc out CN own_wf K3 K4 K5) R) as (FE & UT & SP).
  split; [reflexivity|]. do 6 (split; [assumption|]). vm_compute in R. injection R as <-. vm_compute. reflexivity.
Qed.
(** A theme on highlighted code. *)
Definition code_doc : list html := [C "div" "highlight" [T "pre" [C "span" "k" [X "def"]; X " "; C "span" "nf err" [X "f"]; X "()"]]].
Definition code_options : options := Options 67 None theme_autumn [] (lit "text") (lit "footer") (lit "inline") [] 70 true.
Example theme_exact : exists g out, In theme_autumn all_themes /\ construct code_options = Ok g
  /\ feed_error g (flat_map events code_doc) = None
  /\ styled_page g (tree_of (flat_map events code_doc)) out /\ Nat.ltb 50 (length out) = true.
Proof.
  destruct (construct code_options) as [g|e] eqn:CN; [|vm_compute in CN; discriminate].
  destruct (render_doc code_options (flat_map events code_doc)) as [out|e] eqn:R; [|vm_compute in R; discriminate].
  exists g, out. assert (T : In theme_autumn all_themes) by (left; reflexivity).
  pose proof (proj1 (C70_theme_exact theme_autumn code_options g _ out T eq_refl eq_refl CN (events_no_close code_doc)) R) as [FE SP].
  split; [assumption|]. split; [reflexivity|]. do 2 (split; [assumption|]). vm_compute in R. injection R as <-. vm_compute. reflexivity.
Qed.
Close Scope Z_scope.

Print Assumptions C70_exact_page.
Print Assumptions C70_exact.
Print Assumptions C70_exact_markup.
Print Assumptions C70_stock_exact.
Print Assumptions C70_theme_exact.
