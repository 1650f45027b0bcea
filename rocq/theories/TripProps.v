(** C80: exactly which exception is raised, and when. *)
From Verif Require Import WrapFacts WrapLoop WrapWidth.
From Verif Require Import BaseFacts StrFacts SelFacts TreeFacts HistoryFacts DomFacts LineFacts BoxFacts DocFacts.
From Verif Require Import PageSpec PageRead StyleMain JudgeMain JudgeProps StyleProps ShapeMain ShapeCheck ShapeStock ShapeProps OwnProps TripMain Themes MarkupSpec MarkupFacts MarkupMain MarkupProps Fixture.
From Verif Require Import GoodFacts.
From Verif Require Export TripSpec ShapeSpec.
Open Scope Z_scope.

(** C80, every history of handler calls, where the settings that reach an element are
    of the right shape for its renderer: rendering raises [e] exactly when a handler does, or the first selector
    to raise does, or the first place of the page where something goes wrong
    does. *)
Theorem C80_exact_page : forall `{U : Uni} o g h e,
  construct o = Ok g -> ~ In OClose h ->
  table_ok (o_renderers o) -> table_ok (o_ext o) -> shaped_page g (tree_of h) ->
  render_doc o h = Err e <->
    feed_error g h = Some e
    \/ (feed_error g h = None /\ (trouble g (tree_of h) e \/ (untroubled g (tree_of h) /\ broken_page g (tree_of h) e))).
Proof.
  intros U o g h e CN NC T1 T2 SHT. unfold render_doc. rewrite CN. cbn [bind]. rewrite run_app.
  pose proof (feed_outcome g h [] pstate0 eq_refl NC) as X. fold (feed_error g h) in X. destruct (feed_error g h) as [e0|] eqn:FE.
  { rewrite X. cbn [bind]. split; [intros H; left; congruence|intros [H|[H _]]; [congruence|discriminate]]. }
  destruct X as (s & X). rewrite X. cbn [bind run step].
  destruct (tree_of_document _ _ _ X) as [D P]. destruct (fresh_run _ _ _ X NC) as [FC FA]. pose proof (reach_wf _ _ _ X) as WF.
  assert (HA : g_ext_a g <> None) by (eapply ext_a_some; eauto).
  destruct (assign_trouble g s _ WF HA D P (p_asg s)) as [(UT & sg & AS)|(e1 & TR & AS)].
  - pose proof (proj1 (untroubled_iff _ _) UT) as [C1 C2]. pose proof (construct_built _ _ _ _ WF D P CN C1 C2 T1 T2) as BU.
    assert (NT : forall e', ~ trouble g (tree_of h) e').
    { intros e' (l & s0 & z & r & E1 & E2 & _). eapply (UT s0 z e'); [|exact E2]. rewrite E1. apply in_or_app. right. now left. }
    destruct (page_or g s _ (reach_good _ _ _ X) D BU SHT) as [(out & SP)|(ex & BP)].
    + pose proof (close_styled g s _ sg (reach_good _ _ _ X) D P BU AS FA out FC SP) as Q.
      split; [intros H; destruct (close g s); cbn [bind] in *; congruence|]. intros [H|[_ [H|[_ H]]]]; [discriminate|elim (NT _ H)|].
      rewrite (close_breaks g s _ sg (reach_good _ _ _ X) D P BU AS FA e H) in Q. discriminate.
    + pose proof (close_breaks g s _ sg (reach_good _ _ _ X) D P BU AS FA ex BP) as Q. rewrite Q. cbn [bind]. split.
      * intros H. assert (e = ex) by congruence. subst. right. auto.
      * intros [H|[_ [H|[_ H]]]]; [discriminate|elim (NT _ H)|]. rewrite (close_breaks g s _ sg (reach_good _ _ _ X) D P BU AS FA e H) in Q. congruence.
  - assert (Q : close g s = Err e1) by (unfold close; cbv zeta; now rewrite AS). rewrite Q. cbn [bind]. split.
    + intros H. assert (e = e1) by congruence. subst. right. auto.
    + intros [H|[_ [H|[H _]]]]; [discriminate| |exfalso].
      * pose proof (C75_raises o g h e CN NC FE H) as R. unfold render_doc in R. rewrite CN in R. cbn [bind] in R. rewrite run_app, X in R. cbn [bind run step] in R. rewrite Q in R. exact R.
      * destruct TR as (l & s0 & z & r & E1 & E2 & _). eapply (H s0 z e1); [|exact E2]. rewrite E1. apply in_or_app. right. now left.
Qed.
(** It is enough that every setting of the tables is. *)
Theorem C80_exact : forall `{U : Uni} o g h e,
  construct o = Ok g -> ~ In OClose h ->
  table_ok (o_renderers o) -> table_ok (o_ext o) -> shaped_tables g ->
  render_doc o h = Err e <->
    feed_error g h = Some e
    \/ (feed_error g h = None /\ (trouble g (tree_of h) e \/ (untroubled g (tree_of h) /\ broken_page g (tree_of h) e))).
Proof. intros U o g h e CN NC T1 T2 SHT. apply C80_exact_page; auto. now apply tables_page. Qed.

Theorem C80_exact_markup : forall `{U : Uni} o g doc e,
  construct o = Ok g -> Forall (wf_html false) doc ->
  table_ok (o_renderers o) -> table_ok (o_ext o) -> shaped_tables g ->
  render_doc o (flat_map events doc) = Err e <->
    feed_error g (flat_map events doc) = Some e
    \/ (feed_error g (flat_map events doc) = None
        /\ (trouble g (forest_of doc) e \/ (untroubled g (forest_of doc) /\ broken_page g (forest_of doc) e))).
Proof.
  intros U o g doc e CN W T1 T2 SHT. rewrite <- (forest_of_tree doc W) in *. apply C80_exact; auto. apply events_no_close.
Qed.

(** C80: whatever the source text, what is rendered is the page, and what is
    raised is the exception, that the specifications of reading, of the page and
    of what goes wrong give. *)
Theorem C80_source_page : forall `{U : Uni} o g src out,
  construct o = Ok g -> table_ok (o_renderers o) -> table_ok (o_ext o) -> (forall evs, source src evs None -> shaped_page g (tree_of evs)) ->
  render_text o src = Ok out <->
    exists evs, source src evs None /\ feed_error g evs = None /\ untroubled g (tree_of evs) /\ styled_page g (tree_of evs) out.
Proof.
  intros U o g src out CN T1 T2 SHT. split.
  - intros H. destruct (C74_source src) as (evs & fail & SO & _). rewrite (C74_render o g src evs fail CN SO) in H.
    destruct (feed_error g evs) as [x|] eqn:FE; [discriminate|]. destruct fail as [x|]; [discriminate|]. exists evs. split; auto.
    apply (C70_exact_page o g evs out CN) in H; auto. eapply source_quiet; eauto.
  - intros (evs & SO & FE & UT & SP). rewrite (C74_render o g src evs None CN SO), FE. apply (C70_exact_page o g evs out CN); auto. eapply source_quiet; eauto.
Qed.
Theorem C80_source_raises_page : forall `{U : Uni} o g src e,
  construct o = Ok g -> table_ok (o_renderers o) -> table_ok (o_ext o) -> (forall evs, source src evs None -> shaped_page g (tree_of evs)) ->
  render_text o src = Err e <->
    exists evs fail, source src evs fail /\
      (feed_error g evs = Some e
       \/ feed_error g evs = None /\
          (fail = Some e
           \/ fail = None /\ (trouble g (tree_of evs) e \/ untroubled g (tree_of evs) /\ broken_page g (tree_of evs) e))).
Proof.
  intros U o g src e CN T1 T2 SHT. split.
  - intros H. destruct (C74_source src) as (evs & fail & SO & _). rewrite (C74_render o g src evs fail CN SO) in H. exists evs, fail. split; auto.
    destruct (feed_error g evs) as [x|] eqn:FE; [left; congruence|]. right. split; auto. destruct fail as [x|]; [left; congruence|]. right. split; auto.
    apply (C80_exact_page o g evs e CN) in H; auto; [|eapply source_quiet; eauto]. rewrite FE in H. destruct H as [H|[_ H]]; [discriminate|exact H].
  - intros (evs & fail & SO & H). rewrite (C74_render o g src evs fail CN SO). destruct H as [FE|(FE & H)]; rewrite FE; auto. destruct H as [->|(-> & H)]; auto.
    apply (C80_exact_page o g evs e CN); auto. eapply source_quiet; eauto.
Qed.
Theorem C80_source : forall `{U : Uni} o g src out,
  construct o = Ok g -> table_ok (o_renderers o) -> table_ok (o_ext o) -> shaped_tables g ->
  render_text o src = Ok out <->
    exists evs, source src evs None /\ feed_error g evs = None /\ untroubled g (tree_of evs) /\ styled_page g (tree_of evs) out.
Proof. intros U o g src out CN T1 T2 SHT. apply C80_source_page; auto. intros. now apply tables_page. Qed.
Theorem C80_source_raises : forall `{U : Uni} o g src e,
  construct o = Ok g -> table_ok (o_renderers o) -> table_ok (o_ext o) -> shaped_tables g ->
  render_text o src = Err e <->
    exists evs fail, source src evs fail /\
      (feed_error g evs = Some e
       \/ feed_error g evs = None /\
          (fail = Some e
           \/ fail = None /\ (trouble g (tree_of evs) e \/ untroubled g (tree_of evs) /\ broken_page g (tree_of evs) e))).
Proof. intros U o g src e CN T1 T2 SHT. apply C80_source_raises_page; auto. intros. now apply tables_page. Qed.
(** C80: with the renderers of the library no selector raises. *)
Theorem C80_stock : forall `{U : Uni} o g src e,
  o_renderers o = [] -> o_ext o = [] -> construct o = Ok g ->
  render_text o src = Err e <->
    exists evs fail, source src evs fail /\
      (feed_error g evs = Some e
       \/ feed_error g evs = None /\ (fail = Some e \/ fail = None /\ broken_page g (tree_of evs) e)).
Proof.
  intros U o g src e E1 E2 CN.
  assert (UT : forall evs, untroubled g (tree_of evs)) by (intros evs; apply (C70_quiet o g _ CN); rewrite ?E1, ?E2; intros ? ? ? ? ? ? []).
  assert (S0 : match construct (with_table []) with Ok g => tables_check g | Err _ => false end = true) by (vm_compute; reflexivity).
  rewrite C80_source_raises with (g := g); auto; rewrite ?E1, ?E2; try (intros ? ? ? ? []; fail); [|exact (table_shaped [] S0 o g CN E1 E2)].
  split; intros (evs & fail & SO & H); exists evs, fail; (split; [exact SO|]); destruct H as [H|(FE & [H|(H & B)])]; auto; right; (split; [exact FE|]); right; (split; [exact H|]); [|now right].
  destruct B as [(l & s & z & r & X1 & X2 & _)|[_ B]]; auto. exfalso. eapply (UT evs s z e); [|exact X2]. rewrite X1. apply in_or_app. right. now left.
Qed.

(** ** Examples *)
Local Existing Instance U0.
Definition bad_options (t : table) (ext : table) : options := Options 67 None t ext (lit "text") (lit "footer") (lit "inline") [] 70 true.
(** Everything that C80 asks for, and the exception of a broken page. *)
Definition a_case (o : options) (doc : list html) (e : exn) : Prop :=
  exists g, construct o = Ok g /\ Forall (wf_html false) doc /\ table_ok (o_renderers o) /\ table_ok (o_ext o) /\ shaped_tables g
    /\ feed_error g (flat_map events doc) = None /\ untroubled g (forest_of doc) /\ broken_page g (forest_of doc) e.
Definition case_check (o : options) (doc : list html) (e : exn) : bool :=
  match construct o with
  | Ok g => keyed_check (o_renderers o) && keyed_check (o_ext o) && tables_check g && simple_table (o_renderers o) && simple_table (o_ext o)
            && match render_doc o (flat_map events doc) with
               | Err x => match x, e with
                          | EValue, EValue | EType, EType | EKey, EKey | EIndex, EIndex | EAttr, EAttr => true
                          | _, _ => false
                          end
               | Ok _ => false
               end
            && match feed_error g (flat_map events doc) with None => true | _ => false end
  | Err _ => false
  end.
Lemma case_checked : forall o doc e, Forall (wf_html false) doc -> case_check o doc e = true -> a_case o doc e.
Proof.
  intros o doc e W H. unfold case_check in H. destruct (construct o) as [g|] eqn:CN; [|discriminate]. repeat (apply andb_prop in H as [H ?]).
  assert (K1 : table_ok (o_renderers o)) by (now apply keyed_checked). assert (K2 : table_ok (o_ext o)) by (now apply keyed_checked).
  assert (K3 : shaped_tables g) by (now apply tables_checked). exists g. do 5 (split; auto).
  destruct (feed_error g (flat_map events doc)) eqn:FE; [discriminate|]. split; auto.
  assert (UT : untroubled g (forest_of doc)) by (apply (C70_quiet o g _ CN); now apply simple_table_quiet). split; auto.
  assert (R : render_doc o (flat_map events doc) = Err e) by (destruct (render_doc o (flat_map events doc)) as [|x]; [discriminate|]; f_equal; destruct x, e; try discriminate; reflexivity).
  apply (C80_exact_markup o g doc e CN W K1 K2 K3) in R. destruct R as [R|[_ [R|[_ R]]]]; [congruence| |exact R]. exfalso.
  destruct R as (l & s & z & r & X1 & X2 & _). eapply (UT s z e); [|exact X2]. rewrite X1. apply in_or_app. right. now left.
Qed.
Ltac a_doc := repeat constructor; intros; try reflexivity; discriminate.
Local Notation T t k := (HTag (lit t) [] k).
Local Notation X s := (HText (lit s)).
(** A template with more places than texts, one with a name that is not given,
    and one with a number too large for an index. *)
Example two_places : a_case (bad_options [(lit "em", ([sl (el "em")], RPair (Some EmRenderer) (Some [kv "template" (vs "{}-{}")])))] []) [T "p" [X "a "; T "em" [X "b"]]] EIndex.
Proof. apply case_checked; [a_doc|vm_compute; reflexivity]. Qed.
Example named_place : a_case (bad_options [(lit "em", ([sl (el "em")], RPair (Some EmRenderer) (Some [kv "template" (vs "{}{x}")])))] []) [T "p" [X "a "; T "em" [X "b"]]] EKey.
Proof. apply case_checked; [a_doc|vm_compute; reflexivity]. Qed.
Example large_place : a_case (bad_options [(lit "em", ([sl (el "em")], RPair (Some EmRenderer) (Some [kv "template" (vs "{9223372036854775808}")])))] []) [T "p" [X "a "; T "em" [X "b"]]] EValue.
Proof. apply case_checked; [a_doc|vm_compute; reflexivity]. Qed.
(** Markdown headings for tags that say no level. *)
Example no_level : a_case (bad_options [(lit "em", ([sl (el "em")], RPlain (Some MarkdownHeaderRenderer)))] []) [T "p" [X "a "; T "em" [X "b"]]] EValue.
Proof. apply case_checked; [a_doc|vm_compute; reflexivity]. Qed.
Example no_level_at_all : a_case (bad_options [(lit "p", ([sl (el "p")], RPlain (Some MarkdownHeaderRenderer)))] []) [T "p" [X "a"]] EIndex.
Proof. apply case_checked; [a_doc|vm_compute; reflexivity]. Qed.
(** A default that is no renderer, for an element that no rule reaches. *)
Example no_renderer : a_case (bad_options [(lit "", ([], RPlain None))] []) [T "p" [X "a "; T "odd" [X "b"]]] EType.
Proof. apply case_checked; [a_doc|vm_compute; reflexivity]. Qed.
(** Renderers of links on what is not a link. *)
Example not_a_link : a_case (bad_options [(lit "em", ([sl (el "em")], RPlain (Some LinkRenderer)))] []) [T "p" [X "a "; T "em" [X "b"]]] EKey.
Proof. apply case_checked; [a_doc|vm_compute; reflexivity]. Qed.
(** A page too narrow for its frame. *)
Example too_narrow : a_case (Options 67 (Some (root_box 4 sides0 sides0 sides0 None)) [(lit "p", ([sl (el "p")], RPair (Some ParagraphRenderer) (Some [kv "padding" (vints [0; 2; 0; 2])])))] [] (lit "text") (lit "footer") (lit "inline") [] 70 true)
  [T "p" [X "a"]] EValue.
Proof. apply case_checked; [a_doc|vm_compute; reflexivity]. Qed.
(** A list of links whose default is written without settings: listing one raises. *)
Example no_list : a_case (bad_options [] [(lit "a", ([sl (el "odd")], RPlain (Some NonRenderer)))]) [T "p" [HTag (lit "a") [(lit "href", Some (lit "/x"))] [X "b"]]] EAttr.
Proof. apply case_checked; [a_doc|vm_compute; reflexivity]. Qed.
(** The label of a numbered item. *)
Example bad_label : a_case (bad_options [(lit "step", ([sl (el "step")], RPlain (Some (Rcls KOrdered ([kv "line_template" (vs "{}. {} {}")] :: rc_mro OrderedListItemRenderer)))))] []) [T "div" [T "step" [X "a"]]] EIndex.
Proof. apply case_checked; [a_doc|vm_compute; reflexivity]. Qed.
(** The method of a class written by the caller. *)
Example own_method : a_case own_page [T "div" [X "a"]; T "div" [X "press "; T "var" [X "Q"]; X " now"]] EKey.
Proof. apply case_checked; [a_doc|vm_compute; reflexivity]. Qed.
(** The renderers of the library on a page without columns. *)
Definition no_columns : options := Options 67 (Some (root_box 0 sides0 sides0 sides0 None)) [] [] (lit "text") (lit "footer") (lit "inline") [] 70 true.
Example no_room : exists g evs, construct no_columns = Ok g /\ source (lit "<h1>T</h1><p>some words</p>") evs None /\ feed_error g evs = None /\ broken_page g (tree_of evs) EValue.
Proof.
  assert (CB : exists g, construct no_columns = Ok g) by (eexists; vm_compute; reflexivity). destruct CB as (g & CN). exists g.
  assert (R : render_text no_columns (lit "<h1>T</h1><p>some words</p>") = Err EValue) by (vm_compute; reflexivity).
  pose proof (proj1 (C80_stock no_columns g _ EValue eq_refl eq_refl CN) R) as (evs & fail & SO & H).
  set (calls := [OStart (lit "h1") []; OData (lit "T"); OEnd (lit "h1"); OStart (lit "p") []; OData (lit "some words"); OEnd (lit "p")]).
  assert (SO' : source (lit "<h1>T</h1><p>some words</p>") calls None).
  { apply (so_read _ calls None [] [] None []); read_it. }
  destruct (source_one _ _ _ _ _ SO SO') as [-> ->]. exists calls. split; auto. split; auto.
  assert (FE : match construct no_columns with Ok g => feed_error g calls = None | _ => False end) by (vm_compute; reflexivity). rewrite CN in FE.
  split; auto. destruct H as [H|(_ & [H|[_ H]])]; [congruence|discriminate|exact H].
Qed.
Close Scope Z_scope.

Print Assumptions C80_exact_page.
Print Assumptions C80_exact.
Print Assumptions C80_exact_markup.
Print Assumptions C80_source_page.
Print Assumptions C80_source_raises_page.
Print Assumptions C80_source.
Print Assumptions C80_source_raises.
Print Assumptions C80_stock.
