(** C86: nesting that fits, whatever the tables; C52: for the tables of the library
    and for source text. *)
From Verif Require Import WrapFacts WrapLoop WrapWidth.
From Verif Require Import BaseFacts StrFacts SelFacts TreeFacts HistoryFacts DomFacts LineFacts BoxFacts DocFacts.
From Verif Require Import PageSpec PageRead StyleMain JudgeMain JudgeProps StyleProps ShapeMain ShapeCheck ShapeStock ShapeProps OwnProps TripProps MarkupSpec MarkupFacts MarkupMain MarkupProps SafeMain SafeCheck SafeProps DepthFacts Themes Fixture.
From Verif Require Export DepthSpec.
Open Scope Z_scope.

(** ** Any tables *)
(** When the blocks around every place, together with the one there, take fewer
    columns than the page has, the page is produced. *)
Theorem C86_depth : forall `{U : Uni} o g h cost,
  construct o = Ok g -> ~ In OClose h -> table_ok (o_renderers o) -> table_ok (o_ext o) -> shaped_page g (tree_of h) -> good_page g (tree_of h) -> flush_page g (tree_of h) ->
  feed_error g h = None -> untroubled g (tree_of h) ->
  (forall z, 0 <= cost z) -> takes_at_most g cost ->
  (forall z, In z (all_places [] [] (tree_of h)) -> total cost z < wrap_width (g_box g)) ->
  exists out, render_doc o h = Ok out.
Proof.
  intros U o g h cost CN NC T1 T2 SH GT FT FE UT CP CM D. apply (C86_room_page o g h); auto. intros listed z page e P C.
  pose proof (flush_value g _ FT _ _ _ _ P C) as ->. exact (not_cramped g (tree_of h) cost CP CM D _ _ _ P C).
Qed.

(** ** The tables of the library *)
Lemma shipped_slim : forall `{U : Uni} t o g, t = [] \/ In t all_themes -> construct o = Ok g -> o_renderers o = t -> o_ext o = [] -> takes_at_most g label_cost.
Proof.
  intros U t o g T CN E1 E2. apply slim_tables.
  assert (A : forallb (fun t => match construct (with_table t) with Ok g => slim_check g | Err _ => false end) ([] :: all_themes) = true) by (vm_compute; reflexivity).
  rewrite forallb_forall in A. assert (J : In t ([] :: all_themes)) by (destruct T as [->|T]; [now left|now right]). specialize (A _ J).
  destruct (construct (with_table t)) as [g'|] eqn:CN'; [|discriminate]. destruct (construct_tables _ _ _ _ CN CN') as (A1 & A2 & A3 & A4); [exact E1|exact E2|].
  unfold slim_check in *. now rewrite A1, A2, A3, A4.
Qed.
(** C52: under the stock rules and under each theme, a document nested less deep
    than the page is wide is rendered: quotations, definitions and items take two
    columns each, numbered items their number too. *)
Theorem C52_depth : forall `{U : Uni} t o g h, t = [] \/ In t all_themes -> o_renderers o = t -> o_ext o = [] -> construct o = Ok g -> ~ In OClose h ->
  feed_error g h = None -> shallow (tree_of h) (wrap_width (g_box g)) ->
  exists out, render_doc o h = Ok out.
Proof.
  intros U t o g h T E1 E2 CN NC FE D. destruct (shipped_tables t o g (tree_of h) T CN E1 E2) as (T1 & T2 & SH & GT & FT & UT).
  apply (C86_depth o g h label_cost); auto; [now apply tables_page|now apply good_tables_page|now apply flush_tables_page|apply label_cost_pos|now apply (shipped_slim t o g)].
Qed.

(** ** Source text *)
(** C86: what can go wrong with a source text under good tables. *)
Theorem C86_source : forall `{U : Uni} o g src e,
  construct o = Ok g -> table_ok (o_renderers o) -> table_ok (o_ext o) ->
  (forall evs, source src evs None -> shaped_page g (tree_of evs) /\ good_page g (tree_of evs)) ->
  render_text o src = Err e ->
  exists evs fail, source src evs fail /\
    (feed_error g evs = Some e \/ fail = Some e \/ trouble g (tree_of evs) e
     \/ exists listed z page, placed_in g (tree_of evs) listed z page /\ cramped g listed z page e).
Proof.
  intros U o g src e CN T1 T2 SG H. rewrite (C80_source_raises_page o g src e CN T1 T2 (fun evs SO => proj1 (SG evs SO))) in H. destruct H as (evs & fail & SO & H). exists evs, fail. split; auto.
  destruct H as [H|(_ & [H|(-> & [H|[_ H]])])]; auto. right. right. right. apply broken_cramped; auto. exact (proj2 (SG evs SO)).
Qed.
(** C52: a source text under the stock rules and under each theme fails exactly
    when a handler, the reader itself, or text without columns does. *)
Theorem C52_source : forall `{U : Uni} t o g src e, t = [] \/ In t all_themes -> o_renderers o = t -> o_ext o = [] -> construct o = Ok g ->
  render_text o src = Err e <->
    exists evs fail, source src evs fail /\
      (feed_error g evs = Some e
       \/ feed_error g evs = None /\
          (fail = Some e
           \/ fail = None /\ e = EValue /\ exists listed z page, placed_in g (tree_of evs) listed z page /\ cramped g listed z page EValue)).
Proof.
  intros U t o g src e T E1 E2 CN. assert (ST : forall F, table_ok (o_renderers o) /\ table_ok (o_ext o) /\ shaped_tables g /\ good_tables g /\ flush_tables g /\ untroubled g F) by (intros F; now apply (shipped_tables t)).
  destruct (ST []) as (T1 & T2 & SH & GT & FT & _). rewrite (C80_source_raises o g src e CN T1 T2 SH).
  split; intros (evs & fail & SO & H); exists evs, fail; (split; [exact SO|]); destruct H as [H|(FE & [H|(H & B)])]; auto; right; (split; [exact FE|]); right; (split; [exact H|]); destruct (ST (tree_of evs)) as (_ & _ & _ & _ & _ & UT).
  - assert (R : render_doc o evs = Err e) by (apply (C80_exact o g evs e CN (source_quiet _ _ _ SO) T1 T2 SH); right; auto).
    now apply (C52_document t o g evs e T E1 E2 CN (source_quiet _ _ _ SO) FE) in R.
  - assert (R : render_doc o evs = Err e) by (now apply (C52_document t o g evs e T E1 E2 CN (source_quiet _ _ _ SO) FE)).
    apply (C80_exact o g evs e CN (source_quiet _ _ _ SO) T1 T2 SH) in R. destruct R as [R|[_ R]]; [congruence|exact R].
Qed.

(** ** Cases that meet the hypotheses *)
Local Existing Instance U0.
(** The nested list of [small_page] takes four columns: five are enough, four are
    not. *)
Example depth_case : shallow (tree_of small_page) 5 /\ ~ shallow (tree_of small_page) 4.
Proof.
  split.
  - intros z J. vm_compute in J. repeat (destruct J as [<-|J]; [vm_compute; reflexivity|]). destruct J.
  - intros H. assert (A : existsb (fun z => 4 <=? total label_cost z) (all_places [] [] (tree_of small_page)) = true) by (vm_compute; reflexivity).
    apply existsb_exists in A as (z & J & A). apply Z.leb_le in A. specialize (H z J). lia.
Qed.
(** Three columns for the number, two for the quotation. *)
Definition source_in_columns (w : Z) : res str := render_text (in_columns_of w theme_darkly) (lit "<ol><li>a<blockquote><p>b</p></blockquote></li></ol>").
Example source_case : (exists out, source_in_columns 6 = Ok out) /\ source_in_columns 5 = Err EValue.
Proof. split; [eexists|]; vm_compute; reflexivity. Qed.

Print Assumptions C86_depth.
Print Assumptions C52_depth.
Print Assumptions C86_source.
Print Assumptions C52_source.
Close Scope Z_scope.
