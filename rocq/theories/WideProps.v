(** C88: more room never hurts, and every document has a least width. *)
From Verif Require Import WrapFacts WrapLoop WrapWidth.
From Verif Require Import BaseFacts StrFacts SelFacts TreeFacts HistoryFacts DomFacts LineFacts BoxFacts DocFacts.
From Verif Require Import PageSpec PageRead StyleMain JudgeMain JudgeProps StyleProps ShapeMain ShapeCheck ShapeStock ShapeProps OwnProps TripProps MarkupSpec MarkupFacts MarkupMain MarkupProps SafeMain SafeBack SafeCheck SafeProps DepthFacts DepthProps WideFacts Themes Fixture.
From Verif Require Export WideSpec.
Open Scope Z_scope.

Section S.
Context `{U : Uni}.
Lemma cramped_back : forall g F b b', wrap_width b <= wrap_width b' ->
  (exists listed z page, placed_in (set_box g b') F listed z page /\ cramped (set_box g b') listed z page EValue) ->
  exists listed z page, placed_in (set_box g b) F listed z page /\ cramped (set_box g b) listed z page EValue.
Proof.
  intros g F b b' L (listed & z & page & P & C). destruct (placed_boxed (set_box g b') F b _ _ _ P) as (page' & P' & E). cbn [g_box set_box] in E. exists listed, z, page'. split; [exact P'|].
  apply (cramped_boxed (set_box g b') b _ _ page); [exact C|lia].
Qed.
End S.

(** ** Any tables that are good for the page *)
(** What is produced on one page is produced on every wider one. *)
Theorem C88_wider : forall `{U : Uni} o g h b b',
  construct o = Ok g -> ~ In OClose h -> table_ok (o_renderers o) -> table_ok (o_ext o) -> shaped_page g (tree_of h) -> good_page g (tree_of h) -> flush_page g (tree_of h) ->
  wrap_width b <= wrap_width b' -> produced (render_doc (boxed o b) h) -> produced (render_doc (boxed o b') h).
Proof.
  intros U o g h b b' CN NC T1 T2 SH GT FT L (out & H). unfold produced. destruct (render_doc (boxed o b') h) as [out'|e] eqn:E; [eauto|]. exfalso.
  pose proof (construct_boxed o g b CN) as CB. pose proof (construct_boxed o g b' CN) as CB'. pose proof H as H'.
  rewrite (C70_exact_page (boxed o b) (set_box g b) h out CB NC T1 T2 SH) in H'. destruct H' as (FE & UT & _).
  assert (FE' : feed_error (set_box g b') h = None) by (unfold feed_error in *; now rewrite error_boxed in *).
  apply (C86_exact_page (boxed o b') (set_box g b') h e CB' NC T1 T2) in E; auto; [|destruct GT; now constructor|now apply flush_boxed].
  destruct E as [_ E]. apply (cramped_back g _ b b' L) in E. destruct E as (listed & z & page & P & C).
  destruct (C86_no_room_page (boxed o b) (set_box g b) h listed z page CB NC T1 T2 SH P C) as (e' & E'). congruence.
Qed.
(** Some width is enough. *)
Theorem C88_enough : forall `{U : Uni} o g h,
  construct o = Ok g -> ~ In OClose h -> table_ok (o_renderers o) -> table_ok (o_ext o) -> shaped_page g (tree_of h) -> good_page g (tree_of h) -> flush_page g (tree_of h) ->
  feed_error g h = None -> untroubled g (tree_of h) ->
  exists w, forall b, w <= wrap_width b -> produced (render_doc (boxed o b) h).
Proof.
  intros U o g h CN NC T1 T2 SH GT FT FE UT. exists (1 + sum_of (total (ample g)) (all_places [] [] (tree_of h))). intros b L.
  assert (CM : takes_at_most (set_box g b) (ample g)) by (intros listed z cl s x label G; exact (ample_enough g listed z cl s x label G)).
  assert (FE' : feed_error (set_box g b) h = None) by (unfold feed_error in *; now rewrite error_boxed).
  assert (GT' : good_page (set_box g b) (tree_of h)) by (destruct GT; now constructor).
  refine (C86_depth (boxed o b) (set_box g b) h (ample g) (construct_boxed o g b CN) NC T1 T2 SH GT' (flush_boxed g _ b FT) FE' UT (ample_pos g) CM _).
  intros z J. cbn [g_box set_box]. pose proof (sum_of_in _ (total (ample g)) _ z (total_pos (ample g) (ample_pos g)) J). lia.
Qed.
(** So a document the handlers take has a least width: from there on the page is
    produced, below it ValueError is raised. *)
Theorem C88_least : forall `{U : Uni} o g h,
  construct o = Ok g -> ~ In OClose h -> table_ok (o_renderers o) -> table_ok (o_ext o) -> shaped_page g (tree_of h) -> good_page g (tree_of h) -> flush_page g (tree_of h) ->
  feed_error g h = None -> untroubled g (tree_of h) ->
  exists least, 0 <= least /\ forall w, 0 <= w ->
    (least <= w -> produced (render_doc (boxed o (columns w)) h)) /\ (w < least -> render_doc (boxed o (columns w)) h = Err EValue).
Proof.
  intros U o g h CN NC T1 T2 SH GT FT FE UT. destruct (C88_enough o g h CN NC T1 T2 SH GT FT FE UT) as (w0 & E).
  assert (WW : forall w, wrap_width (columns w) = w) by (intros w; unfold wrap_width, line_width, both; cbn; lia).
  set (P := fun n : nat => match render_doc (boxed o (columns (Z.of_nat n))) h with Ok _ => true | Err _ => false end).
  assert (PP : forall n, P n = true <-> produced (render_doc (boxed o (columns (Z.of_nat n))) h)).
  { intros n. unfold P, produced. destruct (render_doc _ h); split; intros X; try discriminate; eauto. destruct X as (? & X). discriminate. }
  destruct (threshold P (Z.to_nat w0)) as (m & M).
  - intros i j L X. apply PP. apply PP in X. apply (C88_wider o g h (columns (Z.of_nat i))); auto. rewrite !WW. lia.
  - apply PP. apply E. rewrite WW. lia.
  - exists (Z.of_nat m). split; [lia|]. intros w W. rewrite <- (Z2Nat.id w W). split; intros L.
    + apply PP, M. lia.
    + destruct (render_doc (boxed o (columns (Z.of_nat (Z.to_nat w)))) h) as [out|e] eqn:R.
      * exfalso. assert (X : P (Z.to_nat w) = true) by (apply PP; rewrite R; eexists; reflexivity). apply M in X. lia.
      * apply (C86_exact_page (boxed o _) (set_box g (columns (Z.of_nat (Z.to_nat w)))) h e) in R; auto; [destruct R as [-> _]; reflexivity|now apply construct_boxed|destruct GT; now constructor|now apply flush_boxed|unfold feed_error in *; now rewrite error_boxed].
Qed.

(** ** The tables of the library *)
Theorem C88_shipped : forall `{U : Uni} t o g h, t = [] \/ In t all_themes -> o_renderers o = t -> o_ext o = [] -> construct o = Ok g -> ~ In OClose h -> feed_error g h = None ->
  exists least, 0 <= least /\ forall w, 0 <= w ->
    (least <= w -> produced (render_doc (boxed o (columns w)) h)) /\ (w < least -> render_doc (boxed o (columns w)) h = Err EValue).
Proof.
  intros U t o g h T E1 E2 CN NC FE. destruct (shipped_tables t o g (tree_of h) T CN E1 E2) as (T1 & T2 & SH & GT & FT & UT).
  apply (C88_least o g h); auto; [now apply tables_page|now apply good_tables_page|now apply flush_tables_page].
Qed.
(** The same for source text: wider is never worse. *)
Theorem C88_source : forall `{U : Uni} t o src b b', t = [] \/ In t all_themes -> o_renderers o = t -> o_ext o = [] ->
  wrap_width b <= wrap_width b' -> produced (render_text (boxed o b) src) -> produced (render_text (boxed o b') src).
Proof.
  intros U t o src b b' T E1 E2 L (out & H). unfold produced. destruct (render_text (boxed o b') src) as [out'|e] eqn:E; [eauto|]. exfalso.
  destruct (construct o) as [g|ec] eqn:CN.
  - pose proof (construct_boxed o g b CN) as CB. pose proof (construct_boxed o g b' CN) as CB'.
    apply (C52_source t (boxed o b') (set_box g b') src e T E1 E2 CB') in E. destruct E as (evs & fail & SO & E).
    assert (X : exists e, render_text (boxed o b) src = Err e); [|destruct X as (? & X); congruence].
    exists e. apply (C52_source t (boxed o b) (set_box g b) src e T E1 E2 CB). exists evs, fail. split; auto. unfold feed_error in *. rewrite error_boxed in *.
    destruct E as [E|(FE & [E|(-> & -> & E)])]; auto. right. split; auto. right. split; auto. split; auto. exact (cramped_back g _ b b' L E).
  - assert (X : construct (boxed o b) = Err ec) by (unfold construct in *; cbn [boxed o_format o_link o_host o_box o_renderers o_ext o_image o_port o_optimise]; destruct (_ && _); [exact CN|]; destruct (_ && _); [exact CN|]; cbv zeta in *; destruct (dget [] _) as [[x r]|]; [discriminate CN|exact CN]).
    unfold render_text, render_pieces in H. rewrite X in H. discriminate.
Qed.

(** ** Cases that meet the hypotheses *)
Local Existing Instance U0.
(** The least width of [small_page] is five. *)
Example least_case : exists least, 0 <= least /\ forall w, 0 <= w ->
  (least <= w -> produced (render_doc (boxed default_options (columns w)) small_page)) /\ (w < least -> render_doc (boxed default_options (columns w)) small_page = Err EValue).
Proof. eapply (C88_shipped []); [now left|reflexivity|reflexivity|vm_compute; reflexivity|cbn [small_page In]; intuition discriminate|vm_compute; reflexivity]. Qed.
Example least_five : produced (render_doc (boxed default_options (columns 5)) small_page) /\ render_doc (boxed default_options (columns 4)) small_page = Err EValue.
Proof. split; [eexists|]; vm_compute; reflexivity. Qed.
Example wider_case : produced (render_text (boxed (in_columns_of 1 theme_darkly) (columns 6)) (lit "<ol><li>a<blockquote><p>b</p></blockquote></li></ol>")).
Proof. eexists. vm_compute. reflexivity. Qed.

Print Assumptions C88_wider.
Print Assumptions C88_enough.
Print Assumptions C88_least.
Print Assumptions C88_shipped.
Print Assumptions C88_source.
Close Scope Z_scope.
