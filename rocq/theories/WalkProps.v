(** C91: documents that are nested deeper than Python calls. *)
From Verif Require Import WrapFacts WrapLoop WrapWidth.
From Verif Require Import BaseFacts StrFacts SelFacts TreeFacts HistoryFacts DomFacts LineFacts BoxFacts DocFacts.
From Verif Require Import PageSpec PageRead PageProps StyleMain JudgeMain JudgeProps StyleProps ShapeMain ShapeCheck ShapeStock ShapeProps OwnProps MarkupSpec MarkupFacts MarkupMain MarkupProps SafeMain SafeBack SafeCheck SafeProps WalkMain Themes Fixture.
From Verif Require Export Walk WalkSpec SourceSpec.

(** ** How deep a document is *)
(** Every start tag and every text is one level below the elements that are open. *)
Theorem C91_nesting : forall `{U : Uni} h x, nesting (tree_of (h ++ [x])) =
  match x with
  | OStart _ _ | OData _ => Nat.max (nesting (tree_of h)) (S (length (open_after h)))
  | OEnd _ | OClose => nesting (tree_of h)
  | OReset => 0
  end.
Proof. intros U h [t a|t|s| |]; rewrite tree_snoc; [now apply nesting_add|reflexivity|now apply nesting_add|reflexivity|reflexivity]. Qed.
(** Tags that are not closed nest: [n] of them make [n] levels. *)
Theorem C91_unclosed : forall `{U : Uni} l, Forall (fun x => void (fst x) = false) l ->
  let h := map (fun x => OStart (fst x) (snd x)) l in nesting (tree_of h) = length h /\ length (open_after h) = length h.
Proof.
  intros U l H h. subst h. rewrite <- (rev_involutive l) in *. apply Forall_rev in H. rewrite rev_involutive in H. induction H as [|x r V H IH]; [split; reflexivity|]. cbn [rev]. rewrite map_app. cbn [map].
  destruct IH as [IH1 IH2]. rewrite C91_nesting, IH1, IH2, app_length. cbn [length]. split; [lia|]. unfold open_after in *. rewrite fold_left_app. cbn [fold_left open_step]. rewrite V. cbn [length]. lia.
Qed.
(** No document is deeper than the number of its calls. *)
Theorem C91_at_most : forall `{U : Uni} h, nesting (tree_of h) <= length h.
Proof.
  intros U h. assert (O : length (open_after h) <= length h /\ nesting (tree_of h) <= length h); [|apply O]. induction h as [|x h IH] using rev_ind; [split; cbn; lia|]. rewrite C91_nesting, app_length. cbn [length]. split.
  - unfold open_after in *. rewrite fold_left_app. cbn [fold_left]. destruct IH as [IH _]. destruct (fold_left _ h []) as [|y r]; destruct x as [t a|t|s| |]; cbn [length open_step] in *; repeat match goal with |- context [if ?b then _ else _] => destruct b end; cbn [length]; lia.
  - destruct x; lia.
Qed.

(** ** The recursion and the pass over the nodes *)
(** With room for one call more than there are levels, the recursion does what the
    rest of the development takes it to do. *)
Theorem C91_same : forall `{U : Uni} o h frames, nesting (tree_of h) < frames -> render_within frames o h = Some (render_doc o h).
Proof.
  intros U o h f L. unfold render_within, render_doc. destruct (construct o) as [g|e]; cbn [bind]; [|reflexivity]. rewrite run_app. destruct (run g h pstate0) as [s|e] eqn:R; cbn [bind]; [|reflexivity].
  rewrite (close_walk f g h s R L). cbn [run step]. destruct (close g s); reflexivity.
Qed.
(** With less it makes no page: RecursionError, or what a selector raises earlier. *)
Theorem C91_no_page : forall `{U : Uni} o g h s frames, construct o = Ok g -> run g h pstate0 = Ok s -> frames <= nesting (tree_of h) ->
  render_within frames o h = None \/ exists e, trouble g (tree_of h) e /\ render_within frames o h = Some (Err e) /\ render_doc o h = Err e.
Proof.
  intros U o g h s f CN R L. unfold render_within, render_doc. rewrite CN. cbn [bind]. rewrite run_app, R. cbn [bind run step]. destruct (close_deep f g h s R L) as [->|(e & E1 & E2 & E3)]; [now left|]. right. exists e. rewrite E1, E2. split; [|split; reflexivity].
  destruct (tree_of_document _ _ _ R) as [D P]. destruct (assign_trouble g s _ (reach_wf _ _ _ R) (ext_a_some _ _ CN) D P (p_asg s)) as [(_ & a & A)|(e' & T & A)]; [congruence|]. rewrite E3 in A. injection A as ->. exact T.
Qed.
(** When no selector raises: RecursionError exactly when there are too many levels. *)
Theorem C91_exactly : forall `{U : Uni} o g h s frames, construct o = Ok g -> run g h pstate0 = Ok s -> untroubled g (tree_of h) ->
  (render_within frames o h = None <-> frames <= nesting (tree_of h)).
Proof.
  intros U o g h s f CN R UT. split; intros H.
  - destruct (Nat.lt_ge_cases (nesting (tree_of h)) f) as [K|K]; [|exact K]. rewrite (C91_same o h f K) in H. discriminate.
  - destruct (C91_no_page o g h s f CN R H) as [E|(e & (l & q & z & r & E & J & _) & _)]; [exact E|]. exfalso. apply (UT q z e); [|exact J]. rewrite E. apply in_or_app. right. now left.
Qed.
(** So under the stock rules and under each theme, for every document the handlers
    take. *)
Theorem C91_shipped : forall `{U : Uni} t o g h frames, t = [] \/ In t all_themes -> o_renderers o = t -> o_ext o = [] -> construct o = Ok g ->
  ~ In OClose h -> feed_error g h = None -> (render_within frames o h = None <-> frames <= nesting (tree_of h)).
Proof.
  intros U t o g h f T E1 E2 CN NC FE. pose proof (feed_outcome g h [] pstate0 eq_refl NC) as X. fold (feed_error g h) in X. rewrite FE in X. destruct X as (s & X).
  apply (C91_exactly o g h s f CN X). now apply (shipped_tables t o g (tree_of h) T CN E1 E2).
Qed.
(** More room never changes a page or an exception. *)
Theorem C91_more : forall `{U : Uni} o h frames frames' r, frames <= frames' -> render_within frames o h = Some r -> render_within frames' o h = Some r.
Proof.
  intros U o h f f' r L H. unfold render_within in *. destruct (construct o) as [g|e]; [|exact H]. destruct (run g h pstate0) as [s|e] eqn:R; [|exact H].
  destruct (close_within f g s) as [x|] eqn:C; [|discriminate]. now rewrite (close_more f f' g h s x R L C).
Qed.
(** Whatever the limit, a document of as many unclosed elements is not rendered. *)
Theorem C91_always_some : forall `{U : Uni} t o g frames tag, t = [] \/ In t all_themes -> o_renderers o = t -> o_ext o = [] -> construct o = Ok g ->
  void tag = false -> seqb tag (lit "a") = false ->
  render_within frames o (repeat (OStart tag []) frames) = None.
Proof.
  intros U t o g f tag T E1 E2 CN V NA. set (h := repeat (OStart tag []) f).
  assert (EH : h = map (fun x => OStart (fst x) (snd x)) (repeat (tag, []) f)). { unfold h. clear. induction f as [|f IH]; [reflexivity|]. cbn [repeat map fst snd]. now rewrite <- IH. }
  assert (NE : nesting (tree_of h) = f). { rewrite EH. destruct (C91_unclosed (repeat (tag, []) f)) as [E _]; [apply Forall_forall; intros x J; apply repeat_spec in J; now subst x|]. rewrite E, map_length, repeat_length. reflexivity. }
  apply (C91_shipped t o g h f T E1 E2 CN); [| |lia].
  - intros J. apply repeat_spec in J. discriminate.
  - now apply plain_feed.
Qed.

(** ** Source text *)
(** Text whose nesting leaves room is rendered as [render_text] says. *)
Theorem C91_text : forall `{U : Uni} o src evs fail frames, source src evs fail -> nesting (tree_of evs) < frames ->
  render_text_within frames o src = Some (render_text o src).
Proof.
  intros U o src evs fail f SO L. destruct (construct o) as [g|e] eqn:CN; [|unfold render_text_within, render_text, render_pieces; now rewrite CN].
  rewrite (source_within f o g src evs fail CN SO), (source_render o g src evs fail CN SO), (C91_same o evs f L). destruct (feed_error g evs); [reflexivity|]. now destruct fail.
Qed.
(** Under the stock rules and each theme, text that is nested deeper, and that
    nothing else stops before, ends in RecursionError. *)
Theorem C91_text_deep : forall `{U : Uni} t o g src evs fail frames, t = [] \/ In t all_themes -> o_renderers o = t -> o_ext o = [] -> construct o = Ok g ->
  source src evs fail ->
  (render_text_within frames o src = None <-> feed_error g evs = None /\ fail = None /\ frames <= nesting (tree_of evs)).
Proof.
  intros U t o g src evs fail f T E1 E2 CN SO. rewrite (source_within f o g src evs fail CN SO). destruct (feed_error g evs) as [e|] eqn:FE; [split; [discriminate|intros (? & _); discriminate]|].
  destruct fail as [e|]; [split; [discriminate|intros (_ & ? & _); discriminate]|]. rewrite (C91_shipped t o g evs f T E1 E2 CN (source_quiet _ _ _ SO) FE). tauto.
Qed.
(** Whatever the limit: that many times <p>, or <li>, or any such tag, is too much. *)
Theorem C91_text_unclosed : forall `{U : Uni} t o g nm tag frames, t = [] \/ In t all_themes -> o_renderers o = t -> o_ext o = [] -> construct o = Ok g ->
  spells nm tag -> ~ raw_element tag -> void tag = false -> seqb tag (lit "a") = false ->
  render_text_within frames o (concat (repeat (60%N :: nm ++ [62%N]) frames)) = None.
Proof.
  intros U t o g nm tag f T E1 E2 CN SP NR V NA. pose proof (unclosed_source f nm tag SP NR) as SO. rewrite (source_within f o g _ _ _ CN SO), (C91_always_some t o g f tag T E1 E2 CN V NA).
  unfold feed_error. now rewrite plain_feed.
Qed.

(** ** Cases *)
Local Existing Instance U0.
(** Two levels of elements and a text: three levels. *)
Definition three_levels : list op := [OStart (lit "ul") []; OStart (lit "li") []; OData (lit "x"); OEnd (lit "li"); OEnd (lit "ul"); OStart (lit "p") []].
Example three : nesting (tree_of three_levels) = 3 /\ length (open_after three_levels) = 1.
Proof. split; vm_compute; reflexivity. Qed.
Example three_rendered : exists g s out, construct sample_options = Ok g /\ run g three_levels pstate0 = Ok s /\ feed_error g three_levels = None /\ ~ In OClose three_levels
  /\ o_renderers sample_options = [] /\ o_ext sample_options = []
  /\ render_within 4 sample_options three_levels = Some (Ok out) /\ out <> [] /\ render_within 3 sample_options three_levels = None.
Proof.
  eexists. eexists. eexists. split; [vm_compute; reflexivity|]. split; [vm_compute; reflexivity|]. split; [vm_compute; reflexivity|]. split; [vm_compute; intuition discriminate|].
  split; [reflexivity|]. split; [reflexivity|]. split; [vm_compute; reflexivity|]. split; [discriminate|vm_compute; reflexivity].
Qed.
(** A selector that raises at the first element is met before the limit. *)
Definition hidden_first : list op := OStart (lit "li") [(lit "hidden", None)] :: repeat (OStart (lit "p") []) 3.
Example met_first : exists g s, construct raising = Ok g /\ run g hidden_first pstate0 = Ok s /\ 2 <= nesting (tree_of hidden_first)
  /\ render_within 2 raising hidden_first = Some (Err EAttr) /\ render_within 0 raising hidden_first = None.
Proof.
  eexists. eexists. split; [vm_compute; reflexivity|]. split; [vm_compute; reflexivity|]. split; [apply Nat.leb_le; vm_compute; reflexivity|]. split; vm_compute; reflexivity.
Qed.
Example paragraph : spells (lit "LI") (lit "li") /\ ~ raw_element (lit "li") /\ void (lit "li") = false /\ seqb (lit "li") (lit "a") = false.
Proof.
  split; [exists 76%N, [73%N]; split; [reflexivity|]; split; [left; lia|]; split; [constructor; [left; left; lia|constructor]|reflexivity]|].
  split; [intros [H|H]; discriminate H|]. split; reflexivity.
Qed.

Print Assumptions C91_nesting.
Print Assumptions C91_unclosed.
Print Assumptions C91_at_most.
Print Assumptions C91_same.
Print Assumptions C91_no_page.
Print Assumptions C91_exactly.
Print Assumptions C91_shipped.
Print Assumptions C91_more.
Print Assumptions C91_always_some.
Print Assumptions C91_text.
Print Assumptions C91_text_deep.
Print Assumptions C91_text_unclosed.
