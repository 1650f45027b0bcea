(** C90: a text that is fed in pieces, whatever the pieces. *)
From Verif Require Import WrapFacts WrapLoop WrapWidth.
From Verif Require Import BaseFacts StrFacts SelFacts TreeFacts HistoryFacts DomFacts LineFacts BoxFacts DocFacts.
From Verif Require Import PageSpec PageRead PageProps StyleMain JudgeMain JudgeProps StyleProps ShapeMain ShapeCheck ShapeStock ShapeProps OwnProps TripProps MarkupSpec MarkupFacts MarkupMain MarkupProps SafeMain SafeBack SafeCheck SafeProps DepthFacts DepthProps WideFacts WideSpec WideProps TermCheck TermProps TermSource PieceMain Themes Feed Fixture.
From Verif Require Export TermSpec PieceSpec.
Open Scope Z_scope.

(** ** What is read *)
(** Every sequence of pieces makes one sequence of calls. *)
Theorem C90_reading : forall `{U : Uni} l, exists evs fail, pieces l evs fail /\ forall evs' fail', pieces l evs' fail' -> evs' = evs /\ fail' = fail.
Proof.
  intros U l. destruct (on_some l None [] (or_introl eq_refl)) as (evs & fail & H). exists evs, fail. split; [exact H|]. intros evs' fail' H'. destruct (on_one _ _ _ _ _ _ _ H H'). auto.
Qed.
(** Constructing a parser, feeding it the pieces and closing it gives what those
    calls give: the first exception among those of the handlers, of the reading and
    of the closing; or the page. *)
Theorem C90_render : forall `{U : Uni} o g l evs fail, construct o = Ok g -> pieces l evs fail ->
  render_pieces o l = match feed_error g evs with
                      | Some e => Err e
                      | None => match fail with Some e => Err e | None => render_doc o evs end
                      end.
Proof. intros U. exact pieces_render. Qed.
(** One piece is the whole text. *)
Theorem C90_whole : forall `{U : Uni} src evs fail, pieces [src] evs fail <-> source src evs fail.
Proof.
  intros U src evs fail. assert (H : source src evs fail -> pieces [src] evs fail).
  { intros H. destruct H as [e1 raw r e2 raw2 r2 R1 R2|e1 e R1|e1 raw r e2 e R1 R2].
    - eapply ro_feed; [exact R1|]. eapply ro_end; exact R2.
    - eapply ro_feed_fail. exact R1.
    - eapply ro_feed; [exact R1|]. eapply ro_end_fail; exact R2. }
  split; [|exact H]. intros A. inversion A as [| |? ? ? ? e1 raw1 r1 e2 f2 R K|? ? ? ? ? e R]; subst; [|now apply so_feed].
  inversion K as [? ? ? raw' r R2|? ? ? e R2| |]; subst; [eapply so_read; eauto|eapply so_close; eauto].
Qed.
(** Empty pieces make no difference. *)
Theorem C90_empty : forall `{U : Uni} o l1 l2, render_pieces o (l1 ++ [] :: l2) = render_pieces o (l1 ++ l2).
Proof.
  intros U o l1 l2. destruct (construct o) as [g|e] eqn:CN; [|unfold render_pieces; now rewrite CN].
  destruct (on_some (l1 ++ l2) None [] (or_introl eq_refl)) as (evs & fail & H). rewrite (pieces_render o g _ _ _ CN H). apply (pieces_render o g _ _ _ CN).
  apply on_empty; [now left|apply rd_nothing|exact H].
Qed.

(** ** The page *)
(** Under the stock rules: the page of the tree that the calls denote. *)
Theorem C90_page : forall `{U : Uni} o g l evs fail, o_renderers o = [] -> o_ext o = [] -> construct o = Ok g -> pieces l evs fail ->
  render_pieces o l = match feed_error g evs with
                      | Some e => Err e
                      | None => match fail with Some e => Err e | None => page g (tree_of evs) end
                      end.
Proof.
  intros U o g l evs fail H1 H2 CN SO. rewrite (pieces_render o g l evs fail CN SO). destruct (feed_error g evs) as [e|] eqn:FE; [reflexivity|]. destruct fail as [e|]; [reflexivity|].
  rewrite (C60_events o g evs H1 H2 CN); [now rewrite FE|]. eapply pieces_quiet; eauto.
Qed.
(** Under the stock rules and each theme: the only failures are those of a handler,
    of the reading, and text without columns. *)
Theorem C90_failures : forall `{U : Uni} t o g l e, t = [] \/ In t all_themes -> o_renderers o = t -> o_ext o = [] -> construct o = Ok g ->
  render_pieces o l = Err e <->
    exists evs fail, pieces l evs fail /\
      (feed_error g evs = Some e
       \/ feed_error g evs = None /\
          (fail = Some e
           \/ fail = None /\ e = EValue /\ exists listed z page, placed_in g (tree_of evs) listed z page /\ cramped g listed z page EValue)).
Proof.
  intros U t o g l e T E1 E2 CN. destruct (C90_reading l) as (evs & fail & SO & ONE). rewrite (pieces_render o g l evs fail CN SO).
  assert (D : feed_error g evs = None -> (render_doc o evs = Err e <-> e = EValue /\ exists listed z page, placed_in g (tree_of evs) listed z page /\ cramped g listed z page EValue)) by (intros FE; apply (C52_document t o g evs e T E1 E2 CN (pieces_quiet _ _ _ SO) FE)).
  split.
  - intros H. exists evs, fail. split; [exact SO|]. destruct (feed_error g evs) as [e'|]; [left; congruence|]. right. split; [reflexivity|]. destruct fail as [e'|]; [left; congruence|]. right. split; [reflexivity|]. now apply D.
  - intros (evs' & fail' & SO' & H). destruct (ONE _ _ SO') as [-> ->]. destruct H as [H|(FE & H)]; [now rewrite H|]. rewrite FE. destruct H as [H|(H & B)]; [now rewrite H|]. rewrite H. now apply D.
Qed.
(** More room never hurts. *)
Theorem C90_wider : forall `{U : Uni} t o l b b', t = [] \/ In t all_themes -> o_renderers o = t -> o_ext o = [] ->
  wrap_width b <= wrap_width b' -> produced (render_pieces (boxed o b) l) -> produced (render_pieces (boxed o b') l).
Proof.
  intros U t o l b b' T E1 E2 L (out & H). unfold produced. destruct (render_pieces (boxed o b') l) as [out'|e] eqn:E; [eauto|]. exfalso.
  destruct (construct o) as [g|ec] eqn:CN.
  - pose proof (construct_boxed o g b CN) as CB. pose proof (construct_boxed o g b' CN) as CB'.
    apply (C90_failures t (boxed o b') (set_box g b') l e T E1 E2 CB') in E. destruct E as (evs & fail & SO & E).
    assert (X : exists e, render_pieces (boxed o b) l = Err e); [|destruct X as (? & X); congruence].
    exists e. apply (C90_failures t (boxed o b) (set_box g b) l e T E1 E2 CB). exists evs, fail. split; auto. unfold feed_error in *. rewrite error_boxed in *.
    destruct E as [E|(FE & [E|(-> & -> & E)])]; auto. right. split; auto. right. split; auto. split; auto. exact (cramped_back g _ b b' L E).
  - assert (X : construct (boxed o b) = Err ec) by (unfold construct in *; cbn [boxed o_format o_link o_host o_box o_renderers o_ext o_image o_port o_optimise]; destruct (_ && _); [exact CN|]; destruct (_ && _); [exact CN|]; cbv zeta in *; destruct (dget [] _) as [[x r]|]; [discriminate CN|exact CN]).
    unfold render_pieces in H. rewrite X in H. discriminate.
Qed.

(** ** On a terminal *)
Lemma pieces_done : forall `{U : Uni} o l out, render_pieces o l = Ok out ->
  exists g evs, construct o = Ok g /\ pieces l evs None /\ ~ In OClose evs /\ render_doc o evs = Ok out.
Proof.
  intros U o l out H. destruct (construct o) as [g|e] eqn:CN; [|unfold render_pieces in H; rewrite CN in H; discriminate]. destruct (C90_reading l) as (evs & fail & SO & _). exists g, evs.
  rewrite (pieces_render o g l evs fail CN SO) in H. destruct (feed_error g evs); [discriminate|]. destruct fail; [discriminate|]. split; [reflexivity|]. split; [exact SO|]. split; [eapply pieces_quiet; eauto|exact H].
Qed.
(** C89: from pieces of text without the escape character the stock rules make a page
    without control sequences: not even a character reference makes one. *)
Theorem C89_pieces : forall `{U : Uni} o l out, o_renderers o = [] -> o_ext o = [] -> sane_case -> clean (o_host o) -> Forall clean l ->
  render_pieces o l = Ok out -> clean out.
Proof. intros U o l out E1 E2 SC CH CL H. destruct (pieces_done o l out H) as (g & evs & CN & SO & NC & R). eapply C89_stock; eauto. eapply pieces_page; eauto. Qed.
Theorem C89_source : forall `{U : Uni} o src out, o_renderers o = [] -> o_ext o = [] -> sane_case -> clean (o_host o) -> clean src ->
  render_text o src = Ok out -> clean out.
Proof. intros U o src out E1 E2 SC CH CL H. exact (C89_pieces o [src] out E1 E2 SC CH (Forall_cons _ CL (Forall_nil _)) H). Qed.
(** And under a theme the page ends as it started. *)
Theorem C89_theme_source : forall `{U : Uni} t o src evs out, In t all_themes -> o_renderers o = t -> o_ext o = [] -> sane_case -> clean (o_host o) -> clean src ->
  source src evs None -> set_apart (tree_of evs) -> render_text o src = Ok out ->
  exists shown, AnsiSpec.display AnsiSpec.plain out = (shown, AnsiSpec.plain) /\ WrapSpec.styled out (map fst shown).
Proof.
  intros U t o src evs out T E1 E2 SC CH CL SO SA H. unfold render_text in H. destruct (pieces_done o [src] out H) as (g & evs' & CN & SO' & NC & R). apply C90_whole in SO'. destruct (source_one _ _ _ _ _ SO SO') as [<- _].
  eapply C89_theme; eauto. eapply source_page; eauto.
Qed.

(** ** Cases that meet the hypotheses *)
Local Existing Instance U0.
Definition cut_up : list str := [lit "<p cla"; []; lit "ss='x'>a &#2"; lit "7;&am"; lit "p; b</"; lit "p><script>x</scr"; lit "ipt><p>c</p"].
Example cut_case : exists evs, pieces cut_up evs None /\ evs <> [] /\ Forall clean cut_up.
Proof.
  destruct (C90_reading cut_up) as (evs & fail & SO & _). exists evs.
  assert (F : fail = None /\ evs <> []).
  { assert (G : exists e1, pieces cut_up e1 None /\ e1 <> []).
    { assert (K : forall raw kept x l evs evs' raw' r fail, raw_ok raw -> tokens false raw (kept ++ x) = calls evs (TStop raw' r) -> read_on raw' r l evs' fail -> read_on raw kept (x :: l) (evs ++ evs') fail) by (intros; eapply ro_feed; eauto; now apply tokens_reads).
      eexists. split.
      - unfold pieces, cut_up.
        eapply (K _ _ _ _ []); [now left|vm_compute; reflexivity|]. eapply (K _ _ _ _ []); [now left|vm_compute; reflexivity|].
        eapply (K _ _ _ _ [_]); [now left|vm_compute; reflexivity|]. eapply (K _ _ _ _ []); [now left|vm_compute; reflexivity|].
        eapply (K _ _ _ _ [_]); [now left|vm_compute; reflexivity|]. eapply (K _ _ _ _ [_; _]); [now left|vm_compute; reflexivity|].
        eapply (K _ _ _ _ [_; _; _; _]); [right; left; reflexivity|vm_compute; reflexivity|].
        eapply (ro_end _ _ [_; _]). apply tokens_reads; [now left|vm_compute; reflexivity].
      - discriminate. }
    destruct G as (e1 & G & NE). destruct (on_one _ _ _ _ _ _ _ SO G) as [-> ->]. auto. }
  destruct F as [-> F]. split; [exact SO|]. split; [exact F|]. apply Forall_forall. intros x J. apply clean_checked. revert x J. apply forallb_forall. vm_compute. reflexivity.
Qed.
Example cut_page : exists out, render_pieces sample_options cut_up = Ok out /\ 0 < len out.
Proof. eexists. split; [vm_compute; reflexivity|]. vm_compute. reflexivity. Qed.

Print Assumptions C90_reading.
Print Assumptions C90_render.
Print Assumptions C90_whole.
Print Assumptions C90_empty.
Print Assumptions C90_page.
Print Assumptions C90_failures.
Print Assumptions C90_wider.
Print Assumptions C89_pieces.
Print Assumptions C89_source.
Print Assumptions C89_theme_source.
Close Scope Z_scope.
