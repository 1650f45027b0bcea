(** C83: one parser, any calls. *)
From Verif Require Import WrapFacts WrapLoop WrapWidth.
From Verif Require Import BaseFacts StrFacts SelFacts TreeFacts HistoryFacts DomFacts LineFacts BoxFacts DocFacts.
From Verif Require Import PageSpec PageRead StyleMain JudgeMain JudgeProps StyleProps ShapeMain ShapeCheck ShapeStock ShapeProps TripMain TripProps SessionMain Themes Fixture.
From Verif Require MarkupSpec MarkupFacts MarkupMain MarkupProps.
From Verif Require Export SessionSpec ShapeSpec.
Open Scope Z_scope.

(** C83: whatever calls are made of a parser, in any order, exceptions caught:
    what each of them raises, what [parsed] is in the end, and the text that
    waits to be read, are what the specification gives. *)
Theorem C83_calls : forall `{U : Uni} o g l h es,
  construct o = Ok g -> table_ok (o_renderers o) -> table_ok (o_ext o) -> shaped_tables g -> lasting g ->
  do_calls g l parser0 = (h, es) ->
  exists z, does_all g session0 l z es /\ dk_parsed (ss_desk z) = p_out (h_p h) /\ ss_kept z = h_raw h.
Proof.
  intros U o g l h es CN T1 T2 SHT LA H. destruct (calls_do o g CN T1 T2 SHT LA l parser0 session0 h es (follows0 g) H) as (z & D & (F1 & F2 & F3 & (w & _ & _ & _ & _ & _ & E & _)) & _).
  exists z. auto.
Qed.
(** C83: it gives one outcome. *)
Theorem C83_one : forall `{U : Uni} o g l z es z' es',
  construct o = Ok g -> table_ok (o_renderers o) -> table_ok (o_ext o) -> shaped_tables g -> lasting g ->
  does_all g session0 l z es -> does_all g session0 l z' es' -> z = z' /\ es = es'.
Proof.
  intros U o g l z es z' es' CN T1 T2 SHT LA H H'. destruct (do_calls g l parser0) as [h es0] eqn:E.
  destruct (calls_do o g CN T1 T2 SHT LA l parser0 session0 h es0 (follows0 g) E) as (z0 & _ & _ & O). destruct (O _ _ H) as [-> ->]. destruct (O _ _ H') as [-> ->]. auto.
Qed.
(** C83: so what the specification gives is what happens. *)
Theorem C83_exact : forall `{U : Uni} o g l z es,
  construct o = Ok g -> table_ok (o_renderers o) -> table_ok (o_ext o) -> shaped_tables g -> lasting g ->
  does_all g session0 l z es ->
  snd (do_calls g l parser0) = es /\ p_out (h_p (fst (do_calls g l parser0))) = dk_parsed (ss_desk z).
Proof.
  intros U o g l z es CN T1 T2 SHT LA H. destruct (do_calls g l parser0) as [h es0] eqn:E.
  destruct (C83_calls o g l h es0 CN T1 T2 SHT LA E) as (z' & D & P & _). destruct (C83_one o g l z es z' es0 CN T1 T2 SHT LA H D) as [<- <-]. auto.
Qed.
(** C83: tables whose renderers are given to selectors that do not ask what comes
    after an element will do, whatever the options. *)
Theorem C83_lasting : forall `{U : Uni} o g, construct o = Ok g -> back_table (o_renderers o) = true -> back_table (o_ext o) = true -> lasting g.
Proof.
  intros U o g CN B1 B2. destruct (construct_back o g CN B1 B2) as [R1 R2]. split; right; now apply back_last.
Qed.
(** C83 for the renderers of the library, whatever the other options. *)
Theorem C83_stock : forall `{U : Uni} o g l z es,
  o_renderers o = [] -> o_ext o = [] -> construct o = Ok g ->
  does_all g session0 l z es ->
  snd (do_calls g l parser0) = es /\ p_out (h_p (fst (do_calls g l parser0))) = dk_parsed (ss_desk z).
Proof.
  intros U o g l z es E1 E2 CN. assert (S0 : match construct (with_table []) with Ok g => tables_check g | Err _ => false end = true) by (vm_compute; reflexivity).
  apply (C83_exact o g l z es CN); rewrite ?E1, ?E2; try (intros ? ? ? ? []; fail); [exact (table_shaped [] S0 o g CN E1 E2)|].
  apply (C83_lasting o g CN); rewrite ?E1, ?E2; reflexivity.
Qed.
Theorem C83_stock_calls : forall `{U : Uni} o g l h es,
  o_renderers o = [] -> o_ext o = [] -> construct o = Ok g ->
  do_calls g l parser0 = (h, es) ->
  exists z, does_all g session0 l z es /\ dk_parsed (ss_desk z) = p_out (h_p h) /\ ss_kept z = h_raw h.
Proof.
  intros U o g l h es E1 E2 CN. assert (S0 : match construct (with_table []) with Ok g => tables_check g | Err _ => false end = true) by (vm_compute; reflexivity).
  apply (C83_calls o g l h es CN); rewrite ?E1, ?E2; try (intros ? ? ? ? []; fail); [exact (table_shaped [] S0 o g CN E1 E2)|].
  apply (C83_lasting o g CN); rewrite ?E1, ?E2; reflexivity.
Qed.
(** And with each of the code themes. *)
Theorem C83_theme_calls : forall `{U : Uni} theme o g l h es,
  In theme all_themes -> o_renderers o = theme -> o_ext o = [] -> construct o = Ok g ->
  do_calls g l parser0 = (h, es) ->
  exists z, does_all g session0 l z es /\ dk_parsed (ss_desk z) = p_out (h_p h) /\ ss_kept z = h_raw h.
Proof.
  intros U theme o g l h es IT E1 E2 CN.
  assert (A : forallb (fun t => back_table t && keyed_check t && match construct (with_table t) with Ok g => tables_check g | Err _ => false end) all_themes = true) by (vm_compute; reflexivity).
  rewrite forallb_forall in A. specialize (A _ IT). apply andb_prop in A as [A A3]. apply andb_prop in A as [A1 A2].
  apply (C83_calls o g l h es CN); rewrite ?E1, ?E2; try (intros ? ? ? ? []; fail); [now apply keyed_checked|exact (table_shaped theme A3 o g CN E1 E2)|].
  apply (C83_lasting o g CN); rewrite ?E1, ?E2; auto.
Qed.

(** ** Cases *)
Local Existing Instance U0.
Definition plain_page (t : table) : options := Options 67 (Some (root_box 20 sides0 sides0 sides0 None)) t [] (lit "text") (lit "footer") (lit "inline") [] 70 false.
Definition outcome_of (o : options) (l : list call) : option (str * list (option exn)) :=
  match construct o with Ok g => let '(h, es) := do_calls g l parser0 in Some (p_out (h_p h), es) | Err _ => None end.
(** What C83 says of a concrete session. *)
Definition a_session (o : options) (l : list call) (out : str) (es : list (option exn)) : Prop :=
  exists g z, construct o = Ok g /\ table_ok (o_renderers o) /\ table_ok (o_ext o) /\ shaped_tables g /\ lasting g
    /\ does_all g session0 l z es /\ dk_parsed (ss_desk z) = out.
Lemma session_checked : forall o l out es,
  keyed_check (o_renderers o) && keyed_check (o_ext o) && back_table (o_renderers o) && back_table (o_ext o)
    && match construct o with Ok g => tables_check g | Err _ => false end = true ->
  outcome_of o l = Some (out, es) -> a_session o l out es.
Proof.
  intros o l out es H E. repeat (apply andb_prop in H as [H ?]). unfold outcome_of in E. destruct (construct o) as [g|] eqn:CN; [|discriminate].
  destruct (do_calls g l parser0) as [h es'] eqn:D. injection E as <- <-. exists g.
  assert (K1 : table_ok (o_renderers o)) by (now apply keyed_checked). assert (K2 : table_ok (o_ext o)) by (now apply keyed_checked).
  assert (K3 : shaped_tables g) by (now apply tables_checked). assert (K4 : lasting g) by (now apply (C83_lasting o g CN)).
  destruct (C83_calls o g l h es' CN K1 K2 K3 K4 D) as (z & Z1 & Z2 & _). exists z. auto 10.
Qed.
Ltac session := apply session_checked; vm_compute; reflexivity.
(** Closing twice lays the page out twice; what is read after closing goes to the
    end of the document; all of it is laid out again. *)
Example closed_twice : a_session (plain_page []) [CFeed (lit "<b>a"); CClose; CClose; CFeed (lit "c<i>d"); CClose]
  (lit "**a****a****a**c_d_") [None; None; None; None; None].
Proof. session. Qed.
(** A tag that raises is met again by every call until the parser is reset, and
    resetting does not end its verbatim texts. *)
Example met_again : a_session (plain_page []) [CFeed (lit "a"); CClose; CFeed (lit "<pre class>"); CFeed (lit "b"); CClose; CReset; CFeed (lit "c  c"); CClose]
  (lit "c  c") [None; None; Some EAttr; Some EAttr; Some EAttr; None; None; None].
Proof. session. Qed.
(** What was laid out before something went wrong stays, and comes before the
    next page: the template with a hole too many is that of a last element. *)
Definition two_holes : options :=
  plain_page [(lit "q", ([sl (el "q")], RPlain (Some EmRenderer)));
              (lit "q:last-child", ([sl (SPseudo (el "q") (lit "last-child"))], RPair None (Some [kv "template" (vs "{}{}")])))].
Example half_done : a_session two_holes [CFeed (lit "<b>a</b><q>x</q>"); CClose; CClose; CFeed (lit "<b>c</b>"); CClose]
  (lit "**a****a****a**_x_**c**") [None; Some EIndex; Some EIndex; None; None].
Proof. session. Qed.
(** Pieces: the tag cut in two is read when it is whole. *)
Example in_pieces : a_session (plain_page []) [CFeed (lit "<b>a</"); CFeed (lit "b>c &am"); CFeed (lit "p; d"); CClose] (lit "**a**c & d") [None; None; None; None].
Proof. session. Qed.

(** C83 without [lasting] is false: an element that was last when the page was
    first laid out keeps the template of the rule that reached it then, although
    the default renderer, written without settings, is its renderer now. *)
Definition drifting : options :=
  plain_page [(lit "", ([], RPlain (Some InlineRenderer)));
              (lit "x:last-child", ([sl (SPseudo (el "x") (lit "last-child"))], RPair (Some InlineRenderer) (Some [kv "template" (vs "<{}>")])))].
Definition drift_calls : list call := [CFeed (lit "<x>a</x>"); CClose; CFeed (lit "<x>b</x>"); CClose].
Definition drift_events (k : nat) : list op := firstn k [OStart (lit "x") []; OData (lit "a"); OEnd (lit "x"); OStart (lit "x") []; OData (lit "b"); OEnd (lit "x")].
Lemma plain_finished : forall t g, construct (plain_page t) = Ok g -> forall x, finished g x = x.
Proof.
  intros t g CN x. unfold construct in CN. cbn [o_format o_link o_host plain_page] in CN. change (seqb (lit "text") (lit "gophermap")) with false in CN. cbn [andb] in CN.
  destruct (dget [] _) as [[sels dflt]|]; [|discriminate]. injection CN as <-. unfold finished. cbn [g_box g_optimise o_box plain_page o_optimise].
  cbn [b_margin root_box sd_top sd_left sd_bottom sides0]. change (newlines 0) with (@nil N). change (spaces 0) with (@nil N). cbn [app]. rewrite app_nil_r, map_id. apply splitlines_concat.
Qed.
Lemma drift_laid : forall g k x, construct drifting = Ok g -> (k <= 6)%nat -> render_doc drifting (drift_events k) = Ok x -> laid g (tree_of (drift_events k)) x None.
Proof.
  intros g k x CN K R.
  assert (S0 : match construct drifting with Ok g => tables_check g | Err _ => false end = true) by (vm_compute; reflexivity). rewrite CN in S0.
  apply (C70_exact drifting g (drift_events k) x CN) in R.
  - destruct R as (_ & UT & parts & entries & P1 & P2 & E). rewrite (plain_finished _ g CN) in E. rewrite E. now apply la_page.
  - intros J. unfold drift_events in J. match type of J with In _ (firstn _ ?l) => assert (J' : In OClose l) by (rewrite <- (firstn_skipn k l); apply in_or_app; left; exact J) end. cbn [In] in J'. intuition discriminate.
  - apply keyed_checked. reflexivity.
  - apply keyed_checked. reflexivity.
  - now apply tables_checked.
Qed.
Definition drift_tree : list tree := [Tag 0 (lit "x") [] [Text 1 (lit "a")]].
Definition drift_tree2 : list tree := [Tag 0 (lit "x") [] [Text 1 (lit "a")]; Tag 2 (lit "x") [] [Text 3 (lit "b")]].
Lemma drift_heard : forall g F F1 F2 F3 n c p q, start_error g [] (lit "x") [] = None ->
  count_nodes F = n -> add_at 0 (Tag n (lit "x") [] []) F = F1 ->
  count_nodes F1 = S n -> add_at 1 (Text (S n) (normalise [c])) F1 = F2 -> F2 = F3 ->
  takes g (lit "<x>" ++ [c] ++ lit "</x>") (TEv (OStart (lit "x") []) (TEv (OData [c]) (TEv (OEnd (lit "x")) (TStop None [])))) (Desk F [] false p q) (Session [] None (Desk F3 [] false p q)) None.
Proof.
  intros g F F1 F2 F3 n c p q SE E1 E2 E3 E4 <-. eapply tk_go.
  { cbn [hear dk_open dk_tree length dk_pre dk_text dk_parsed]. rewrite SE, E1, E2. change (seqb (lit "x") (lit "pre")) with false. change (void (lit "x")) with false. cbv beta iota. reflexivity. }
  eapply tk_go.
  { cbn [hear dk_open dk_tree length dk_pre dk_text dk_parsed]. rewrite E3, E4. reflexivity. }
  eapply tk_go.
  { cbn [hear dk_open dk_tree dk_pre dk_text dk_parsed]. change (seqb (lit "x") (lit "pre")) with false. change (void (lit "x")) with false. rewrite seqb_refl. cbv beta iota. reflexivity. }
  apply tk_stop.
Qed.
Lemma drift_reads : forall fin s t, tokens fin None s = t -> MarkupSpec.reads fin None s t.
Proof. intros fin s t E. apply MarkupFacts.tokens_reads; auto. now left. Qed.
Theorem C83_lasting_needed : exists o g l h es z, construct o = Ok g /\ table_ok (o_renderers o) /\ table_ok (o_ext o) /\ shaped_tables g
  /\ do_calls g l parser0 = (h, es) /\ does_all g session0 l z es /\ dk_parsed (ss_desk z) <> p_out (h_p h).
Proof.
  assert (CB : exists g, construct drifting = Ok g) by (eexists; vm_compute; reflexivity). destruct CB as (g & CN).
  assert (S0 : match construct drifting with Ok g => tables_check g | Err _ => false end = true) by (vm_compute; reflexivity). rewrite CN in S0.
  assert (O : outcome_of drifting drift_calls = Some (lit "<a><a><b>", [None; None; None; None])) by (vm_compute; reflexivity). unfold outcome_of in O. rewrite CN in O.
  destruct (do_calls g drift_calls parser0) as [h es] eqn:D. injection O as O ->.
  assert (R1 : tree_of (drift_events 3) = drift_tree) by (vm_compute; reflexivity). assert (R2 : tree_of (drift_events 6) = drift_tree2) by (vm_compute; reflexivity).
  assert (L1 : laid g drift_tree (lit "<a>") None) by (rewrite <- R1; apply drift_laid; auto; vm_compute; reflexivity).
  assert (L2 : laid g drift_tree2 (lit "a<b>") None) by (rewrite <- R2; apply drift_laid; auto; vm_compute; reflexivity).
  assert (SE : match construct drifting with Ok g => start_error g [] (lit "x") [] = None | _ => False end) by (vm_compute; reflexivity). rewrite CN in SE.
  set (x1 := lit "<a>") in *. set (x2 := lit "a<b>") in *.
  exists drifting, g, drift_calls, h, [None; None; None; None], (Session [] None (Desk drift_tree2 [] false (x1 ++ x2) (finished g (x1 ++ x2)))).
  split; [exact CN|]. split; [apply keyed_checked; reflexivity|]. split; [apply keyed_checked; reflexivity|]. split; [now apply tables_checked|]. split; [exact D|]. split.
  - assert (K : forall k, takes g [] (TStop None []) k (Session [] None k) None) by (intros k; apply tk_stop).
    apply da_cons with (z1 := Session [] None (Desk drift_tree [] false [] [])).
    { apply (do_feed g session0 (lit "<x>a</x>") (TEv (OStart (lit "x") []) (TEv (OData (lit "a")) (TEv (OEnd (lit "x")) (TStop None []))))).
      - apply drift_reads. vm_compute. reflexivity.
      - apply (drift_heard g [] [Tag 0 (lit "x") [] []] drift_tree drift_tree 0 97%N [] [] SE); vm_compute; reflexivity. }
    apply da_cons with (z1 := Session [] None (Desk drift_tree [] false x1 (finished g x1))).
    { apply (do_close g (Session [] None (Desk drift_tree [] false [] [])) (TStop None []) (Session [] None (Desk drift_tree [] false [] [])) (Desk drift_tree [] false x1 (finished g x1)) None).
      - apply drift_reads. vm_compute. reflexivity.
      - apply K.
      - exact (fi_done g (Desk drift_tree [] false [] []) x1 L1). }
    apply da_cons with (z1 := Session [] None (Desk drift_tree2 [] false x1 (finished g x1))).
    { apply (do_feed g (Session [] None (Desk drift_tree [] false x1 (finished g x1))) (lit "<x>b</x>") (TEv (OStart (lit "x") []) (TEv (OData (lit "b")) (TEv (OEnd (lit "x")) (TStop None []))))).
      - apply drift_reads. vm_compute. reflexivity.
      - apply (drift_heard g drift_tree (drift_tree ++ [Tag 2 (lit "x") [] []]) drift_tree2 drift_tree2 2 98%N x1 (finished g x1) SE); vm_compute; reflexivity. }
    apply da_cons with (z1 := Session [] None (Desk drift_tree2 [] false (x1 ++ x2) (finished g (x1 ++ x2)))); [|apply da_nil].
    apply (do_close g (Session [] None (Desk drift_tree2 [] false x1 (finished g x1))) (TStop None []) (Session [] None (Desk drift_tree2 [] false x1 (finished g x1))) (Desk drift_tree2 [] false (x1 ++ x2) (finished g (x1 ++ x2))) None).
    + apply drift_reads. vm_compute. reflexivity.
    + apply K.
    + exact (fi_done g (Desk drift_tree2 [] false x1 (finished g x1)) x2 L2).
  - cbn [ss_desk dk_parsed]. rewrite O, (plain_finished _ g CN). discriminate.
Qed.
Close Scope Z_scope.

Print Assumptions C83_calls.
Print Assumptions C83_one.
Print Assumptions C83_exact.
Print Assumptions C83_lasting.
Print Assumptions C83_stock.
Print Assumptions C83_stock_calls.
Print Assumptions C83_theme_calls.
Print Assumptions C83_lasting_needed.
