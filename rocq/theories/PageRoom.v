(** When rendering succeeds. *)
From Verif Require Import WrapFacts WrapLoop WrapWidth WrapProps.
From Verif Require Import BaseFacts StrFacts SelFacts TreeFacts HistoryFacts DomFacts LineFacts BoxFacts AnsiStyle CollapseFacts RenderFacts ElemFacts ElemText LinkFacts DocFacts.
From Verif Require Export PageRead.
Open Scope Z_scope.

Section R.
Context `{U : Uni}.
Definition outcome {A} (b : bool) (r : res A) : Prop := if b then exists x, r = Ok x else r = Err EValue.
Lemma outcome_bind : forall {A B} b (r : res A) (f : A -> res B), outcome b r -> (forall x, exists y, f x = Ok y) -> outcome b (bind r f).
Proof. intros A B [|] r f H F; cbn in *; [destruct H as (x & ->); cbn [bind]; apply F|now rewrite H]. Qed.
Lemma outcome_bind2 : forall {A B} b c (r : res A) (f : A -> res B), outcome b r -> (forall x, outcome c (f x)) -> outcome (c && b) (bind r f).
Proof.
  intros A B b c r f H F. destruct b; cbn in H.
  - destruct H as (x & ->). rewrite andb_true_r. cbn [bind]. apply F.
  - rewrite andb_false_r, H. reflexivity.
Qed.
Lemma wrap_outcome : forall n text, outcome (0 <? n) (wrap_to n text).
Proof.
  intros n text. unfold wrap_to, outcome. destruct (Z.ltb_spec 0 n) as [L|L].
  - apply (C23_returns_partial (text_wrap n) text).
    + right. cbn [text_wrap w_init w_subs w_width]. change (len []) with 0. lia.
    + cbn [text_wrap w_width w_max_lines]. intros [H|(m & H & _)]; [lia|discriminate].
  - unfold wrap, wrap_chunks. apply wrap_chunks_rejected. left. cbn [text_wrap w_width]. lia.
Qed.
Lemma mapM_wrap_outcome : forall n l, l <> [] -> outcome (0 <? n) (mapM (fun x => wrap_to n (strip x)) l).
Proof.
  intros n l NE. destruct l as [|x l]; [congruence|]. clear NE. revert x. induction l as [|y l IH]; intros x; cbn [mapM] in *.
  - apply outcome_bind; [apply wrap_outcome|]. intros z. cbn [bind]. eauto.
  - pose proof (wrap_outcome n (strip x)) as W. specialize (IH y). destruct (0 <? n); cbn in *.
    + destruct W as (z & ->). cbn [bind]. destruct IH as (z' & ->). cbn [bind]. eauto.
    + now rewrite W.
Qed.
Fixpoint leafy (t : tree) : Prop :=
  match t with
  | Text _ _ => True
  | Tag _ tg _ kids => (void tg = true -> kids = [])
      /\ (fix all (l : list tree) : Prop := match l with [] => True | k :: r => leafy k /\ all r end) kids
  end.
Lemma leafy_Tag : forall i tg a kids, leafy (Tag i tg a kids) <-> (void tg = true -> kids = []) /\ Forall leafy kids.
Proof.
  intros. cbn [leafy].
  assert (E : (fix all (l : list tree) : Prop := match l with [] => True | k :: r => leafy k /\ all r end) kids <-> Forall leafy kids).
  { induction kids as [|k r IH]; [split; constructor|]. rewrite IH. split; [intros [H1 H2]; now constructor|intros H; inversion H; auto]. }
  now rewrite E.
Qed.
Lemma stores_leafy : forall d, void_ok d -> forall t q, stores d q t -> leafy t.
Proof.
  intros d V. induction t as [i tg a kids IH|i x] using tree_ind2; intros q H; [|exact I].
  apply stores_Tag in H as [(n & H1 & H2 & H3 & H4 & H5 & _) HK]. apply leafy_Tag. split.
  - intros VT. pose proof (V i n tg H1 H2 VT) as E. rewrite H5 in E. now apply map_eq_nil in E.
  - apply Forall_forall. intros k I. eapply Forall_forall in IH; [|exact I]. eapply IH. eapply Forall_forall in HK; [|exact I]. exact HK.
Qed.

Variables (g : cfg) (number : nat -> Z).
Fixpoint fits_all (l : list tree) (ps : list pos) (w : place) : bool :=
  match l, ps with
  | k :: l, q :: ps => fits k q w && fits_all l ps w
  | _, _ => true
  end.
Lemma fits_Tag : forall i tg a kids p w, fits (Tag i tg a kids) p w =
  let inner w := fits_all kids (positions (tg :: ps_up p) kids) w in
  if seqb tg (lit "p") then (only_code kids || (0 <? pl_wrap w)) && inner w
  else if seqb tg (lit "blockquote") then inner (beside (lit "> ") w)
  else if seqb tg (lit "li") then
    let label := if inside "ol" p then str_of_Z (Z.of_nat (ps_index p) + 1) ++ lit ". " else lit "* " in
    (0 <? pl_wrap w - len label) && inner (beside label w)
  else if seqb tg (lit "dd") then (0 <? pl_wrap w - 2) && inner (beside (lit ": ") w)
  else inner w.
Proof.
  intros. cbn [fits].
  assert (E : forall w l ps, (fix go (l : list tree) (ps : list pos) {struct l} : bool :=
         match l, ps with
         | k :: l, q :: ps => fits k q w && go l ps
         | _, _ => true
         end) l ps = fits_all l ps w).
  { intros w0. induction l as [|k l IH]; intros [|q ps]; cbn [fits_all]; auto. now rewrite IH. }
  cbv zeta. rewrite !E. reflexivity.
Qed.
Definition ok_tree (t : tree) (p : pos) : Prop := forall w,
  outcome (fits t p w) (show g number false t p w) /\ (listable g t = true -> outcome (fits t p w) (show g number true t p w)).
Lemma texts_outcome : forall kids ps w, Forall2 ok_tree kids ps ->
  outcome (fits_all kids ps w) (in_order (at_positions (map (show g number false) kids) ps w)).
Proof.
  intros kids ps w H. induction H as [|t p kids ps H _ IH]; cbn [fits_all map at_positions in_order]; [eexists; reflexivity|].
  destruct (H w) as [H1 _]. destruct (fits t p w); cbn [andb] in *; cbn in H1.
  - destruct H1 as (x & ->). cbn [bind]. apply outcome_bind; auto. intros y. eauto.
  - now rewrite H1.
Qed.
Lemma content_outcome : forall kids ps w, Forall2 ok_tree kids ps ->
  outcome (fits_all kids ps w) (let* x := in_order (at_positions (map (show g number false) kids) ps w) in
    let* y := in_order (at_positions (map (fun k => if put g "after_block" k then show g number true k else fun _ _ => Ok []) kids) ps w) in
    Ok (x ++ (if existsb (put g "after_block") kids then nl else []) ++ y)).
Proof.
  intros kids ps w H. pose proof (texts_outcome kids ps w H) as T. destruct (fits_all kids ps w) eqn:FA; [|cbn in *; now rewrite T].
  destruct T as (x & ->). cbn [bind]. apply outcome_bind; [|eauto].
  clear x. revert FA. generalize (if existsb (put g "after_block") kids then nl else []). intros _. induction H as [|t p kids ps H _ IH]; intros FA; cbn [map at_positions in_order]; [eexists; reflexivity|].
  cbn [fits_all] in FA. apply andb_prop in FA as [F1 F2]. destruct (IH F2) as (y & ->). destruct (put g "after_block" t) eqn:PT.
  - destruct (H w) as [_ H2]. rewrite F1 in H2. destruct H2 as (x & ->); [|cbn [bind]; eexists; reflexivity].
    apply (put_listable g "after_block"); auto. vm_compute; discriminate.
  - cbn [bind]. eexists; reflexivity.
Qed.
Lemma show_outcome : forall t p, leafy t -> ok_tree t p.
Proof.
  induction t as [i tg a kids IH|i x] using tree_ind2; intros p LF w; [|cbn [fits show]; split; [eexists; reflexivity|discriminate]].
  apply leafy_Tag in LF as [LV LK]. rewrite fits_Tag. cbv zeta. set (ps := positions (tg :: ps_up p) kids).
  assert (OK : Forall2 ok_tree kids ps).
  { assert (L : length ps = length kids) by apply positions_length. clearbody ps. clear -IH LK L. revert ps L.
    induction IH as [|k kids E _ IH2]; intros [|q ps] L; cbn in L; try discriminate; constructor; inversion LK; subst; auto. }
  pose proof (fun w => texts_outcome kids ps w OK) as TX. pose proof (fun w => content_outcome kids ps w OK) as CT. cbn [show]. fold ps.
  set (texts := fun w => in_order (at_positions (map (show g number false) kids) ps w)) in *.
  set (content := fun w => let* x := texts w in
    let* y := in_order (at_positions (map (fun k => if put g "after_block" k then show g number true k else fun _ _ => Ok []) kids) ps w) in
    Ok (x ++ (if existsb (put g "after_block") kids then nl else []) ++ y)) in *.
  change (forall w, outcome (fits_all kids ps w) (content w)) in CT. change (forall w, outcome (fits_all kids ps w) (texts w)) in TX.
  split.
  - unfold show_element.
    destruct (lookup tg markers) as [m|] eqn:E1.
    { apply lookup_In in E1 as (t & -> & I).
      assert (N : seqb (lit t) (lit "p") = false /\ seqb (lit t) (lit "blockquote") = false /\ seqb (lit t) (lit "li") = false /\ seqb (lit t) (lit "dd") = false)
        by (cbn [markers In] in I; repeat (destruct I as [I|I]; [injection I as <- <-; auto|]); contradiction).
      destruct N as (-> & -> & -> & ->). apply outcome_bind; [apply CT|eauto]. }
    destruct (lookup tg headings) as [k|] eqn:E2.
    { apply lookup_In in E2 as (t & -> & I).
      assert (N : seqb (lit t) (lit "p") = false /\ seqb (lit t) (lit "blockquote") = false /\ seqb (lit t) (lit "li") = false /\ seqb (lit t) (lit "dd") = false)
        by (cbn [headings In] in I; repeat (destruct I as [I|I]; [injection I as <- <-; auto|]); contradiction).
      destruct N as (-> & -> & -> & ->). apply outcome_bind; [apply CT|eauto]. }
    destruct (lookup tg plain_blocks) as [m|] eqn:E3.
    { apply lookup_In in E3 as (t & -> & I).
      assert (N : seqb (lit t) (lit "p") = false /\ seqb (lit t) (lit "blockquote") = false /\ seqb (lit t) (lit "li") = false /\ seqb (lit t) (lit "dd") = false)
        by (cbn [plain_blocks In] in I; repeat (destruct I as [I|I]; [injection I as <- <-; auto|]); contradiction).
      destruct N as (-> & -> & -> & ->). apply outcome_bind; [apply CT|eauto]. }
    destruct (seqb tg (lit "p")) eqn:E4.
    { apply outcome_bind2; [apply CT|]. intros c. destruct (only_code kids); cbn [orb]; [eexists; reflexivity|].
      apply outcome_bind; [|eauto]. unfold paragraph. apply outcome_bind; [|eauto]. apply mapM_wrap_outcome, split_on_not_nil. }
    destruct (seqb tg (lit "blockquote")) eqn:E5; [apply outcome_bind; [apply CT|eauto]|].
    destruct (seqb tg (lit "pre")) eqn:E6.
    { destruct (seqb_spec tg (lit "pre")) as [->|]; [|discriminate]. change (seqb (lit "pre") (lit "li")) with false. change (seqb (lit "pre") (lit "dd")) with false.
      cbv iota. apply outcome_bind; [apply CT|eauto]. }
    destruct (seqb tg (lit "li")) eqn:E7.
    { apply outcome_bind2; [apply CT|]. intros c. apply outcome_bind; [apply wrap_outcome|eauto]. }
    destruct (seqb tg (lit "dd")) eqn:E8.
    { apply outcome_bind2; [apply CT|]. intros c. apply outcome_bind; [apply wrap_outcome|eauto]. }
    destruct (seqb tg (lit "dt")); [apply outcome_bind; [apply CT|eauto]|].
    destruct (seqb_spec tg (lit "br")) as [->|]; [rewrite LV by reflexivity; eexists; reflexivity|].
    destruct (seqb tg (lit "code")); [apply outcome_bind; [apply CT|eauto]|].
    destruct (is_img tg) eqn:EI.
    { unfold is_img in EI. destruct (seqb_spec tg (lit "img")) as [->|]; [|discriminate]. unfold ps. rewrite LV by reflexivity. eexists; reflexivity. }
    destruct (is_a tg).
    { destruct (seqb (g_link g) (lit "inline")); apply outcome_bind; eauto. }
    apply CT.
  - intros LB. cbn [listable] in LB. apply andb_prop in LB as [LB _]. 
    assert (N : seqb tg (lit "p") = false /\ seqb tg (lit "blockquote") = false /\ seqb tg (lit "li") = false /\ seqb tg (lit "dd") = false).
    { unfold is_link in LB. destruct (seqb_spec tg (lit "a")) as [->|]; [repeat split; reflexivity|].
      destruct (seqb_spec tg (lit "img")) as [->|]; [repeat split; reflexivity|discriminate]. }
    destruct N as (-> & -> & -> & ->). unfold show_listing. apply outcome_bind; [apply TX|eauto].
Qed.
Lemma located_leafy : forall t p, leafy t -> Forall (fun x => leafy (fst x)) (located t p).
Proof.
  induction t as [i tg a kids IH|i x] using tree_ind2; intros p LF; [|constructor; [exact LF|constructor]].
  rewrite located_Tag. constructor; [exact LF|]. apply leafy_Tag in LF as [_ LK]. generalize (positions (tg :: ps_up p) kids) as ps.
  induction IH as [|k kids E _ IH2]; intros [|q ps]; cbn [located_kids]; try constructor. inversion LK; subst. apply Forall_app. split; auto.
Qed.
Lemma located_leafy_all : forall F ps, Forall leafy F -> Forall (fun x => leafy (fst x)) (located_all F ps).
Proof.
  intros F ps H. unfold located_all. revert ps. induction H as [|t F H _ IH]; intros [|p ps]; cbn [combine flat_map]; try constructor.
  apply Forall_app. split; [now apply located_leafy|apply IH].
Qed.
(** More room never hurts. *)
Lemma fits_mono : forall t p w w', pl_wrap w <= pl_wrap w' -> fits t p w = true -> fits t p w' = true.
Proof.
  induction t as [i tg a kids IH|i x] using tree_ind2; intros p w w' L H; [|reflexivity].
  rewrite fits_Tag in *. cbv zeta in *.
  assert (G : forall w w', pl_wrap w <= pl_wrap w' -> forall ps, fits_all kids ps w = true -> fits_all kids ps w' = true).
  { clear -IH. intros w w' L. induction IH as [|k kids E _ IH2]; intros [|q ps] H; cbn [fits_all] in *; auto.
    apply andb_prop in H as [H1 H2]. rewrite (E _ _ _ L H1). cbn [andb]. now apply IH2. }
  assert (B : forall l, pl_wrap (beside l w) <= pl_wrap (beside l w')) by (intros; unfold beside; cbn [pl_wrap]; lia).
  destruct (seqb tg (lit "p")).
  { apply andb_prop in H as [H1 H2]. rewrite (G _ _ L _ H2), andb_true_r. apply orb_prop in H1 as [H1|H1]; [now rewrite H1|].
    apply orb_true_iff. right. lia. }
  destruct (seqb tg (lit "blockquote")); [now apply (G _ _ (B _))|].
  destruct (seqb tg (lit "li")).
  { apply andb_prop in H as [H1 H2]. rewrite (G _ _ (B _) _ H2), andb_true_r. lia. }
  destruct (seqb tg (lit "dd")); [|now apply (G _ _ L)].
  apply andb_prop in H as [H1 H2]. rewrite (G _ _ (B _) _ H2), andb_true_r. lia.
Qed.
(** What fits has only parts that fit. *)
Lemma fits_located : forall t p w, fits t p w = true -> Forall (fun x => fits (fst x) (snd x) w = true) (located t p).
Proof.
  induction t as [i tg a kids IH|i x] using tree_ind2; intros p w H; [|constructor; [exact H|constructor]].
  rewrite located_Tag. constructor; [exact H|]. rewrite fits_Tag in H. cbv zeta in H.
  assert (G : forall w', pl_wrap w' <= pl_wrap w -> forall ps, fits_all kids ps w' = true ->
    Forall (fun x => fits (fst x) (snd x) w = true) (located_kids kids ps)).
  { clear H. intros w' L. induction IH as [|k kids E _ IH2]; intros [|q ps] H; cbn [fits_all located_kids] in *; [constructor|constructor|constructor|].
    apply andb_prop in H as [H1 H2]. apply Forall_app. split; [|auto]. apply E. now apply (fits_mono k q w' w L). }
  assert (B : forall l, pl_wrap (beside l w) <= pl_wrap w) by (intros; unfold beside; cbn [pl_wrap]; pose proof (len_nonneg l); lia).
  destruct (seqb tg (lit "p")); [apply andb_prop in H as [_ H]; exact (G w (Z.le_refl _) _ H)|].
  destruct (seqb tg (lit "blockquote")); [exact (G _ (B _) _ H)|].
  destruct (seqb tg (lit "li")); [apply andb_prop in H as [_ H]; exact (G _ (B _) _ H)|].
  destruct (seqb tg (lit "dd")); [apply andb_prop in H as [_ H]; exact (G _ (B _) _ H)|exact (G w (Z.le_refl _) _ H)].
Qed.
Lemma fits_page_all : forall F, fits_page g F = fits_all F (positions [] F) (page_place g).
Proof.
  intros F. unfold fits_page. generalize (positions [] F). induction F as [|t F IH]; intros [|p ps]; cbn [combine forallb fits_all fst snd]; auto.
  now rewrite IH.
Qed.
Lemma fits_located_all : forall F ps w, fits_all F ps w = true -> Forall (fun x => fits (fst x) (snd x) w = true) (located_all F ps).
Proof.
  intros F. unfold located_all. induction F as [|t F IH]; intros [|p ps] w H; cbn [combine flat_map fits_all] in *; try constructor.
  apply andb_prop in H as [H1 H2]. apply Forall_app. split; [now apply fits_located|now apply IH].
Qed.
Lemma in_order_oks : forall l, Forall (fun x => exists y : str, x = Ok y) l -> exists y, in_order l = Ok y.
Proof. intros l H. induction H as [|x l (y & ->) _ (z & IH)]; cbn [in_order]; [eauto|]. rewrite IH. cbn [bind]. eauto. Qed.
Lemma footer_outcome : forall F, Forall leafy F -> fits_page g F = true -> exists x, footer g number F = Ok x.
Proof.
  intros F LF H. rewrite fits_page_all in H. apply fits_located_all in H. apply (located_leafy_all _ (positions [] F)) in LF.
  unfold footer. destruct (seqb (g_link g) (lit "footer")); [|eauto]. cbv zeta.
  destruct (in_order_oks (map (fun x => show g number true (fst x) (snd x) (page_place g)) (filter (fun x => put g "footer" (fst x)) (located_all F (positions [] F))))) as (y & ->); [|cbn [bind]; eauto].
  apply Forall_forall. intros r I. apply in_map_iff in I as (x & <- & I). apply filter_In in I as [I P].
  eapply Forall_forall in H; [|exact I]. eapply Forall_forall in LF; [|exact I].
  destruct (show_outcome (fst x) (snd x) LF (page_place g)) as [_ S2]. rewrite H in S2. apply S2.
  apply (put_listable g "footer"); auto. vm_compute; discriminate.
Qed.
Lemma forest_outcome : forall F, Forall leafy F -> outcome (fits_page g F) (body g number F).
Proof.
  intros F LF. rewrite fits_page_all. apply texts_outcome. assert (L : length (positions [] F) = length F) by apply positions_length.
  revert L. generalize (positions [] F). induction LF as [|t F H _ IH]; intros [|p ps] L; cbn in L; try discriminate; constructor; auto.
  now apply show_outcome.
Qed.
End R.
Lemma page_outcome : forall `{U : Uni} g F, Forall leafy F -> outcome (fits_page g F) (page g F).
Proof.
  intros U g F LF. unfold page. cbv zeta. set (number := fun i => rank i (flat_map (numbered_ids g) F)).
  pose proof (forest_outcome g number F LF) as B. pose proof (footer_outcome g number F LF) as FT.
  destruct (fits_page g F); cbn in *; [|now rewrite B]. destruct B as (x & ->), (FT eq_refl) as (y & ->). cbn [bind]. eauto.
Qed.
Lemma reach_leafy : forall `{U : Uni} g h s, run g h pstate0 = Ok s -> ~ In OClose h -> Forall leafy (tree_of h).
Proof.
  intros U g h s H NC. destruct (tree_of_document g h s H) as [D _]. 
  destruct D as [_ D]. eapply Forall_impl; [|exact D]. intros t T. eapply stores_leafy; [eapply reach_void; exact H|exact T].
Qed.
Lemma start_error_None : forall `{U : Uni} g opened t a, start_error g opened t a = None <->
  dlast (lit "class") a <> Some None
    /\ (t = lit "a" \/ t = lit "img" ->
        (exists l, parse_href (attr (if is_img t then "src" else "href") a) (g_host g) (g_port g) = Ok l)
        /\ (placement g t = lit "after_block" -> opened <> [])).
Proof.
  intros U g opened t a. unfold start_error.
  assert (L : is_a t || is_img t = true <-> t = lit "a" \/ t = lit "img").
  { unfold is_a, is_img. rewrite orb_true_iff. destruct (seqb_spec t (lit "a")), (seqb_spec t (lit "img")); intuition congruence. }
  destruct (dlast (lit "class") a) as [[c|]|].
  2: { split; [discriminate|intros [H _]; congruence]. }
  all: destruct (is_a t || is_img t).
  2,4: split; [intros _; split; [discriminate|intros H; apply L in H; discriminate]|reflexivity].
  all: assert (T : t = lit "a" \/ t = lit "img") by now apply L.
  all: destruct (parse_href _ _ _) as [l|e].
  2,4: split; [discriminate|intros [_ H]; destruct (H T) as [(l & Q) _]; discriminate].
  all: destruct opened as [|x r]; [destruct (seqb_spec (placement g t) (lit "after_block")) as [E|E]|].
  all: split; try discriminate; try reflexivity.
  all: try (intros [_ H]; destruct (H T) as [_ Q]; now elim (Q E)).
  all: intros _; split; [discriminate|]; intros _; split; [eauto|]; try congruence.
Qed.
Lemma feed_error_None : forall `{U : Uni} g h before, feed_error_from g before h = None <->
  forall b t a after, h = b ++ OStart t a :: after -> start_error g (open_after (before ++ b)) t a = None.
Proof.
  intros U g. induction h as [|o h IH]; intros before; cbn [feed_error_from].
  - split; [|reflexivity]. intros _ [|? ?] t a after H; discriminate.
  - destruct (match o with OStart t a => start_error g (open_after before) t a | _ => None end) as [e|] eqn:E.
    + split; [discriminate|]. intros H. destruct o; try discriminate. specialize (H [] _ _ _ eq_refl). rewrite app_nil_r in H. congruence.
    + rewrite IH. split.
      * intros H b t a after Q. destruct b as [|x b]; cbn [app] in Q; injection Q as -> ->; [now rewrite app_nil_r|].
        rewrite <- (H b t a after eq_refl), <- app_assoc. reflexivity.
      * intros H b t a after ->. rewrite <- app_assoc. apply (H (o :: b) t a after eq_refl).
Qed.

Lemma deepest_nonneg : forall l ps, 0 <= deepest l ps.
Proof. induction l as [|k l IH]; intros [|q ps]; cbn [deepest]; try lia. specialize (IH ps). lia. Qed.
Lemma indentation_Tag : forall i tg a kids p, indentation (Tag i tg a kids) p =
      (if seqb tg (lit "blockquote") || seqb tg (lit "dd") then 2
       else if seqb tg (lit "li") then
         if inside "ol" p then len (str_of_Z (Z.of_nat (ps_index p) + 1)) + 2 else 2
       else 0) + deepest kids (positions (tg :: ps_up p) kids).
Proof.
  intros. cbn [indentation]. f_equal.
Qed.
Lemma fits_deep : forall t p w, indentation t p < pl_wrap w -> fits t p w = true.
Proof.
  induction t as [i tg a kids IH|i x] using tree_ind2; intros p w H; [|reflexivity].
  rewrite indentation_Tag in H. rewrite fits_Tag. cbv zeta. set (ps := positions (tg :: ps_up p) kids) in *.
  assert (G : forall w, deepest kids ps < pl_wrap w -> fits_all kids ps w = true).
  { clear H. clearbody ps. revert ps. induction IH as [|k kids E _ IH2]; intros [|q ps] v L; cbn [deepest fits_all] in *; auto.
    rewrite E, IH2 by lia. reflexivity. }
  pose proof (deepest_nonneg kids ps) as N.
  destruct (seqb_spec tg (lit "p")) as [->|N1].
  { change (0 + deepest kids ps < pl_wrap w) in H. rewrite G by lia. rewrite andb_true_r. apply orb_true_iff. right. lia. }
  destruct (seqb_spec tg (lit "blockquote")) as [->|N2].
  { change (2 + deepest kids ps < pl_wrap w) in H. apply G. unfold beside. cbn [pl_wrap]. change (len (lit "> ")) with 2. lia. }
  destruct (seqb_spec tg (lit "li")) as [->|N3].
  { change (seqb (lit "li") (lit "dd")) with false in H. change (seqb (lit "li") (lit "blockquote")) with false in H.
    change (seqb (lit "li") (lit "li")) with true in H. cbn [orb] in H. cbv iota in H.
    destruct (inside "ol" p).
    - pose proof (len_app (str_of_Z (Z.of_nat (ps_index p) + 1)) (lit ". ")) as L. change (len (lit ". ")) with 2 in L.
      rewrite G by (unfold beside; cbn [pl_wrap]; lia). rewrite andb_true_r. lia.
    - change (len (lit "* ")) with 2. rewrite G by (unfold beside; cbn [pl_wrap]; change (len (lit "* ")) with 2; lia). rewrite andb_true_r. lia. }
  destruct (seqb_spec tg (lit "dd")) as [->|N4].
  { change (2 + deepest kids ps < pl_wrap w) in H. rewrite G by (unfold beside; cbn [pl_wrap]; change (len (lit ": ")) with 2; lia). rewrite andb_true_r. lia. }
  apply G. destruct (seqb_spec tg (lit "blockquote")); [congruence|]. destruct (seqb_spec tg (lit "dd")); [congruence|].
  destruct (seqb_spec tg (lit "li")); [congruence|]. cbn [orb] in H. lia.
Qed.

Close Scope Z_scope.
