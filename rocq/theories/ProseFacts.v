(** Proofs about the width of running text. *)
From Verif Require Import WrapFacts WrapLoop WrapWidth WrapProps.
From Verif Require Import BaseFacts StrFacts SelFacts TreeFacts HistoryFacts DomFacts LineFacts BoxFacts AnsiStyle CollapseFacts RenderFacts ElemFacts ElemText LinkFacts DocFacts.
From Verif Require Export ProseSpec PageRead PageRoom KeepFacts.
Open Scope Z_scope.

Section R.
Context `{U : Uni}.
Lemma prose_ind2 : forall P : tree -> Prop,
  (forall i s, all_space s = true -> P (Text i s)) ->
  (forall i a kids, only_code kids = false -> P (Tag i (lit "p") a kids)) ->
  (forall i a kids, Forall prose kids -> Forall P kids -> P (Tag i (lit "div") a kids)) ->
  (forall i a kids, Forall prose kids -> Forall P kids -> (match kids with Text _ _ :: _ => False | _ => True end) -> P (Tag i (lit "blockquote") a kids)) ->
  forall t, prose t -> P t.
Proof.
  intros P H1 H2 H3 H4. fix IH 2. intros t H. destruct H as [i s H|i a kids H|i a kids H|i a kids H X].
  - now apply H1.
  - now apply H2.
  - apply H3; auto. induction H; constructor; auto.
  - apply H4; auto. clear X. induction H; constructor; auto.
Qed.
Local Notation narrow := (within visible).
Lemma kept_esc : forall a b, kept a b -> ~ In 27%N b -> ~ In 27%N a.
Proof.
  intros a b H N I. apply N. apply kept_scattered in H.
  assert (I2 : In 27%N (nonspace a)) by (unfold nonspace; apply filter_In; auto).
  clear - H I2. induction H as [|x u v H IH|x u v H IH]; auto; [|right; auto]. destruct I2 as [->|I2]; [now left|right; auto].
Qed.
Lemma narrow_spaces : forall w k s, all_space s = true -> narrow w k s.
Proof.
  intros w k s H. apply within_nocount. intros c I. unfold visible. unfold all_space in H. rewrite forallb_forall in H. now rewrite (H c I).
Qed.
Lemma spaces_blank : forall n, all_space (spaces n) = true.
Proof. intros. unfold spaces, all_space. apply forallb_forall. intros c I. apply repeat_spec in I. now subst. Qed.
Lemma narrow_pad : forall w n l k, narrow w k l -> narrow w k (pad n l).
Proof. intros w n l k H. unfold pad. apply within_app. split; auto. apply narrow_spaces, spaces_blank. Qed.
Lemma narrow_rows0 : forall w n ls, Forall (narrow w 0) ls -> narrow w 0 (rows n ls).
Proof. intros w n ls H. unfold rows, nl. apply within_join. apply Forall_map. eapply Forall_impl; [|exact H]. intros l L. now apply narrow_pad. Qed.
(** Lines split and filled up again. *)
Lemma narrow_refill : forall w n c k, narrow w k c -> narrow w k (rows n (split_on 10%N c)).
Proof.
  intros w n c k H. rewrite <- (join_split_on 10%N c) in H. unfold rows, nl. destruct (split_on 10%N c) as [|x r]; [exact I|].
  destruct r as [|y r]; [cbn [map]; change (narrow w k x) in H; change (narrow w k (pad n x)); now apply narrow_pad|].
  rewrite join_cons2 in H. cbn [map]. rewrite join_cons2. cbn [app] in *. apply within_nl in H as [H1 H2]. apply within_nl. split; [now apply narrow_pad|].
  apply within_join in H2. change (pad n y :: map (pad n) r) with (map (pad n) (y :: r)). apply within_join. apply Forall_map. eapply Forall_impl; [|exact H2]. intros l L. now apply narrow_pad.
Qed.
Lemma narrow_newline : forall w k s, 1 <= k -> True -> narrow w 0 s -> forall j, narrow w j (newlines 1 ++ s).
Proof. intros w k s _ _ H j. change (newlines 1 ++ s) with (10%N :: s). now apply (within_nl visible w j [] s). Qed.
Lemma narrow_stack1 : forall w n ls b j, Forall (narrow n 0) ls -> narrow n j (stack w 1 ls b).
Proof.
  intros w n ls b j H. unfold stack. change (newlines 1 ++ rows (pl_line w) ls ++ newlines b) with (10%N :: rows (pl_line w) ls ++ newlines b).
  apply (within_nl visible n j []). split; [exact I|]. apply within_app. split; [now apply narrow_rows0|apply within_newlines].
Qed.
Lemma narrow_stack0 : forall w n ls b, Forall (narrow n 0) ls -> narrow n 0 (stack w 0 ls b).
Proof. intros w n ls b H. unfold stack. change (newlines 0) with (@nil N). cbn [app]. apply within_app. split; [now apply narrow_rows0|apply within_newlines]. Qed.
Lemma paragraph_lines : forall w c ls, 0 < pl_wrap w -> paragraph w c = Ok ls -> ~ In 27%N (concat ls) -> Forall (narrow (pl_wrap w) 0) ls.
Proof.
  intros w c ls L H NE. unfold paragraph in H. inv_bind H. apply ok_inj in H. subst ls.
  revert x E NE. generalize (split_on 10%N c). induction l as [|y l IH]; intros x E NE; cbn [mapM] in E.
  - apply ok_inj in E. subst. constructor.
  - inv_bind E. inv_bind E. apply ok_inj in E. subst. cbn [map concat] in *. rewrite concat_app in NE. apply Forall_app. split.
    + assert (W : Forall (narrow (pl_wrap w) 0) x0).
      { apply Forall_forall. intros z I. unfold wrap_to in E0.
        assert (V : len (strip_esc z) <= pl_wrap w) by (eapply (C21_wrapped_width (text_wrap (pl_wrap w))); [reflexivity|exact L|exact L|exact E0|exact I]).
        change (vlen z <= pl_wrap w) in V. rewrite vlen_no_esc in V; [apply within_len; lia|].
        intros J. apply NE. apply in_or_app. left. destruct x0 as [|u v]; [destruct I|]. change (some_line (u :: v)) with (u :: v).
        apply in_concat. exists z. auto. }
      destruct x0 as [|u v]; [constructor; [exact I|constructor]|exact W].
    + apply (IH _ E1). intros J. apply NE. apply in_or_app. now right.
Qed.
Variables (g : cfg) (number : nat -> Z).
(** Whether what is before it on the line matters. *)
Definition flush (t : tree) (p : pos) : bool :=
  match t with
  | Tag _ tg _ _ => seqb tg (lit "p") && inside "blockquote" p && ps_first p
  | Text _ _ => false
  end.
Definition fitting (t : tree) (p : pos) : Prop := forall w x, indentation t p < pl_wrap w -> show g number false t p w = Ok x -> ~ In 27%N x ->
  narrow (pl_wrap w) 0 x /\ (flush t p = false -> forall k, narrow (pl_wrap w) k x).
Lemma prose_kids : forall kids ps w x n, Forall2 fitting kids ps -> Forall2 (fun t p => flush t p = false) (tl kids) (tl ps) ->
  deepest kids ps < n -> n = pl_wrap w -> in_order (at_positions (map (show g number false) kids) ps w) = Ok x -> ~ In 27%N x ->
  narrow n 0 x /\ (Forall2 (fun t p => flush t p = false) kids ps -> forall k, narrow n k x).
Proof.
  assert (G : forall kids ps w x, Forall2 fitting kids ps -> Forall2 (fun t p => flush t p = false) kids ps ->
    deepest kids ps < pl_wrap w -> in_order (at_positions (map (show g number false) kids) ps w) = Ok x -> ~ In 27%N x -> forall k, narrow (pl_wrap w) k x).
  { intros kids ps w x H. revert x. induction H as [|t p kids ps H _ IH]; intros x FL D E NE k; cbn [map at_positions in_order deepest] in *.
    - apply ok_inj in E. subst. exact I.
    - inv_bind E. inv_bind E. apply ok_inj in E. subst. inversion FL; subst. 
      assert (N1 : ~ In 27%N x0) by (intros J; apply NE, in_or_app; now left). assert (N2 : ~ In 27%N x1) by (intros J; apply NE, in_or_app; now right).
      apply within_app. split; [apply (proj2 (H w x0 ltac:(lia) ltac:(eassumption) N1)); assumption|apply IH; auto; lia]. }
  intros kids ps w x n H FT D -> E NE. split; [|intros FL; now apply (G kids ps w x)].
  inversion H as [|t p kids' ps' H1 H2]; subst; cbn [map at_positions in_order deepest tl] in *.
  - apply ok_inj in E. subst. exact I.
  - inv_bind E. inv_bind E. apply ok_inj in E. subst.
    assert (N1 : ~ In 27%N x0) by (intros J; apply NE, in_or_app; now left). assert (N2 : ~ In 27%N x1) by (intros J; apply NE, in_or_app; now right).
    apply within_app. split; [apply (proj1 (H1 w x0 ltac:(lia) ltac:(eassumption) N1))|apply (G kids' ps' w x1); auto; lia].
Qed.
Lemma prose_not_put : forall kids, Forall prose kids -> existsb (put g "after_block") kids = false
  /\ forall ps w, in_order (at_positions (map (fun k => if put g "after_block" k then show g number true k else fun _ _ => Ok []) kids) ps w) = Ok [].
Proof.
  intros kids H. assert (P : Forall (fun t => put g "after_block" t = false) kids).
  { eapply Forall_impl; [|exact H]. intros t T. inversion T; subst; reflexivity. }
  clear H. induction P as [|t kids H _ [IH1 IH2]]; [split; [reflexivity|intros [|] w; reflexivity]|]. cbn [existsb map]. rewrite H. split; [exact IH1|].
  intros [|p ps] w; [reflexivity|]. cbn [at_positions in_order bind]. now rewrite IH2.
Qed.
Lemma show_p : forall i a kids p w, show g number false (Tag i (lit "p") a kids) p w =
  let* c := (let* x := in_order (at_positions (map (show g number false) kids) (positions (lit "p" :: ps_up p) kids) w) in
    let* y := in_order (at_positions (map (fun k => if put g "after_block" k then show g number true k else fun _ _ => Ok []) kids) (positions (lit "p" :: ps_up p) kids) w) in
    Ok (x ++ (if existsb (put g "after_block") kids then nl else []) ++ y)) in
  let* ls := if only_code kids then Ok (split_on 10%N c) else paragraph w c in
  Ok (stack w (fst (p_margins p)) ls (snd (p_margins p))).
Proof. reflexivity. Qed.
Lemma show_div : forall i a kids p w, show g number false (Tag i (lit "div") a kids) p w =
  let* c := (let* x := in_order (at_positions (map (show g number false) kids) (positions (lit "div" :: ps_up p) kids) w) in
    let* y := in_order (at_positions (map (fun k => if put g "after_block" k then show g number true k else fun _ _ => Ok []) kids) (positions (lit "div" :: ps_up p) kids) w) in
    Ok (x ++ (if existsb (put g "after_block") kids then nl else []) ++ y)) in
  Ok (stack w 0 (split_on 10%N c) 0).
Proof. reflexivity. Qed.
Lemma show_quote : forall i a kids p w, show g number false (Tag i (lit "blockquote") a kids) p w =
  let* c := (let* x := in_order (at_positions (map (show g number false) kids) (positions (lit "blockquote" :: ps_up p) kids) (beside (lit "> ") w)) in
    let* y := in_order (at_positions (map (fun k => if put g "after_block" k then show g number true k else fun _ _ => Ok []) kids) (positions (lit "blockquote" :: ps_up p) kids) (beside (lit "> ") w)) in
    Ok (x ++ (if existsb (put g "after_block") kids then nl else []) ++ y)) in
  Ok (stack w 1 (some_line (map (fun l => lit "> " ++ l) (splitlines false c))) 1).
Proof. reflexivity. Qed.
Lemma position_up : forall up kids k, ps_up (position up kids k) = up.
Proof. reflexivity. Qed.
Lemma flush_outside : forall up kids, (match up with x :: _ => seqb x (lit "blockquote") = false | [] => True end) ->
  Forall2 (fun t p => flush t p = false) kids (positions up kids).
Proof.
  intros up kids H. unfold positions. generalize kids at 2 as all. intros all. generalize 0%nat as n. induction kids as [|t kids IH]; intros n; cbn [length seq map]; constructor; auto.
  unfold flush. destruct t as [i tg a ks|]; auto. unfold inside. rewrite position_up. destruct up as [|x r]; [now rewrite andb_false_r|].
  rewrite H. now rewrite andb_false_r.
Qed.
Lemma flush_tail : forall up i tg a ks rest, Forall2 (fun t p => flush t p = false) rest (tl (positions up (Tag i tg a ks :: rest))).
Proof.
  intros. unfold positions. cbn [length seq map tl]. generalize (Nat.le_refl 1). generalize 1%nat at 2 3 as n.
  set (all := Tag i tg a ks :: rest). assert (E : forall n, (1 <= n)%nat -> existsb element (firstn n all) = true).
  { intros [|n] L; [lia|reflexivity]. }
  clearbody all. induction rest as [|t rest IH]; intros n L; cbn [length seq map]; constructor; auto.
  unfold flush. destruct t as [j t b l|]; auto. unfold position. cbn [ps_first]. rewrite E by exact L. apply andb_false_r.
Qed.
Lemma splitlines_within : forall n c, narrow n 0 c -> Forall (narrow n 0) (splitlines false c).
Proof.
  intros n c H. destruct (lines_of_exists c) as [ls L]. rewrite (within_lines visible n c ls L) in H.
  destruct (lines_of_splitlines c ls L) as [_ ->]. now apply Forall_map.
Qed.
Lemma splitlines_no_break : forall c, Forall no_break (splitlines false c).
Proof.
  intros c. destruct (lines_of_exists c) as [ls L]. destruct (lines_of_splitlines c ls L) as [_ ->]. apply Forall_map.
  clear -L. induction L; constructor; auto.
Qed.
Lemma show_fitting : forall t, prose t -> forall p, fitting t p.
Proof.
  intros t H. induction H as [i s H|i a kids H|i a kids HP H|i a kids HP H HT] using prose_ind2; intros p w x D E NE.
  - cbn [show] in E. apply ok_inj in E. subst. split; [|intros _ k]; now apply narrow_spaces.
  - rewrite show_p, H in E. inv_bind E. inv_bind E. apply ok_inj in E.
    rewrite indentation_Tag in D. change (0 + deepest kids (positions (lit "p" :: ps_up p) kids) < pl_wrap w) in D.
    pose proof (deepest_nonneg kids (positions (lit "p" :: ps_up p) kids)).
    assert (L : Forall (narrow (pl_wrap w) 0) x1).
    { eapply paragraph_lines; [lia|eassumption|]. eapply kept_esc; [|exact NE]. subst x. apply kept_stack. }
    subst x. unfold flush. change (seqb (lit "p") (lit "p")) with true. cbn [andb]. unfold p_margins in *. cbn [fst snd] in *. destruct (inside "blockquote" p && ps_first p).
    + split; [now apply narrow_stack0|discriminate].
    + split; [now apply narrow_stack1|intros _ k; now apply narrow_stack1].
  - rewrite show_div in E. destruct (prose_not_put kids HP) as [P1 P2]. rewrite P1 in E. inv_bind E. apply ok_inj in E. inv_bind E0. rewrite P2 in E0. cbn [bind app] in E0.
    apply ok_inj in E0. rewrite !app_nil_r in E0. subst x1.
    rewrite indentation_Tag in D. change (0 + deepest kids (positions (lit "div" :: ps_up p) kids) < pl_wrap w) in D.
    assert (NE0 : ~ In 27%N x0).
    { eapply kept_esc; [|exact NE]. subst x. eapply kept_trans; [|apply kept_stack]. apply kept_split. }
    assert (F2 : Forall2 (fitting) kids (positions (lit "div" :: ps_up p) kids)).
    { assert (L : length (positions (lit "div" :: ps_up p) kids) = length kids) by apply positions_length. clear - H L. revert L. generalize (positions (lit "div" :: ps_up p) kids).
      induction H; intros [|q ps] L; cbn in L; try discriminate; constructor; auto. }
    assert (FL : Forall2 (fun t p => flush t p = false) kids (positions (lit "div" :: ps_up p) kids)) by now apply flush_outside.
    assert (K : forall k, narrow (pl_wrap w) k x0).
    { apply (prose_kids kids (positions (lit "div" :: ps_up p) kids) w x0 (pl_wrap w)); auto; try lia. 
      inversion FL; subst; cbn [tl]; auto. }
    subst x. unfold stack. change (newlines 0) with (@nil N). cbn [app]. rewrite app_nil_r. split; [|intros _ k]; now apply narrow_refill.
  - rewrite show_quote in E. destruct (prose_not_put kids HP) as [P1 P2]. rewrite P1 in E. inv_bind E. apply ok_inj in E. inv_bind E0. rewrite P2 in E0. cbn [bind app] in E0.
    apply ok_inj in E0. rewrite !app_nil_r in E0. subst x1.
    rewrite indentation_Tag in D. change (2 + deepest kids (positions (lit "blockquote" :: ps_up p) kids) < pl_wrap w) in D.
    pose proof (deepest_nonneg kids (positions (lit "blockquote" :: ps_up p) kids)).
    assert (NE0 : ~ In 27%N x0).
    { eapply kept_esc; [|exact NE]. subst x. eapply kept_trans; [|apply kept_stack]. eapply kept_trans; [|apply kept_some_line].
      eapply kept_trans; [|apply kept_concat; intros; apply kept_l, kept_refl]. apply kept_splitlines. }
    assert (F2 : Forall2 (fitting) kids (positions (lit "blockquote" :: ps_up p) kids)).
    { assert (L : length (positions (lit "blockquote" :: ps_up p) kids) = length kids) by apply positions_length. clear - H L. revert L. generalize (positions (lit "blockquote" :: ps_up p) kids).
      induction H; intros [|q ps] L; cbn in L; try discriminate; constructor; auto. }
    assert (K : narrow (pl_wrap w - 2) 0 x0).
    { refine (proj1 (prose_kids kids (positions (lit "blockquote" :: ps_up p) kids) (beside (lit "> ") w) x0 (pl_wrap w - 2) F2 _ _ eq_refl _ NE0)); [|lia|eassumption].
      destruct kids as [|[i0 tg0 a0 ks0|] rest]; [constructor|apply flush_tail|destruct HT]. }
    assert (Q : Forall (narrow (pl_wrap w) 0) (some_line (map (fun l => lit "> " ++ l) (splitlines false x0)))).
    { assert (Q : Forall (narrow (pl_wrap w) 0) (map (fun l => lit "> " ++ l) (splitlines false x0))).
      { apply Forall_map. eapply Forall_impl; [|apply splitlines_within; exact K]. intros l L. apply within_app. split; [apply within_len; [change (len (lit "> ")) with 2|]; lia|].
        change (column 0 (lit "> ")) with (0 + 2). replace (pl_wrap w) with (pl_wrap w - 2 + 2) by lia. apply within_shift; [lia|exact L]. }
      revert Q. generalize (map (fun l : list N => lit "> " ++ l) (splitlines false x0)). intros [|u v] Q; [constructor; [exact I|constructor]|exact Q]. }
    subst x. split; [|intros _ k]; now apply narrow_stack1.
Qed.
End R.

Section P.
Context `{U : Uni}.
Local Notation narrow := (within visible).
Lemma body_narrow : forall g number F x, Forall prose F -> deepest F (positions [] F) < wrap_width (g_box g) ->
  body g number F = Ok x -> ~ In 27%N x -> narrow (wrap_width (g_box g)) 0 x.
Proof.
  intros g number F x HP D H NE. unfold body in H.
  assert (FL : Forall2 (fun t p => flush t p = false) F (positions [] F)) by now apply flush_outside.
  refine (proj1 (prose_kids g number F (positions [] F) (page_place g) x _ _ _ D eq_refl H NE)).
  - assert (L : length (positions [] F) = length F) by apply positions_length. clear - HP L. revert L. generalize (positions [] F).
    induction HP; intros [|q ps] L; cbn in L; try discriminate; constructor; auto. now apply show_fitting.
  - inversion FL; subst; cbn [tl]; auto.
Qed.
Lemma trim_narrow : forall w k s, narrow w k s -> narrow w k (rstrip s).
Proof. intros w k s H. destruct (rstrip_spec s) as (sp & E & _ & _). rewrite E in H. now apply within_app in H as [H _]. Qed.
Lemma finished_narrow : forall g s n, 0 <= n -> 0 <= sd_left (b_margin (g_box g)) -> narrow n 0 s -> narrow (n + sd_left (b_margin (g_box g))) 0 (finished g s).
Proof.
  intros g s n L M H. unfold finished. cbv zeta. set (t := newlines _ ++ _ ++ _).
  assert (T : narrow (n + sd_left (b_margin (g_box g))) 0 t).
  { unfold t. rewrite !within_app, column_newlines. split; [apply within_newlines|]. split; [|apply within_newlines].
    replace (sd_left (b_margin (g_box g))) with (len (spaces (sd_left (b_margin (g_box g))))) at 1 by (rewrite spaces_len; lia).
    apply (within_prefixed visible n _ s); auto; [apply no_break_spaces|apply within_len; [|lia]|now apply prefixed_iff]. lia. }
  destruct (g_optimise g); [|exact T]. unfold nl. apply within_join. apply within_split in T. apply Forall_map. eapply Forall_impl; [|exact T].
  intros l. apply trim_narrow.
Qed.
Lemma page_narrow : forall g F out, Forall prose F -> no_foot g F -> deepest F (positions [] F) < wrap_width (g_box g) -> 0 <= sd_left (b_margin (g_box g)) ->
  page g F = Ok out -> ~ In 27%N out -> narrow (wrap_width (g_box g) + sd_left (b_margin (g_box g))) 0 out.
Proof.
  intros g F out HP NF D M H NE. unfold page in H. cbv zeta in H. inv_bind H. inv_bind H. apply ok_inj in H.
  pose proof (deepest_nonneg F (positions [] F)).
  assert (Y : x0 = []).
  { unfold footer in E0. destruct (seqb_spec (g_link g) (lit "footer")) as [EF|EF]; [|now apply ok_inj in E0].
    destruct NF as [NF|NF]; [congruence|]. cbv zeta in E0.
    assert (Z : filter (fun x => put g "footer" (fst x)) (located_all F (positions [] F)) = []).
    { clear - NF. induction NF as [|y l Hy _ IH]; [reflexivity|]. cbn [filter]. now rewrite Hy. }
    rewrite Z in E0. cbn [map in_order bind app] in E0. now apply ok_inj in E0. }
  subst x0. rewrite app_nil_r in H. subst out. apply finished_narrow; [lia|exact M|].
  eapply body_narrow; eauto. eapply kept_esc; [|exact NE]. apply finished_kept.
Qed.
Lemma narrow_lines : forall n s, 0 <= n -> narrow n 0 s -> forall l, In l (splitlines false s) -> len (rstrip l) <= n.
Proof.
  intros n s L H l I. pose proof (splitlines_within n s H) as W. eapply Forall_forall in W; [|exact I].
  apply within_rstrip; auto. pose proof (splitlines_no_break s) as B. eapply Forall_forall in B; eauto.
Qed.
End P.
Close Scope Z_scope.
