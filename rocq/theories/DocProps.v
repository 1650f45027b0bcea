(** Whole documents: the footer, closing twice, the constructor, trailing white
    space and page margins. *)
From Verif Require Import BaseFacts StrFacts LineFacts TreeFacts HistoryFacts RenderFacts ElemFacts LinkSettings DocFacts Fixture.
From Verif Require Export DocSpec.
Open Scope Z_scope.

Section P.
Context `{U : Uni}.

(** ** C20 *)
Theorem C20_constructor : forall o,
  let rejected := o_format o = lit "gophermap" /\ (o_link o = lit "inline" \/ o_host o = []) in
  (construct o = Err EValue <-> rejected) /\ (~ rejected -> exists g, construct o = Ok g).
Proof.
  intros o rejected. pose proof (construct_cases o) as C. cbv zeta in C. unfold rejected.
  destruct (seqb_spec (o_format o) (lit "gophermap")) as [E|E], (seqb_spec (o_link o) (lit "inline")) as [E1|E1], (seqb_spec (o_host o) []) as [E2|E2];
    cbn [andb orb] in C; try (rewrite C); try (destruct C as (g & ->)); (split; [split; [intros X; try discriminate X|intros X]|intros X]); try tauto; eauto.
Qed.

(** ** C37 *)
Theorem C37_trailing : forall o h,
  match render_doc (with_optimise o false) h, render_doc (with_optimise o true) h with
  | Ok s, Ok s' => split_on 10%N s' = map rstrip (split_on 10%N s) /\ Forall trim_ended (split_on 10%N s')
  | Err e, Err e' => e = e'
  | _, _ => False
  end.
Proof.
  intros o h. pose proof (render_opt o h) as R. destruct (render_doc (with_optimise o false) h), (render_doc (with_optimise o true) h); cbn [res_rel] in R; auto.
  split; auto. unfold trimmed in R. rewrite R. apply Forall_map. apply Forall_forall. intros l _. apply rstrip_trim.
Qed.

(** ** C38: the page, and C14: what its end is *)
Theorem C38_page : forall o h out, o_optimise o = false -> ~ In OClose h -> render_doc o h = Ok out ->
  exists g s sg body mid, construct o = Ok g /\ run g h pstate0 = Ok s
    /\ assign_all g (p_dom s) [] (seq 0 (length (d_nodes (p_dom s)))) = Ok sg
    /\ page_body g (p_dom s) sg body
    /\ prefixed (spaces (sd_left (b_margin (g_box g)))) body mid
    /\ out = newlines (sd_top (b_margin (g_box g))) ++ mid ++ newlines (sd_bottom (b_margin (g_box g))).
Proof.
  intros o h out NO NC R. unfold render_doc in R. inv_bind R. rename x into g. rewrite run_app in R. inv_bind R. inv_bind E0. rename x0 into s.
  cbn [run step] in E0. inv_bind E0. injection E0 as ->. injection R as <-.
  destruct (fresh_run _ _ _ E1 NC) as [F1 F2]. destruct (close_parts _ _ _ _ E1 E2) as (sg & body & A & PB & _ & mid & M1 & M2).
  rewrite F2 in A. rewrite F1 in M1. cbn [concat app] in M1.
  assert (GO : g_optimise g = false).
  { unfold construct in E. destruct (_ && _)%bool in E; [discriminate|]. destruct (_ && _)%bool in E; [discriminate|]. cbv zeta in E.
    destruct (dget _ _) as [[? ?]|] in E; [|discriminate]. injection E as <-. exact NO. }
  rewrite GO in M2. exists g, s, sg, body, mid. auto 10.
Qed.
(** The box of the page is the one given, or 67 wide without margins. *)
Theorem C38_box : forall o g, construct o = Ok g ->
  g_box g = match o_box o with Some b => b | None => root_box 67 sides0 sides0 sides0 None end.
Proof.
  intros o g E. unfold construct in E. destruct (_ && _)%bool in E; [discriminate|]. destruct (_ && _)%bool in E; [discriminate|]. cbv zeta in E.
  destruct (dget _ _) as [[? ?]|] in E; [|discriminate]. injection E as <-. reflexivity.
Qed.

(** ** C14: with links in the footer, and images there or inline, the list is
    1, 2, 3, ... up to the number of links *)
Definition number_at (g : cfg) (d : dom) (i : nat) : list Z :=
  match node_at d i with Some n => reference_of g n | None => [] end.
Theorem C14_numbers_partial : forall g h s, run g h pstate0 = Ok s -> g_link g = lit "footer" ->
  g_image g = lit "footer" \/ g_image g = lit "inline" ->
  flat_map (number_at g (p_dom s)) (listed g (p_dom s)) = map Z.of_nat (seq 1 (count_numbered g (items h)))
  /\ length (listed g (p_dom s)) = count_numbered g (items h).
Proof.
  intros g h s H GL GI. destruct (reach_refs g h s H) as [R _]. rewrite references_seq in R.
  set (keep := fun n : node => match n_tag n with Some t => ((seqb t (lit "a") || seqb t (lit "img")) && seqb (placement g t) (lit "footer"))%bool | None => false end).
  assert (KE : forall i n, node_at (p_dom s) i = Some n -> reference_of g n = (if keep n then match n_link n with Some lk => [lc_reference (lk_ctx lk)] | None => [] end else [])
     /\ (keep n = true -> n_link n <> None)).
  { intros i n E. pose proof (lo_info _ _ (reach_links _ _ _ H) i n E) as L. unfold keep, reference_of. unfold link_info in L. unfold numbered, placement.
    destruct (n_tag n) as [t|]; [|split; [reflexivity|discriminate]]. unfold is_link in L. clear keep E.
    destruct (seqb_spec t (lit "img")) as [EI|NI]; [subst t|].
    - cbn [orb] in *. change (seqb (lit "img") (lit "a")) with false in *. cbn [orb] in *. destruct L as (lk & ref & L & _). rewrite L. cbn [andb].
      destruct GI as [-> | ->]; cbn; split; try discriminate; auto.
    - rewrite Bool.orb_false_r in *. destruct (seqb t (lit "a")); cbn [andb] in *.
      + destruct L as (lk & ref & L & _). rewrite L, GL. cbn. split; [auto|discriminate].
      + rewrite L. split; [auto|discriminate]. }
  assert (KR : forall i n, node_at (p_dom s) i = Some n -> keep n = match reference_of g n with [] => false | _ => true end).
  { intros i n E. destruct (KE i n E) as [-> K]. destruct (keep n); auto. destruct (n_link n); auto. elim K; auto. }
  rewrite (numbers_filter g (p_dom s) keep KR) in R.
  assert (L : listed g (p_dom s) = filter (fun i => match node_at (p_dom s) i with Some n => keep n | None => false end) (seq 0 (length (d_nodes (p_dom s))))).
  { unfold listed. rewrite GL. change (seqb (lit "footer") (lit "footer")) with true. cbv iota. reflexivity. }
  rewrite <- L in R. split; [exact R|].
  assert (LN : length (listed g (p_dom s)) = length (flat_map (number_at g (p_dom s)) (listed g (p_dom s)))).
  { rewrite L. clear R L. induction (seq 0 (length (d_nodes (p_dom s)))) as [|i l IH]; auto. cbn [filter].
    destruct (node_at (p_dom s) i) as [n|] eqn:E; auto. destruct (keep n) eqn:K; auto. cbn [length flat_map]. rewrite app_length, IH.
    destruct (KE i n E) as [KR' KN]. rewrite K in KR'. assert (NA : number_at g (p_dom s) i = reference_of g n) by (unfold number_at; now rewrite E).
    rewrite NA, KR'. destruct (n_link n); [reflexivity|]. exfalso. apply (KN K). reflexivity. }
  rewrite LN. unfold number_at. rewrite R, map_length, seq_length. reflexivity.
Qed.
(** A link listed after the block is pending at the element around it, among
    the others in document order. *)
Theorem C14_after_block_partial : forall g h s i n t, run g h pstate0 = Ok s -> is_tagged (p_dom s) i n t ->
  t = lit "a" \/ t = lit "img" -> placement g t = lit "after_block" ->
  exists j m, n_parent n = PNode j /\ node_at (p_dom s) j = Some m /\ In i (n_pending m)
    /\ n_pending m = filter (fun k => match node_at (p_dom s) k with
          | Some x => match n_tag x with Some t => ((seqb t (lit "a") || seqb t (lit "img")) && seqb (placement g t) (lit "after_block"))%bool | None => false end
          | None => false end) (n_children m).
Proof.
  intros g h s i n t H T TT PL.
  assert (P : placed g "after_block" (Some t) = true).
  { unfold placed, is_link. rewrite PL. destruct TT as [-> | ->]; reflexivity. }
  destruct (after_inside _ _ _ H i n t T P) as (j & J). destruct T as [T1 T2].
  pose proof (wf_parent _ (reach_wf _ _ _ H) i n T1) as W. rewrite J in W. destruct W as (_ & m & t' & M1 & M2 & M3).
  pose proof (lo_pending _ _ (reach_links _ _ _ H) j m M1) as L. exists j, m. split; auto. split; auto.
  assert (LE : n_pending m = filter (fun k => match node_at (p_dom s) k with
          | Some x => match n_tag x with Some t => ((seqb t (lit "a") || seqb t (lit "img")) && seqb (placement g t) (lit "after_block"))%bool | None => false end
          | None => false end) (n_children m)).
  { rewrite L. apply filter_ext. intros k. unfold placed, tag_at, is_link. destruct (node_at (p_dom s) k); reflexivity. }
  split; auto. rewrite L. apply filter_In. split; auto. unfold tag_at. rewrite T1, T2. exact P.
Qed.
(** ** C16: closing again, of a parser that was fed nothing *)
Theorem C16_close_empty_partial : forall g s1 s2, run g [OClose] pstate0 = Ok s1 -> run g [OClose; OClose] pstate0 = Ok s2 -> p_out s2 = p_out s1.
Proof.
  intros g s1 s2 H1 H2. cbn [run step] in *. inv_bind H1. inv_bind H2. rewrite E in E0. injection E0 as <-. injection H1 as <-. inv_bind H2. injection H2 as <-.
  unfold close in E. cbn in E. destruct (seqb (g_link g) (lit "footer")); injection E as <-; cbn in E0;
    (destruct (seqb (g_link g) (lit "footer")); injection E0 as <-; reflexivity).
Qed.
(** What closing again does instead: it always succeeds, and adds the body once more. *)
Theorem C16_close_again_partial : forall g h s1, ~ In OClose h -> run g (h ++ [OClose]) pstate0 = Ok s1 -> g_optimise g = false ->
  let page (body out : str) := exists mid, prefixed (spaces (sd_left (b_margin (g_box g)))) body mid
    /\ out = newlines (sd_top (b_margin (g_box g))) ++ mid ++ newlines (sd_bottom (b_margin (g_box g))) in
  exists s2 body, run g (h ++ [OClose; OClose]) pstate0 = Ok s2 /\ page body (p_out s1) /\ page (body ++ body) (p_out s2).
Proof.
  intros g h s1 NC H GO page. rewrite run_app in H. inv_bind H. cbn [run step] in H. inv_bind H. apply ok_inj in H. subst x0. rename x into s.
  destruct (fresh_run _ _ _ E NC) as [F1 F2]. destruct (close_twice _ _ _ E0) as (s2 & body & C2 & K1 & K2 & _).
  destruct (close_parts _ _ _ _ E E0) as (sg & b1 & _ & _ & P1 & mid & M1 & M2).
  assert (R1 : run g (h ++ [OClose]) pstate0 = Ok s1) by (rewrite run_app, E; cbn [bind run step]; rewrite E0; reflexivity).
  destruct (close_parts _ _ _ _ R1 C2) as (sg2 & b2 & _ & _ & P2 & mid2 & M3 & M4).
  rewrite F1 in *. cbn [concat app] in *. assert (b1 = body) by congruence. subst b1. rewrite K1 in *.
  assert (b2 = body) by (rewrite K2 in P2; apply app_inv_head in P2; congruence). subst b2. rewrite GO in *.
  exists s2, body. split; [|split; [exists mid; auto|exists mid2; auto]].
  rewrite run_app, E. cbn [bind run step]. rewrite E0. cbn [bind]. rewrite C2. reflexivity.
Qed.
End P.

(** ** Cases that meet the hypotheses, and refutations *)
Local Existing Instance U0.
Definition placements (link image : string) : options :=
  Options 67 None [] [] (lit "text") (lit link) (lit image) [] 70 false.
Definition two_links : list op :=
  [start "p"; starta "a" [("href", "/x")]%string; txt "x"; stop "a"; starta "img" [("src", "/y.png")]%string; stop "p"].
Example rejected_case : construct (Options 67 None [] [] (lit "gophermap") (lit "footer") (lit "inline") [] 70 true) = Err EValue
  /\ exists g, construct (Options 67 None [] [] (lit "gophermap") (lit "footer") (lit "inline") (lit "h") 70 true) = Ok g.
Proof. split; [reflexivity|]. eexists. reflexivity. Qed.
Example trailing_case : exists s s', render_doc (with_optimise default_options false) two_links = Ok s
  /\ render_doc (with_optimise default_options true) two_links = Ok s' /\ s <> s'.
Proof. eexists. eexists. split; [vm_compute; reflexivity|]. split; [vm_compute; reflexivity|]. discriminate. Qed.
Example page_case : exists out, render_doc (placements "footer" "footer") two_links = Ok out
  /\ o_optimise (placements "footer" "footer") = false /\ ~ In OClose two_links.
Proof. eexists. split; [vm_compute; reflexivity|]. split; [reflexivity|]. vm_compute. intuition discriminate. Qed.
Definition placed_cfg (link image : string) : cfg := match construct (placements link image) with Ok g => g | Err _ => g0 end.
Definition fed (g : cfg) (h : list op) : pstate := match run g h pstate0 with Ok s => s | Err _ => pstate0 end.
Example numbers_case : let g := placed_cfg "footer" "footer" in let s := fed g two_links in
  construct (placements "footer" "footer") = Ok g /\ run g two_links pstate0 = Ok s
  /\ g_link g = lit "footer" /\ g_image g = lit "footer" /\ listed g (p_dom s) = [1; 3]%nat.
Proof. split; [vm_compute; reflexivity|]. split; [vm_compute; reflexivity|]. split; [vm_compute; reflexivity|]. split; vm_compute; reflexivity. Qed.
Example after_case : let g := placed_cfg "after_block" "after_block" in let s := fed g two_links in
  construct (placements "after_block" "after_block") = Ok g /\ run g two_links pstate0 = Ok s
  /\ (exists n, is_tagged (p_dom s) 3 n (lit "img")) /\ placement g (lit "img") = lit "after_block".
Proof.
  split; [vm_compute; reflexivity|]. split; [vm_compute; reflexivity|]. split; [|vm_compute; reflexivity].
  eexists. split; vm_compute; reflexivity.
Qed.
(** Images for the footer are not listed unless links are listed there too. *)
Theorem C14_image_dangles_refuted : exists h out, h = [start "p"; starta "img" [("src", "/x.png")]%string; stop "p"]
  /\ render_doc (with_optimise (placements "after_block" "footer") true) h = Ok out /\ out = nl ++ lit "[Image][1]" ++ nl.
Proof. eexists. eexists. split; [reflexivity|]. split; vm_compute; reflexivity. Qed.
(** An image to be listed after the block, in a link placed inline, is not listed. *)
Theorem C14_inside_inline_refuted : exists h out,
  h = [start "p"; starta "a" [("href", "/y")]%string; starta "img" [("src", "/x.png")]%string; stop "a"; stop "p"]
  /\ render_doc (with_optimise (placements "inline" "after_block") true) h = Ok out /\ out = nl ++ lit "[[Image][1]](/y)" ++ nl.
Proof. eexists. eexists. split; [reflexivity|]. split; vm_compute; reflexivity. Qed.
(** Closing a second time doubles the page. *)
Theorem C16_close_again_refuted : exists h s1 s2, h = [start "p"; txt "x"; stop "p"]
  /\ run g0 (h ++ [OClose]) pstate0 = Ok s1 /\ run g0 (h ++ [OClose; OClose]) pstate0 = Ok s2
  /\ p_out s1 = nl ++ lit "x" ++ nl /\ p_out s2 = nl ++ lit "x" ++ nl ++ nl ++ lit "x" ++ nl.
Proof. eexists. eexists. eexists. split; [reflexivity|]. split; [vm_compute; reflexivity|]. split; [vm_compute; reflexivity|]. split; vm_compute; reflexivity. Qed.
Example again_case : let g := placed_cfg "footer" "footer" in let h := [start "p"; txt "x"; stop "p"] in
  ~ In OClose h /\ (exists s1, run g (h ++ [OClose]) pstate0 = Ok s1) /\ g_optimise g = false.
Proof. split; [vm_compute; intuition discriminate|]. split; [|vm_compute; reflexivity]. eexists. vm_compute. reflexivity. Qed.
Example empty_case : exists s1 s2, run g0 [OClose] pstate0 = Ok s1 /\ run g0 [OClose; OClose] pstate0 = Ok s2.
Proof. eexists. eexists. split; vm_compute; reflexivity. Qed.

Print Assumptions C20_constructor.
Print Assumptions C37_trailing.
Print Assumptions C38_page.
Print Assumptions C38_box.
Print Assumptions C14_numbers_partial.
Print Assumptions C14_after_block_partial.
Print Assumptions C14_image_dangles_refuted.
Print Assumptions C14_inside_inline_refuted.
Print Assumptions C16_close_empty_partial.
Print Assumptions C16_close_again_partial.
Print Assumptions C16_close_again_refuted.
Close Scope Z_scope.
