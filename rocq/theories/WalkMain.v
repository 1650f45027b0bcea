(** Closing a parser with a limit on nested calls. *)
From Verif Require Import BaseFacts StrFacts SelFacts TreeFacts HistoryFacts DomFacts LinkTree RenderFacts DocFacts PageSpec PageRead CrashFacts StyleMain JudgeMain MarkupSpec MarkupFacts MarkupMain SourceSpec SourceTags SourceMain.
From Verif Require Export WalkFacts.

Section M.
Context `{U : Uni}.
Lemma levels_nodes : forall n t, levels t <= n -> levels t <= length (preorder t).
Proof.
  induction n as [|n IH]; intros t L; [lia|]. destruct t as [i tg a kids|i s]; cbn [preorder length]; [|cbn; lia]. cbn [levels] in *. fold (nesting kids) in *. apply le_n_S.
  assert (K : nesting kids <= n) by lia. clear L. induction kids as [|k kids IHk]; [cbn; lia|]. rewrite nesting_cons in *. cbn [flat_map]. rewrite app_length. specialize (IH k ltac:(lia)). specialize (IHk ltac:(lia)). lia.
Qed.
Lemma nesting_nodes : forall F, nesting F <= length (flat_map preorder F).
Proof. induction F as [|t F IH]; [cbn; lia|]. rewrite nesting_cons. cbn [flat_map]. rewrite app_length. pose proof (levels_nodes (levels t) t (Nat.le_refl _)). lia. Qed.
Lemma level_in : forall F t, In t F -> levels t <= nesting F.
Proof. induction F as [|x F IH]; intros t J; [destruct J|]. rewrite nesting_cons. destruct J as [->|J]; [lia|]. specialize (IH t J). lia. Qed.

Lemma walked : forall f g h s, run g h pstate0 = Ok s ->
  match assign_tags f g (p_dom s) (d_root (p_dom s)) (p_asg s) with
  | (_, TooDeep) => f <= nesting (tree_of h)
  | (_, Raises e) => assign_all g (p_dom s) (p_asg s) (seq 0 (length (d_nodes (p_dom s)))) = Err e
  | (sg, Done) => nesting (tree_of h) < f /\ exists l, assign_all g (p_dom s) (p_asg s) (seq 0 (length (d_nodes (p_dom s)))) = Ok l /\ sg = rev l ++ p_asg s
  end.
Proof.
  intros f g h s R. destruct (tree_of_document _ _ _ R) as [[DR DS] P]. pose proof (walk g (p_dom s) f (tree_of h) PRoot (p_asg s) DS) as W. rewrite <- DR, P in W.
  pose proof (pass_all g (p_dom s) _ (p_asg s) (seq_NoDup (length (d_nodes (p_dom s))) 0)) as PA.
  destruct (assign_tags f g (p_dom s) (d_root (p_dom s)) (p_asg s)) as [sg [|e|]]; [| |exact W].
  - destruct W as [W1 W2]. split; [exact W1|]. rewrite PA in W2. destruct (assign_all g (p_dom s) (p_asg s) (seq 0 (length (d_nodes (p_dom s))))) as [l|e]; [|discriminate]. injection W2 as <-. eauto.
  - rewrite PA in W. destruct (assign_all g (p_dom s) (p_asg s) (seq 0 (length (d_nodes (p_dom s))))) as [l|e']; [discriminate|]. now injection W as _ <-.
Qed.
Lemma same_rendering : forall f g h s l force i bx, run g h pstate0 = Ok s -> nesting (tree_of h) < f -> In i (seq 0 (length (d_nodes (p_dom s)))) ->
  assign_all g (p_dom s) (p_asg s) (seq 0 (length (d_nodes (p_dom s)))) = Ok l ->
  render_node f (p_dom s) (rev l ++ p_asg s) force i bx = render_node (render_fuel (p_dom s)) (p_dom s) l force i bx.
Proof.
  intros f g h s l force i bx R L J AS. destruct (tree_of_document _ _ _ R) as [[DR DS] P]. rewrite <- P in J.
  pose proof (all_keys g (p_dom s) _ _ _ AS) as KE.
  rewrite (render_ext (p_dom s) (rev l ++ p_asg s) l).
  - destruct (in_forest (p_dom s) (nesting (tree_of h)) _ PRoot i (Nat.le_refl _) DS J) as (q & t & T & <- & LT). apply (frames_enough (p_dom s)) with (p := q); [|exact T|lia|].
    + intros j n HN k K. rewrite (lo_pending _ _ (reach_links _ _ _ R) _ _ HN) in K. now apply filter_In in K as [K _].
    + pose proof (nesting_nodes (tree_of h)) as NN. rewrite P, seq_length in NN. unfold render_fuel. lia.
  - intros j n HN. rewrite get_front by (rewrite KE; apply seq_NoDup). apply get_all. rewrite KE. apply in_seq. pose proof (node_at_lt _ _ _ HN). lia.
Qed.
Lemma close_walk : forall f g h s, run g h pstate0 = Ok s -> nesting (tree_of h) < f ->
  close_within f g s = Some (match close g s with Ok s' => Ok (p_chunks s', p_out s') | Err e => Err e end).
Proof.
  intros f g h s R L. pose proof (walked f g h s R) as W. unfold close_within, close. cbv zeta.
  destruct (assign_tags f g (p_dom s) (d_root (p_dom s)) (p_asg s)) as [sg [|e|]]; [| |lia].
  - destruct W as (_ & l & AS & ->). rewrite AS. cbn [bind]. f_equal. destruct (tree_of_document _ _ _ R) as [[DR DS] P].
    rewrite (mapM_ext (fun i => render_node f (p_dom s) (rev l ++ p_asg s) false i (g_box g)) (fun i => render_node (render_fuel (p_dom s)) (p_dom s) l false i (g_box g))).
    2:{ intros i J. apply (same_rendering f g h s l); auto. rewrite <- P. rewrite DR in J. apply in_map_iff in J as (t & <- & J). apply in_flat_map. exists t. split; [exact J|]. destruct t; now left. }
    assert (EF : mapM (fun i => render_node f (p_dom s) (rev l ++ p_asg s) true i (g_box g)) (p_footer s) = mapM (fun i => render_node (render_fuel (p_dom s)) (p_dom s) l true i (g_box g)) (p_footer s)).
    { apply mapM_ext. intros i J. apply (same_rendering f g h s l); auto. rewrite (lo_footer _ _ (reach_links _ _ _ R)) in J. now apply filter_In in J as [J _]. }
    destruct (mapM _ (d_root (p_dom s))) as [body|e]; cbn [bind]; [|reflexivity].
    destruct (seqb (g_link g) (lit "footer")); [|reflexivity]. revert EF. destruct (p_footer s) as [|k r]; intros EF; [reflexivity|]. rewrite EF. clear EF.
    match goal with |- context [mapM ?f (k :: r)] => destruct (mapM f (k :: r)) end; reflexivity.
  - now rewrite W.
Qed.
Lemma close_deep : forall f g h s, run g h pstate0 = Ok s -> f <= nesting (tree_of h) ->
  close_within f g s = None \/ exists e, close_within f g s = Some (Err e) /\ close g s = Err e /\ assign_all g (p_dom s) (p_asg s) (seq 0 (length (d_nodes (p_dom s)))) = Err e.
Proof.
  intros f g h s R L. pose proof (walked f g h s R) as W. unfold close_within, close. cbv zeta.
  destruct (assign_tags f g (p_dom s) (d_root (p_dom s)) (p_asg s)) as [sg [|e|]]; [lia| |now left]. right. exists e. rewrite W. auto.
Qed.

(** More frames change nothing but RecursionError. *)
Lemma more_frames : forall g d f f' tags sg sg' x, f <= f' -> assign_tags f g d tags sg = (sg', x) -> x <> TooDeep -> assign_tags f' g d tags sg = (sg', x).
Proof.
  intros g d. induction f as [|f IH]; intros f' tags sg sg' x L H N; cbn [assign_tags] in H; [congruence|]. destruct f' as [|f']; [lia|]. cbn [assign_tags]. revert sg H. induction tags as [|i r IHr]; intros sg H; [exact H|].
  destruct (assign_one g d sg i) as [a|e]; [|exact H]. destruct (assign_tags f g d _ ((i, a) :: sg)) as [sg1 [|e|]] eqn:E.
  - rewrite (IH f' _ _ _ _ ltac:(lia) E) by discriminate. auto.
  - rewrite (IH f' _ _ _ _ ltac:(lia) E) by discriminate. exact H.
  - congruence.
Qed.
Lemma close_more : forall f f' g h s r, run g h pstate0 = Ok s -> f <= f' -> close_within f g s = Some r -> close_within f' g s = Some r.
Proof.
  intros f f' g h s r R L H. destruct (Nat.lt_ge_cases (nesting (tree_of h)) f) as [K|K].
  - rewrite (close_walk f g h s R K) in H. rewrite (close_walk f' g h s R) by lia. exact H.
  - unfold close_within in *. cbv zeta in *. pose proof (walked f g h s R) as W. destruct (assign_tags f g (p_dom s) (d_root (p_dom s)) (p_asg s)) as [sg [|e|]] eqn:E; [lia| |discriminate].
    rewrite (more_frames _ _ f f' _ _ _ _ L E) by discriminate. exact H.
Qed.

(** ** How deep *)
Lemma nesting_app : forall F F', nesting (F ++ F') = Nat.max (nesting F) (nesting F').
Proof. induction F as [|t F IH]; intros F'; [reflexivity|]. cbn [app]. rewrite !nesting_cons, IH. lia. Qed.
Lemma nesting_plug : forall fs y hole root, nesting (plug fs (y :: hole) root) = Nat.max (nesting (plug fs [] root)) (length fs + nesting (y :: hole)).
Proof.
  induction fs as [|f fs IH]; intros y hole root; cbn [plug length].
  - rewrite !nesting_app. cbn [nesting map fold_right]. lia.
  - rewrite (IH (f_close f (y :: hole))), (IH (f_close f [])). unfold f_close. rewrite !(nesting_cons _ []). cbn [levels]. fold (nesting (f_kids f ++ y :: hole)) (nesting (f_kids f ++ [])). rewrite app_nil_r, nesting_app. cbn [nesting map fold_right]. lia.
Qed.
Lemma tree_snoc : forall h o, tree_of (h ++ [o]) = match o with
  | OStart t a => add_at (length (open_after h)) (Tag (length (items h)) t a []) (tree_of h)
  | OData s => add_at (length (open_after h)) (Text (length (items h)) (if inside_pre h then s else normalise s)) (tree_of h)
  | OEnd _ | OClose => tree_of h
  | OReset => []
  end.
Proof. intros h o. rewrite !tree_of_forest, zrun_snoc, zstep_forest. reflexivity. Qed.
Lemma nesting_add : forall h x, levels x = 1 -> nesting (add_at (length (open_after h)) x (tree_of h)) = Nat.max (nesting (tree_of h)) (S (length (open_after h))).
Proof.
  intros h x L. rewrite tree_of_forest, open_after_z, map_length. set (z := zrun h z0). clearbody z. unfold forest. rewrite add_here, nesting_plug. rewrite nesting_cons, L. cbn [nesting map fold_right]. lia.
Qed.

(** ** Source text *)
Lemma source_within : forall f o g src evs fail, construct o = Ok g -> source src evs fail ->
  render_text_within f o src = match feed_error g evs with
                               | Some e => Some (Err e)
                               | None => match fail with Some e => Some (Err e) | None => render_within f o evs end
                               end.
Proof.
  intros f o g src evs fail CN SO. assert (O0 : raw_ok None) by now left. unfold render_text_within, render_within. rewrite CN. unfold feed. cbn [parser0 h_raw h_cd h_p app].
  destruct SO as [l raw r l2 raw2 r2 R1 R2|l e R1|l raw r l2 e R1 R2].
  - assert (OR : raw_ok raw) by (pose proof (proj1 (reads_ends false) _ _ _ R1 O0) as X; now apply ends_fold in X). destruct (reads_quiet _ _ _ _ _ O0 R1) as [-> N1]. destruct (reads_quiet _ _ _ _ _ OR R2) as [T2 N2].
    assert (NC : ~ In OClose (l ++ l2)) by (rewrite in_app_iff; tauto). pose proof (feed_outcome g (l ++ l2) [] pstate0 eq_refl NC) as FO. fold (feed_error g (l ++ l2)) in FO. rewrite run_app in *.
    pose proof (deliver_calls g src l (TStop raw r) pstate0) as D. destruct (run g l pstate0) as [p1|e1]; cbn [bind] in *.
    + rewrite D. cbn [deliver h_raw h_cd h_p]. rewrite T2. pose proof (deliver_calls g r l2 (TStop raw2 r2) p1) as D2. destruct (run g l2 p1) as [p2|e2]; cbn [bind] in *.
      * rewrite D2. cbn [deliver h_p]. destruct (feed_error g (l ++ l2)) as [e|]; [discriminate FO|reflexivity].
      * destruct D2 as (h & ->). destruct (feed_error g (l ++ l2)) as [e|]; [congruence|destruct FO; discriminate].
    + destruct D as (h & ->). destruct (feed_error g (l ++ l2)) as [e|]; [congruence|destruct FO; discriminate].
  - destruct (reads_quiet _ _ _ _ _ O0 R1) as [-> N1]. pose proof (feed_outcome g l [] pstate0 eq_refl N1) as FO. fold (feed_error g l) in FO. pose proof (deliver_calls g src l (TErr e) pstate0) as D. destruct (run g l pstate0) as [p1|e1].
    + rewrite D. cbn [deliver]. destruct (feed_error g l); [discriminate FO|reflexivity].
    + destruct D as (h & ->). destruct (feed_error g l); [congruence|destruct FO; discriminate].
  - assert (OR : raw_ok raw) by (pose proof (proj1 (reads_ends false) _ _ _ R1 O0) as X; now apply ends_fold in X). destruct (reads_quiet _ _ _ _ _ O0 R1) as [-> N1]. destruct (reads_quiet _ _ _ _ _ OR R2) as [T2 N2].
    assert (NC : ~ In OClose (l ++ l2)) by (rewrite in_app_iff; tauto). pose proof (feed_outcome g (l ++ l2) [] pstate0 eq_refl NC) as FO. fold (feed_error g (l ++ l2)) in FO. rewrite run_app in FO.
    pose proof (deliver_calls g src l (TStop raw r) pstate0) as D. destruct (run g l pstate0) as [p1|e1]; cbn [bind] in *.
    + rewrite D. cbn [deliver h_raw h_cd h_p]. rewrite T2. pose proof (deliver_calls g r l2 (TErr e) p1) as D2. destruct (run g l2 p1) as [p2|e2]; cbn [bind] in *.
      * rewrite D2. cbn [deliver]. destruct (feed_error g (l ++ l2)) as [e'|]; [discriminate FO|reflexivity].
      * destruct D2 as (h & ->). destruct (feed_error g (l ++ l2)) as [e'|]; [congruence|destruct FO; discriminate].
    + destruct D as (h & ->). destruct (feed_error g (l ++ l2)) as [e'|]; [congruence|destruct FO; discriminate].
Qed.
Lemma plain_feed : forall g f tag b, void tag = false -> seqb tag (lit "a") = false -> feed_error_from g b (repeat (OStart tag []) f) = None.
Proof.
  intros g f tag b V NA. unfold void in V. apply orb_false_iff in V as [_ V2]. revert b. induction f as [|f IH]; intros b; [reflexivity|]. cbn [repeat feed_error_from]. unfold start_error, is_a, is_img. cbn [dlast]. rewrite NA, V2. cbn [orb]. apply IH.
Qed.
Lemma unclosed_source : forall n nm t, spells nm t -> ~ raw_element t -> source (concat (repeat (60%N :: nm ++ [62%N]) n)) (repeat (OStart t []) n) None.
Proof.
  intros n nm t SP NR. rewrite <- (app_nil_r (repeat (OStart t []) n)). assert (O0 : raw_ok None) by now left.
  apply (so_read _ (repeat (OStart t []) n) None [] [] None []); [|apply rd_nothing]. apply tokens_reads; [exact O0|].
  induction n as [|n IH]; [reflexivity|]. cbn [repeat concat]. rewrite (start_tokens (sm := false) false t [] (60%N :: nm ++ [62%N])).
  - assert (E : seqb t (lit "script") || seqb t (lit "style") = false); [|rewrite E, IH; reflexivity]. apply orb_false_iff. split; apply seqb_neq; intros ->; apply NR; [now left|now right].
  - pose proof (sa_plain false t [] nm [] false [] SP (aa_nil false) (Forall_nil _)) as X. exact X.
Qed.
End M.
