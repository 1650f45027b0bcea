(** Consequences of the zipper simulation for whole histories. *)
From Verif Require Export TreeFacts CollapseFacts.

Section HF.
Context `{U : Uni}.

(** ** Items *)
Fixpoint it_fs (fs : list frame) (root : list tree) : list item :=
  match fs with
  | [] => flat_map tree_items root
  | f :: r => it_fs r root ++ ITag (f_tag f) (f_attrs f) :: flat_map tree_items (f_kids f)
  end.

Lemma it_plug : forall fs hole root,
  flat_map tree_items (plug fs hole root) = it_fs fs root ++ flat_map tree_items hole.
Proof.
  induction fs; simpl; intros.
  - now rewrite flat_map_app'.
  - rewrite IHfs. simpl. rewrite flat_map_app', app_nil_r, <- app_assoc. reflexivity.
Qed.
Lemma it_add_leaf : forall t fs root fs' root',
  add_leaf t fs root = (fs', root') -> it_fs fs' root' = it_fs fs root ++ tree_items t.
Proof.
  intros t [|f r] root fs' root' H; simpl in H; inversion H; subst; simpl.
  - rewrite flat_map_app'. simpl. now rewrite app_nil_r.
  - rewrite flat_map_app'. simpl. rewrite app_nil_r.
    rewrite <- app_assoc. simpl. auto.
Qed.

Lemma data_text_nonspace : forall b s, nonspace (data_text b s) = nonspace s.
Proof. intros [|] s; simpl; auto. apply collapse_nonspace. Qed.

Lemma items_step : forall o z l,
  Forall2 same_item l (it_fs (z_open z) (z_root z)) ->
  Forall2 same_item (item_step o l) (it_fs (z_open (zstep o z)) (z_root (zstep o z))).
Proof.
  intros [t a|t|x| |] z l H; cbn [item_step zstep].
  - destruct (void t).
    + destruct (add_leaf (Tag (z_n z) t a []) (z_open z) (z_root z)) as [fs root] eqn:E.
      simpl. rewrite (it_add_leaf _ _ _ _ _ E). apply Forall2_app; auto.
      simpl. repeat constructor.
    + simpl. apply Forall2_app; auto. repeat constructor.
  - destruct (void t); auto. destruct (z_open z) as [|f r] eqn:EO; auto.
    destruct (seqb (f_tag f) t); auto.
    destruct (add_leaf (f_close f []) r (z_root z)) as [fs root] eqn:E.
    simpl. rewrite (it_add_leaf _ _ _ _ _ E). simpl in *. now rewrite app_nil_r.
  - destruct (add_leaf (Text (z_n z) (data_text (z_pre z) x)) (z_open z) (z_root z)) as [fs root] eqn:E.
    simpl. rewrite (it_add_leaf _ _ _ _ _ E). apply Forall2_app; auto.
    simpl. constructor; [|constructor]. simpl. apply data_text_nonspace.
  - simpl. rewrite it_plug. simpl. now rewrite app_nil_r.
  - simpl. constructor.
Qed.

Lemma items_run : forall h z l,
  Forall2 same_item l (it_fs (z_open z) (z_root z)) ->
  Forall2 same_item (fold_left (fun l o => item_step o l) h l)
    (it_fs (z_open (zrun h z)) (z_root (zrun h z))).
Proof.
  induction h as [|o h IH]; simpl; intros; auto. apply IH. now apply items_step.
Qed.

Lemma items_forest : forall h,
  Forall2 same_item (items h) (flat_map tree_items (forest (zrun h z0))).
Proof.
  intros. unfold forest. rewrite it_plug. simpl. rewrite app_nil_r.
  apply items_run. constructor.
Qed.

(** ** Open elements *)
Definition zopens (z : zst) : nat * list (nat * str) :=
  (z_n z, map (fun f => (f_id f, f_tag f)) (z_open z)).

Lemma opens_zstep : forall o z, zopens (zstep o z) = opens_step o (zopens z).
Proof.
  intros [t a|t|x| |] z; unfold zopens at 2; cbn [opens_step zstep].
  - destruct (void t); auto. destruct (z_open z); reflexivity.
  - destruct (void t).
    + unfold zopens. destruct (map _ (z_open z)) as [|[i y] r]; auto.
    + destruct (z_open z) as [|f r] eqn:E; simpl; auto.
      destruct (seqb (f_tag f) t) eqn:ET.
      * destruct r; reflexivity.
      * unfold zopens. simpl. auto.
  - destruct (z_open z); reflexivity.
  - reflexivity.
  - reflexivity.
Qed.
Lemma opens_zrun : forall h z, zopens (zrun h z) = fold_left (fun p o => opens_step o p) h (zopens z).
Proof.
  induction h as [|o h IH]; simpl; intros; auto. rewrite IH, opens_zstep. auto.
Qed.
Lemma opens_z : forall h, opens h = map (fun f => (f_id f, f_tag f)) (z_open (zrun h z0)).
Proof.
  intros. unfold opens. change (0, []) with (zopens z0). rewrite <- opens_zrun. reflexivity.
Qed.

Lemma open_after_opens : forall h, open_after h = map snd (opens h).
Proof.
  unfold open_after, opens. intros h.
  change (@nil str) with (map snd (snd (0, @nil (nat * str)))). generalize (0, @nil (nat * str)).
  induction h as [|o h IH]; simpl; intros p; auto.
  rewrite <- IH. f_equal. destruct p as [n l]. destruct o as [t a|t|x| |]; simpl; auto.
  - destruct (void t); auto.
  - destruct l as [|[i x] r]; simpl; auto. destruct (void t); auto. destruct (seqb x t); auto.
Qed.
Lemma open_after_z : forall h, open_after h = map f_tag (z_open (zrun h z0)).
Proof. intros. rewrite open_after_opens, opens_z, map_map. reflexivity. Qed.

Lemma open_after_nonvoid : forall h, Forall (fun t => void t = false) (open_after h).
Proof.
  intros. unfold open_after. assert (H : Forall (fun t => void t = false) []) by constructor.
  revert H. generalize (@nil str).
  induction h as [|o h IH]; simpl; intros l H; auto. apply IH.
  destruct o as [t a|t|x| |]; simpl; auto.
  - destruct (void t) eqn:E; auto.
  - destruct l as [|x r]; auto. destruct (void t); auto. destruct (seqb x t); auto.
    inversion H; auto.
Qed.

Lemma pre_zstep : forall o z, z_pre (zstep o z) = pre_step o (z_pre z).
Proof.
  intros [t a|t|x| |] z; cbn [zstep pre_step]; auto.
  - destruct (void t); auto. destruct (add_leaf _ _ _). reflexivity.
  - destruct (void t) eqn:V.
    + destruct (seqb_spec t (lit "pre")); auto. subst. discriminate.
    + destruct (z_open z) as [|f r]; auto. destruct (seqb (f_tag f) t); auto.
      destruct (add_leaf _ _ _). reflexivity.
  - destruct (add_leaf _ _ _). reflexivity.
Qed.
Lemma pre_zrun : forall h z, z_pre (zrun h z) = fold_left (fun b o => pre_step o b) h (z_pre z).
Proof. induction h as [|o h IH]; simpl; intros; auto. now rewrite IH, pre_zstep. Qed.

Lemma items_count : forall h z l, length l = z_n z ->
  length (fold_left (fun l o => item_step o l) h l) = z_n (zrun h z).
Proof.
  induction h as [|o h IH]; simpl; intros z l H; auto. apply IH.
  destruct o as [t a|t|x| |]; cbn [item_step zstep]; auto.
  - rewrite app_length. simpl. destruct (void t); [destruct (add_leaf _ _ _)|]; simpl; lia.
  - destruct (void t); auto. destruct (z_open z); auto. destruct (seqb _ _); auto.
    destruct (add_leaf _ _ _). auto.
  - rewrite app_length. simpl. destruct (add_leaf _ _ _). simpl. lia.
Qed.

(** ** The reachable states *)
Lemma reach : forall g h s, run g h pstate0 = Ok s -> Inv s (zrun h z0).
Proof. intros. eapply run_inv; eauto. apply Inv0. Qed.

Lemma reach_len : forall g h s, run g h pstate0 = Ok s ->
  length (d_nodes (p_dom s)) = length (items h).
Proof.
  intros. rewrite (inv_len _ _ (reach _ _ _ H)). symmetry. now apply items_count.
Qed.
Lemma reach_pre : forall g h s, run g h pstate0 = Ok s -> p_in_pre s = inside_pre h.
Proof.
  intros. rewrite (inv_flag _ _ (reach _ _ _ H)), pre_zrun. reflexivity.
Qed.
Lemma reach_stack : forall g h s, run g h pstate0 = Ok s -> p_stack s = map fst (opens h).
Proof.
  intros. rewrite (inv_stack _ _ (reach _ _ _ H)), opens_z, map_map. reflexivity.
Qed.

Lemma reach_document : forall g h s, run g h pstate0 = Ok s ->
  exists F, document (p_dom s) F
    /\ flat_map preorder F = seq 0 (length (d_nodes (p_dom s)))
    /\ Forall2 same_item (items h) (flat_map tree_items F).
Proof.
  intros. pose proof (reach _ _ _ H) as I. exists (forest (zrun h z0)).
  destruct (Inv_document _ _ I). repeat split; auto; try apply H0. apply items_forest.
Qed.

(** The innermost open element of a reachable state. *)
Lemma reach_top : forall g h s, run g h pstate0 = Ok s ->
  get_top s = match opens h with [] => None | (i, _) :: _ => Some i end.
Proof.
  intros. rewrite (inv_top _ _ (reach _ _ _ H)), opens_z.
  destruct (z_open (zrun h z0)); auto.
Qed.
Lemma reach_top_tag : forall g h s i t r, run g h pstate0 = Ok s ->
  opens h = (i, t) :: r -> exists n, node_at (p_dom s) i = Some n /\ n_tag n = Some t /\ n_closed n = false.
Proof.
  intros g h s i t r H E. pose proof (reach _ _ _ H) as I. rewrite opens_z in E.
  pose proof (inv_frames _ _ I) as F.
  destruct (z_open (zrun h z0)) as [|f fs]; inversion E; subst.
  simpl in F. destruct F as [(n & Hn & H1 & _ & _ & _ & _ & _ & H7) _]. eauto.
Qed.

(** ** Stray end tags *)
Lemma pstate_eta : forall s, PState (p_dom s) (p_stack s) (p_next s) (p_footer s) (p_in_pre s)
  (p_chunks s) (p_out s) (p_asg s) = s.
Proof. destruct s; auto. Qed.

Lemma end_stray : forall g h s t, run g h pstate0 = Ok s ->
  (match open_after h with x :: _ => x <> t | [] => True end) ->
  (t = lit "pre" -> inside_pre h = false) ->
  handle_endtag t s = s.
Proof.
  intros g h s t H Ho Hp. unfold handle_endtag. destruct (is_void t); auto.
  assert (E : (if seqb t (lit "pre") then false else p_in_pre s) = p_in_pre s).
  { destruct (seqb_spec t (lit "pre")); auto. rewrite (reach_pre _ _ _ H). symmetry. auto. }
  rewrite E, (reach_top _ _ _ H). rewrite open_after_opens in Ho.
  destruct (opens h) as [|[i x] r] eqn:EO.
  - apply pstate_eta.
  - destruct (reach_top_tag _ _ _ _ _ _ H EO) as (n & -> & -> & _).
    simpl in Ho. destruct (seqb_spec x t); [congruence|]. apply pstate_eta.
Qed.

Lemma run_end_stray : forall g h1 h2 t,
  (match open_after h1 with x :: _ => x <> t | [] => True end) ->
  (t = lit "pre" -> inside_pre h1 = false) ->
  run g (h1 ++ OEnd t :: h2) pstate0 = run g (h1 ++ h2) pstate0.
Proof.
  intros. rewrite !run_app. destruct (run g h1 pstate0) as [s|e] eqn:E; auto.
  cbn [bind run step]. now rewrite (end_stray _ _ _ _ E).
Qed.

Lemma run_end_void : forall g h1 h2 t, void t = true ->
  run g (h1 ++ OEnd t :: h2) pstate0 = run g (h1 ++ h2) pstate0.
Proof.
  intros. rewrite !run_app. destruct (run g h1 pstate0) as [s|e] eqn:E; auto.
  cbn [bind run step]. unfold handle_endtag. change (is_void t) with (void t). now rewrite H.
Qed.

(** ** Reset *)
Lemma run_reset : forall g h1 h2 s, run g h1 pstate0 = Ok s -> inside_pre h1 = false ->
  run g (h1 ++ OReset :: h2) pstate0 = run g h2 pstate0.
Proof.
  intros. rewrite run_app, H. cbn [bind run step]. unfold reset.
  rewrite (reach_pre _ _ _ H), H0. reflexivity.
Qed.

(** ** Nodes are stable *)
Definition stable (n n' : node) : Prop :=
  n_tag n' = n_tag n /\ n_parent n' = n_parent n /\ n_attrs n' = n_attrs n
  /\ n_classes n' = n_classes n /\ n_id n' = n_id n /\ n_data n' = n_data n
  /\ n_link n' = n_link n.
Lemma stable_refl : forall n, stable n n.
Proof. repeat split. Qed.
Lemma stable_trans : forall a b c, stable a b -> stable b c -> stable a c.
Proof. unfold stable. intros. intuition congruence. Qed.

Lemma upd_stable : forall l k (f : node -> node) j n, (forall n, stable n (f n)) ->
  nth_error l j = Some n -> exists n', nth_error (upd l k f) j = Some n' /\ stable n n'.
Proof.
  intros. destruct (Nat.eq_dec k j) as [->|N].
  - rewrite upd_same, H0. simpl. eauto.
  - rewrite upd_other by auto. eauto using stable_refl.
Qed.
Lemma append_stable : forall d p n0 j n, node_at d j = Some n ->
  exists n', node_at (append_node d p n0) j = Some n' /\ stable n n'.
Proof.
  intros. unfold append_node, node_at in *.
  assert (HL : j < length (d_nodes d)) by (apply nth_error_Some; congruence).
  destruct p as [| |k]; simpl.
  - rewrite nth_error_app1 by auto. eauto using stable_refl.
  - rewrite nth_error_app1 by auto. eauto using stable_refl.
  - rewrite nth_error_app1 by now rewrite upd_length.
    eapply upd_stable; eauto. intros; repeat split.
Qed.

Lemma start_dom : forall g t a s s', handle_starttag g t a s = Ok s' ->
  exists d lk av cls nid,
    let p := match get_top s with Some i => PNode i | None => PRoot end in
    p_dom s' = append_node d p (Node (Some t) p [] (is_void t) av cls nid None lk [])
    /\ length (d_nodes d) = length (d_nodes (p_dom s))
    /\ d_root d = d_root (p_dom s)
    /\ (d = p_dom s \/ exists j, p = PNode j
          /\ d = Dom (upd (d_nodes (p_dom s)) j (add_pending (length (d_nodes (p_dom s))))) (d_root (p_dom s)))
    /\ tag_attrs a = Ok (av, cls, nid)
    /\ (if is_link t then exists l, lk = Some l /\ make_link g (p_next s) t a = Ok l else lk = None)
    /\ p_next s' = (if numbered g t then p_next s + 1 else p_next s)%Z.
Proof.
  intros g t a s s' H. unfold handle_starttag in H.
  set (p := match get_top s with Some i => PNode i | None => PRoot end) in *.
  inv_bind H. destruct x as [[av cls] nid]. inv_bind H. inv_bind H. destruct x0 as [[d footer] next].
  inversion H; subst; clear H.
  exists d, x, av, cls, nid. cbv zeta. simpl.
  assert (HL : if is_link t then exists l, x = Some l /\ make_link g (p_next s) t a = Ok l else x = None).
  { destruct (is_link t).
    - inv_bind E0. inversion E0; subst. eauto.
    - now inversion E0. }
  assert (HP : numbered g t = is_link t && negb (seqb (placement_of g t) (lit "inline"))) by reflexivity.
  rewrite HP.
  destruct (is_link t) eqn:L; simpl.
  - destruct (seqb (placement_of g t) (lit "footer")).
    { inversion E1; subst. repeat split; auto. destruct (seqb _ _); auto. }
    destruct (seqb (placement_of g t) (lit "after_block")).
    { destruct p eqn:EP; inversion E1; subst. simpl. rewrite upd_length. repeat split; eauto.
      destruct (seqb _ _); auto. }
    inversion E1; subst. repeat split; auto. destruct (seqb _ _); auto.
  - inversion E1; subst. repeat split; auto.
Qed.

Lemma step_stable : forall g o s s' j n, step g o s = Ok s' -> o <> OReset ->
  node_at (p_dom s) j = Some n -> exists n', node_at (p_dom s') j = Some n' /\ stable n n'.
Proof.
  intros g [t a|t|x| |] s s' j n H HR Hn; cbn [step] in H.
  - destruct (start_dom _ _ _ _ _ H) as (d & lk & av & cls & nid & -> & HL & HR' & HD & _).
    assert (exists n1, node_at d j = Some n1 /\ stable n n1) as (n1 & Hn1 & S1).
    { destruct HD as [->|(k & _ & ->)]; eauto using stable_refl.
      unfold node_at. simpl. eapply upd_stable; eauto. intros; repeat split. }
    destruct (append_stable d (match get_top s with Some i => PNode i | None => PRoot end)
      (Node (Some t) (match get_top s with Some i => PNode i | None => PRoot end) [] (is_void t) av cls nid None lk []) _ _ Hn1)
      as (n2 & Hn2 & S2). eauto using stable_trans.
  - inversion H; subst; clear H. unfold handle_endtag.
    destruct (is_void t); eauto using stable_refl.
    destruct (get_top s) as [i|]; simpl; eauto using stable_refl.
    destruct (node_at (p_dom s) i) as [m|]; simpl; eauto using stable_refl.
    destruct (n_tag m) as [t'|]; simpl; eauto using stable_refl.
    destruct (seqb t' t); simpl; eauto using stable_refl.
    unfold node_at. simpl. eapply upd_stable; eauto. intros; repeat split.
  - inversion H; subst; clear H. unfold handle_data. simpl.
    eapply append_stable; eauto.
  - unfold close in H. inv_bind H. inv_bind H. inv_bind H. inversion H; subst. simpl.
    eauto using stable_refl.
  - congruence.
Qed.
Lemma run_stable : forall g h s s' j n, run g h s = Ok s' -> ~ In OReset h ->
  node_at (p_dom s) j = Some n -> exists n', node_at (p_dom s') j = Some n' /\ stable n n'.
Proof.
  induction h as [|o h IH]; simpl; intros s s' j n H HR Hn.
  - inversion H; subst. eauto using stable_refl.
  - inv_bind H. destruct (step_stable _ _ _ _ _ _ E ltac:(intuition) Hn) as (n1 & Hn1 & S1).
    destruct (IH _ _ _ _ H ltac:(tauto) Hn1) as (n2 & ? & ?). eauto using stable_trans.
Qed.

Lemma append_node_new : forall d p n, node_at (append_node d p n) (length (d_nodes d)) = Some n.
Proof.
  intros. unfold append_node, node_at. destruct p; simpl.
  - rewrite nth_error_app2, Nat.sub_diag by lia. auto.
  - rewrite nth_error_app2, Nat.sub_diag by lia. auto.
  - rewrite nth_error_app2; rewrite upd_length; [|lia]. now rewrite Nat.sub_diag.
Qed.

Lemma start_parent : forall g h1 t a h2 s,
  run g (h1 ++ OStart t a :: h2) pstate0 = Ok s -> ~ In OReset h2 ->
  exists n, node_at (p_dom s) (length (items h1)) = Some n
    /\ n_tag n = Some t /\ n_data n = None
    /\ n_parent n = match opens h1 with (i, _) :: _ => PNode i | [] => PRoot end.
Proof.
  intros g h1 t a h2 s H HR. rewrite run_app in H. inv_bind H. cbn [run] in H. inv_bind H.
  cbn [step] in E0. destruct (start_dom _ _ _ _ _ E0) as (d & lk & av & cls & nid & ED & HL & _).
  set (p := match get_top x with Some i => PNode i | None => PRoot end) in *.
  pose proof (append_node_new d p (Node (Some t) p [] (is_void t) av cls nid None lk [])) as HN.
  rewrite <- ED, HL, (reach_len _ _ _ E) in HN.
  destruct (run_stable _ _ _ _ _ _ H HR HN) as (n & Hn & S1 & S2 & _ & _ & _ & S3 & _).
  exists n. simpl in *. repeat split; auto. rewrite S2. subst p.
  rewrite (reach_top _ _ _ E). destruct (opens h1) as [|[i y] r]; auto.
Qed.
Lemma data_parent : forall g h1 x h2 s,
  run g (h1 ++ OData x :: h2) pstate0 = Ok s -> ~ In OReset h2 ->
  exists n, node_at (p_dom s) (length (items h1)) = Some n
    /\ n_tag n = None
    /\ n_data n = Some (if inside_pre h1 then x else normalise x)
    /\ n_parent n = match opens h1 with (i, _) :: _ => PNode i | [] => PNone end.
Proof.
  intros g h1 x h2 s H HR. rewrite run_app in H. inv_bind H. cbn [run] in H. inv_bind H.
  cbn [step] in E0. inversion E0; subst; clear E0.
  unfold handle_data in H.
  set (p := match get_top x0 with Some i => PNode i | None => PNone end) in *.
  pose proof (append_node_new (p_dom x0) p
    (Node None p [] true [] [] None (Some (data_text (p_in_pre x0) x)) None [])) as HN.
  rewrite (reach_len _ _ _ E) in HN.
  edestruct run_stable as (n & Hn & S1 & S2 & _ & _ & _ & S3 & _); [exact H|exact HR|exact HN|].
  exists n. simpl in *. repeat split; auto.
  - rewrite S3, (reach_pre _ _ _ E). unfold data_text. rewrite collapse_nrm. auto.
  - rewrite S2. subst p. rewrite (reach_top _ _ _ E). destruct (opens h1) as [|[i y] r]; auto.
Qed.

(** ** Void elements *)
Definition void_ok (d : dom) : Prop := forall i n t, node_at d i = Some n -> n_tag n = Some t ->
  void t = true -> n_children n = [].

Lemma append_void : forall d p n,
  void_ok d -> n_children n = [] ->
  (forall k m t, p = PNode k -> node_at d k = Some m -> n_tag m = Some t -> void t = false) ->
  void_ok (append_node d p n).
Proof.
  intros d p n H Hn Hp i m t Hi Ht Hv. unfold append_node, node_at in *.
  destruct p as [| |k]; simpl in *.
  - destruct (lt_dec i (length (d_nodes d))).
    + rewrite nth_error_app1 in Hi by auto. eapply H; eauto.
    + rewrite nth_error_app2 in Hi by lia. destruct (i - _) as [|[|]]; inversion Hi; subst; auto.
  - destruct (lt_dec i (length (d_nodes d))).
    + rewrite nth_error_app1 in Hi by auto. eapply H; eauto.
    + rewrite nth_error_app2 in Hi by lia. destruct (i - _) as [|[|]]; inversion Hi; subst; auto.
  - destruct (lt_dec i (length (d_nodes d))).
    + rewrite nth_error_app1 in Hi by now rewrite upd_length.
      destruct (Nat.eq_dec k i) as [->|N].
      * rewrite upd_same in Hi. destruct (nth_error (d_nodes d) i) as [m0|] eqn:E; inversion Hi; subst.
        simpl in *. rewrite (Hp i m0 t) in Hv; auto. discriminate.
      * rewrite upd_other in Hi by auto. eapply H; eauto.
    + rewrite nth_error_app2 in Hi by (rewrite upd_length; lia). rewrite upd_length in Hi.
      destruct (i - _) as [|[|]]; inversion Hi; subst; auto.
Qed.
Lemma upd_void : forall nodes root k f, void_ok (Dom nodes root) ->
  (forall n, n_tag (f n) = n_tag n /\ n_children (f n) = n_children n) ->
  void_ok (Dom (upd nodes k f) root).
Proof.
  intros nodes root k f H Hf i m t Hi Ht Hv. unfold void_ok, node_at in *. simpl in *.
  destruct (Nat.eq_dec k i) as [->|N].
  - rewrite upd_same in Hi. destruct (nth_error nodes i) as [m0|] eqn:E; inversion Hi; subst.
    destruct (Hf m0) as [E1 E2]. rewrite E2. eapply H; eauto. congruence.
  - rewrite upd_other in Hi by auto. eapply H; eauto.
Qed.

Lemma run_snoc : forall g h o s s', run g (h ++ [o]) s = Ok s' ->
  exists s1, run g h s = Ok s1 /\ step g o s1 = Ok s'.
Proof.
  intros. rewrite run_app in H. inv_bind H. exists x. split; auto. cbn [run] in H.
  inv_bind H. inversion H; subst. auto.
Qed.

Lemma reach_top_nonvoid : forall g h s i m t, run g h pstate0 = Ok s ->
  get_top s = Some i -> node_at (p_dom s) i = Some m -> n_tag m = Some t -> void t = false.
Proof.
  intros g h s i m t H Ht Hm Hg. rewrite (reach_top _ _ _ H) in Ht.
  destruct (opens h) as [|[j x] r] eqn:EO; inversion Ht; subst.
  destruct (reach_top_tag _ _ _ _ _ _ H EO) as (n & Hn & Hx & _).
  assert (x = t) by congruence. subst.
  pose proof (open_after_nonvoid h) as HV. rewrite open_after_opens, EO in HV. now inversion HV.
Qed.

Lemma reach_void : forall g h s, run g h pstate0 = Ok s -> void_ok (p_dom s).
Proof.
  intros g h. induction h as [|o h IH] using rev_ind; intros s H.
  - inversion H; subst. intros [|i] n t Hi; discriminate.
  - destruct (run_snoc _ _ _ _ _ H) as (s1 & H1 & H2). specialize (IH _ H1).
    destruct o as [t a|t|x| |]; cbn [step] in H2.
    + destruct (start_dom _ _ _ _ _ H2) as (d & lk & av & cls & nid & -> & HL & HR' & HD & _).
      assert (HDV : void_ok d).
      { destruct HD as [->|(k & _ & ->)]; auto. apply upd_void; auto. }
      apply append_void; auto. intros k m t0 E Hm Ht.
      destruct (get_top s1) as [i|] eqn:ET; inversion E; subst.
      destruct HD as [->|(k' & _ & ->)].
      * eapply reach_top_nonvoid; eauto.
      * unfold node_at in Hm. simpl in Hm.
        destruct (nth_error (d_nodes (p_dom s1)) k) as [m1|] eqn:E1.
        -- destruct (upd_stable _ k' (add_pending (length (d_nodes (p_dom s1)))) _ _ ltac:(intros; repeat split) E1)
             as (m2 & Hm2 & S & _). rewrite Hm2 in Hm. inversion Hm; subst.
           eapply reach_top_nonvoid; eauto. congruence.
        -- exfalso. apply nth_error_None in E1.
           assert (k < length (upd (d_nodes (p_dom s1)) k' (add_pending (length (d_nodes (p_dom s1))))))
             by (apply nth_error_Some; congruence). rewrite upd_length in H0. lia.
    + inversion H2; subst; clear H2. unfold handle_endtag.
      destruct (is_void t); auto. destruct (get_top s1); auto.
      destruct (node_at (p_dom s1) n); auto. destruct (n_tag n0); auto. destruct (seqb s t); auto.
      simpl. apply upd_void; auto.
    + inversion H2; subst; clear H2. unfold handle_data. simpl. apply append_void; auto.
      intros k m t E Hm Ht. destruct (get_top s1) as [i|] eqn:ET; inversion E; subst.
      eapply reach_top_nonvoid; eauto.
    + unfold close in H2. inv_bind H2. inv_bind H2. inv_bind H2. inversion H2; subst. auto.
    + inversion H2; subst. intros [|i] n t Hi; discriminate.
Qed.

(** ** Reference numbers *)
Lemma refs_upd : forall g l k f, (forall n, n_tag (f n) = n_tag n /\ n_link (f n) = n_link n) ->
  flat_map (reference_of g) (upd l k f) = flat_map (reference_of g) l.
Proof.
  intros g l. induction l as [|n l IH]; intros k f Hf; destruct k; simpl; auto.
  - f_equal. unfold reference_of. destruct (Hf n) as [-> ->]. auto.
  - now rewrite IH.
Qed.
Lemma refs_append : forall g d p n,
  references g (append_node d p n) = references g d ++ reference_of g n.
Proof.
  intros. unfold references, append_node. destruct p; simpl; rewrite flat_map_app'; simpl;
    rewrite app_nil_r; auto. f_equal. apply refs_upd. auto.
Qed.

Lemma count_app : forall g a b, count_numbered g (a ++ b) = count_numbered g a + count_numbered g b.
Proof. intros. unfold count_numbered. now rewrite filter_app, app_length. Qed.

Lemma count_tag : forall g t a, count_numbered g [ITag t a] = if numbered g t then 1 else 0.
Proof. intros. unfold count_numbered. simpl. destruct (numbered g t); auto. Qed.
Lemma count_text : forall g s, count_numbered g [IText s] = 0.
Proof. reflexivity. Qed.

Lemma items_snoc : forall h o, items (h ++ [o]) = item_step o (items h).
Proof. intros. unfold items. now rewrite fold_left_app. Qed.

Lemma reach_refs : forall g h s, run g h pstate0 = Ok s ->
  references g (p_dom s) = map Z.of_nat (seq 1 (count_numbered g (items h)))
  /\ p_next s = (Z.of_nat (count_numbered g (items h)) + 1)%Z.
Proof.
  intros g h. induction h as [|o h IH] using rev_ind; intros s H.
  - inversion H; subst. split; reflexivity.
  - destruct (run_snoc _ _ _ _ _ H) as (s1 & H1 & H2). destruct (IH _ H1) as [R N].
    rewrite items_snoc.
    destruct o as [t a|t|x| |]; cbn [step item_step] in *.
    + destruct (start_dom _ _ _ _ _ H2) as (d & lk & av & cls & nid & -> & HL & HR' & HD & _ & HK & HN).
      assert (RD : references g d = references g (p_dom s1)).
      { destruct HD as [->|(k & _ & ->)]; auto. apply refs_upd. auto. }
      rewrite refs_append, RD, R, HN, N, count_app, count_tag.
      unfold reference_of. simpl n_tag. simpl n_link.
      destruct (numbered g t) eqn:EN.
      * assert (is_link t = true) as L by (unfold numbered in EN; apply andb_true_iff in EN; apply EN).
        rewrite L in HK. destruct HK as (l & -> & ML).
        assert (lc_reference (lk_ctx l) = p_next s1) as ->.
        { unfold make_link in ML. inv_bind ML. inversion ML; subst. auto. }
        rewrite EN, N. split; [|lia].
        rewrite Nat.add_1_r, seq_S, map_app. simpl map. f_equal. f_equal. lia.
      * rewrite Nat.add_0_r. split; auto. rewrite EN. destruct lk; now rewrite app_nil_r.
    + inversion H2; subst; clear H2. unfold handle_endtag.
      destruct (is_void t); auto. destruct (get_top s1); auto.
      destruct (node_at (p_dom s1) n); auto. destruct (n_tag n0); auto. destruct (seqb s t); auto.
      simpl. split; auto. rewrite <- R. unfold references. simpl. apply refs_upd. auto.
    + inversion H2; subst; clear H2. unfold handle_data. simpl. rewrite refs_append, R, count_app, count_text.
      simpl. rewrite Nat.add_0_r, app_nil_r. auto.
    + unfold close in H2. inv_bind H2. inv_bind H2. inv_bind H2. inversion H2; subst. simpl. auto.
    + inversion H2; subst. split; reflexivity.
Qed.

(** ** Well-formed documents *)
Lemma html_ind2 (P : html -> Prop) :
  (forall t a kids, Forall P kids -> P (HTag t a kids)) ->
  (forall s, P (HText s)) -> forall h, P h.
Proof.
  intros HT HX. fix IH 1. intros [t a kids | s].
  - apply HT. induction kids; constructor; auto.
  - apply HX.
Qed.
Lemma wf_html_Tag : forall b t a kids, wf_html b (HTag t a kids) <->
  (void t = true -> kids = []) /\ (seqb t (lit "pre") = true -> b = false)
  /\ Forall (wf_html (b || seqb t (lit "pre"))) kids.
Proof.
  intros. simpl. split; intros [H1 [H2 H3]]; (split; [exact H1|]); (split; [exact H2|]); clear H1 H2.
  - induction kids as [|k r IH]; constructor; destruct H3; [assumption|]. apply IH. assumption.
  - induction kids as [|k r IH]; [exact I|]. inversion H3; subst. split; [assumption|].
    apply IH. assumption.
Qed.

Definition add_tree (t : tree) (k : nat) (z : zst) : zst :=
  Zst (fst (add_leaf t (z_open z) (z_root z))) (snd (add_leaf t (z_open z) (z_root z)))
      (z_n z + k) (z_pre z).
Definition add_trees (ts : list tree) (k : nat) (z : zst) : zst :=
  match z_open z with
  | [] => Zst [] (z_root z ++ ts) (z_n z + k) (z_pre z)
  | f :: r => Zst (Fr (f_id f) (f_tag f) (f_attrs f) (f_kids f ++ ts) :: r) (z_root z) (z_n z + k) (z_pre z)
  end.
Lemma add_trees_nil : forall z, add_trees [] 0 z = z.
Proof.
  intros [[|[i t a ks] r] root n b]; unfold add_trees; simpl; now rewrite app_nil_r, Nat.add_0_r.
Qed.
Lemma add_trees_cons : forall t ts k1 k2 z,
  add_trees ts k2 (add_tree t k1 z) = add_trees (t :: ts) (k1 + k2) z.
Proof.
  intros t ts k1 k2 [[|[i tg a ks] r] root n b]; unfold add_tree, add_trees; simpl;
    rewrite <- app_assoc, Nat.add_assoc; auto.
Qed.

Lemma zrun_app : forall h1 h2 z, zrun (h1 ++ h2) z = zrun h2 (zrun h1 z).
Proof. intros. apply fold_left_app. Qed.

Lemma events_list : forall b kids,
  Forall (fun h => forall z, wf_html b h -> z_pre z = b ->
    exists t k, denotes b h t /\ zrun (events h) z = add_tree t k z) kids ->
  Forall (wf_html b) kids -> forall z, z_pre z = b ->
  exists ts k, Forall2 (denotes b) kids ts /\ zrun (flat_map events kids) z = add_trees ts k z.
Proof.
  induction kids as [|h kids IH]; intros HF HW z Hz.
  - exists [], 0. split; auto. simpl. now rewrite add_trees_nil.
  - inversion HF; subst. inversion HW; subst.
    destruct (H1 z H3 eq_refl) as (t & k & D & E).
    destruct (IH H2 H4 (add_tree t k z) eq_refl) as (ts & k2 & D2 & E2).
    exists (t :: ts), (k + k2). split; [constructor; auto|].
    cbn [flat_map]. rewrite zrun_app, E, E2. apply add_trees_cons.
Qed.

Lemma events_one : forall h b z, wf_html b h -> z_pre z = b ->
  exists t k, denotes b h t /\ zrun (events h) z = add_tree t k z.
Proof.
  induction h as [t a kids IH | s] using html_ind2; intros b z W Hz.
  - apply wf_html_Tag in W as [W1 [W2 W3]].
    cbn [events]. destruct (void t) eqn:V.
    + rewrite W1 in * by auto. exists (Tag (z_n z) t a []), 1. split; [constructor; constructor|].
      simpl. rewrite V.
      assert (seqb t (lit "pre") = false) as ->.
      { destruct (seqb_spec t (lit "pre")); auto. subst. discriminate. }
      unfold add_tree. rewrite Nat.add_1_r. destruct (z_open z); reflexivity.
    + set (z1 := zstep (OStart t a) z).
      assert (E1 : z1 = Zst (Fr (z_n z) t a [] :: z_open z) (z_root z) (S (z_n z))
                         (b || seqb t (lit "pre"))).
      { subst z1. cbn [zstep]. rewrite V, Hz. destruct (seqb t (lit "pre")); simpl;
          rewrite ?orb_true_r, ?orb_false_r; auto. }
      destruct (events_list (b || seqb t (lit "pre")) kids) with (z := z1) as (ts & k & D & E2); auto.
      { clear - IH. induction IH; constructor; auto. }
      { now rewrite E1. }
      exists (Tag (z_n z) t a ts), (S k). split; [now constructor|].
      change (zrun (OStart t a :: flat_map events kids ++ [OEnd t]) z)
        with (zrun (flat_map events kids ++ [OEnd t]) z1).
      rewrite zrun_app, E2, E1. unfold add_trees. simpl zrun. rewrite V, seqb_refl.
      unfold f_close. simpl. rewrite app_nil_r. unfold add_tree.
      destruct (add_leaf (Tag (z_n z) t a ts) (z_open z) (z_root z)) as [fs root].
      simpl. f_equal; [lia|]. rewrite Hz. destruct (seqb t (lit "pre")) eqn:EP.
      * now rewrite W2.
      * now rewrite orb_false_r.
  - exists (Text (z_n z) (data_text (z_pre z) s)), 1. split.
    + rewrite Hz. unfold data_text. rewrite collapse_nrm. constructor.
    + simpl. unfold add_tree. rewrite Nat.add_1_r. destruct (z_open z); reflexivity.
Qed.

Lemma round_trip : forall g doc s,
  Forall (wf_html false) doc -> run g (flat_map events doc) pstate0 = Ok s ->
  exists F, document (p_dom s) F /\ Forall2 (denotes false) doc F
    /\ flat_map preorder F = seq 0 (length (d_nodes (p_dom s))) /\ p_stack s = [].
Proof.
  intros g doc s W H. pose proof (reach _ _ _ H) as I.
  destruct (events_list false doc) with (z := z0) as (ts & k & D & E); auto.
  { apply Forall_forall. intros h _ z. apply events_one. }
  rewrite E in I. unfold add_trees in I. simpl in I.
  exists ts. destruct (Inv_document _ _ I) as [D1 D2]. unfold forest in *. simpl in *.
  rewrite app_nil_r in *. repeat split; auto; try apply D1. apply I.
Qed.
End HF.
