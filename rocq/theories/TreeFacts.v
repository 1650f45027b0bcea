(** The handlers refine a functional zipper; consequences for the tree. *)
From Verif Require Export TreeSpec.

Section TF.
Context `{U : Uni}.

(** ** Zipper *)
Record frame := Fr { f_id : nat; f_tag : str; f_attrs : attributes; f_kids : list tree }.
Record zst := Zst { z_open : list frame; z_root : list tree; z_n : nat; z_pre : bool }.
Definition z0 : zst := Zst [] [] 0 false.

Definition f_close (f : frame) (hole : list tree) : tree :=
  Tag (f_id f) (f_tag f) (f_attrs f) (f_kids f ++ hole).
Fixpoint plug (fs : list frame) (hole : list tree) (root : list tree) : list tree :=
  match fs with
  | [] => root ++ hole
  | f :: r => plug r [f_close f hole] root
  end.

Definition add_leaf (t : tree) (fs : list frame) (root : list tree) : list frame * list tree :=
  match fs with
  | [] => ([], root ++ [t])
  | f :: r => (Fr (f_id f) (f_tag f) (f_attrs f) (f_kids f ++ [t]) :: r, root)
  end.

Definition zstep (o : op) (z : zst) : zst :=
  match o with
  | OStart t a =>
      let pre := if seqb t (lit "pre") then true else z_pre z in
      if void t then
        let '(fs, root) := add_leaf (Tag (z_n z) t a []) (z_open z) (z_root z) in
        Zst fs root (S (z_n z)) pre
      else Zst (Fr (z_n z) t a [] :: z_open z) (z_root z) (S (z_n z)) pre
  | OEnd t =>
      if void t then z
      else
        let pre := if seqb t (lit "pre") then false else z_pre z in
        match z_open z with
        | f :: r => if seqb (f_tag f) t then
                      let '(fs, root) := add_leaf (f_close f []) r (z_root z) in
                      Zst fs root (z_n z) pre
                    else Zst (z_open z) (z_root z) (z_n z) pre
        | [] => Zst [] (z_root z) (z_n z) pre
        end
  | OData s =>
      let '(fs, root) := add_leaf (Text (z_n z) (data_text (z_pre z) s)) (z_open z) (z_root z) in
      Zst fs root (S (z_n z)) (z_pre z)
  | OClose => Zst [] (plug (z_open z) [] (z_root z)) (z_n z) (z_pre z)
  | OReset => Zst [] [] 0 (z_pre z)
  end.
Definition zrun (h : list op) (z : zst) : zst := fold_left (fun z o => zstep o z) h z.

(** ** Induction on trees *)
Lemma tree_ind2 (P : tree -> Prop) :
  (forall i t a kids, Forall P kids -> P (Tag i t a kids)) ->
  (forall i s, P (Text i s)) -> forall t, P t.
Proof.
  intros HT HX. fix IH 1. intros [i t a kids | i s].
  - apply HT. induction kids; constructor; auto.
  - apply HX.
Qed.

Lemma stores_Tag : forall d p i t a kids,
  stores d p (Tag i t a kids) <->
  (exists n, node_at d i = Some n /\ n_tag n = Some t /\ n_data n = None
             /\ n_parent n = p /\ n_children n = map tid kids
             /\ carries n a /\ link_data n t a)
  /\ Forall (stores d (PNode i)) kids.
Proof.
  intros. simpl. split; intros [H1 H2]; (split; [exact H1|]); clear H1.
  - induction kids as [|k r IH]; constructor; destruct H2; [assumption|]. apply IH. assumption.
  - induction kids as [|k r IH]; [exact I|]. inversion H2; subst. split; [assumption|].
    apply IH. assumption.
Qed.

Fixpoint pre_fs (fs : list frame) (root : list tree) : list nat :=
  match fs with
  | [] => flat_map preorder root
  | f :: r => pre_fs r root ++ f_id f :: flat_map preorder (f_kids f)
  end.

Lemma flat_map_app' : forall {A B} (f : A -> list B) l1 l2,
  flat_map f (l1 ++ l2) = flat_map f l1 ++ flat_map f l2.
Proof. intros. apply flat_map_app. Qed.

Lemma pre_plug : forall fs hole root,
  flat_map preorder (plug fs hole root) = pre_fs fs root ++ flat_map preorder hole.
Proof.
  induction fs; simpl; intros.
  - now rewrite flat_map_app'.
  - rewrite IHfs. simpl. rewrite flat_map_app', app_nil_r, <- app_assoc. reflexivity.
Qed.

Lemma pre_add_leaf : forall t fs root fs' root',
  add_leaf t fs root = (fs', root') -> pre_fs fs' root' = pre_fs fs root ++ preorder t.
Proof.
  intros t [|f r] root fs' root' H; simpl in H; inversion H; subst; simpl.
  - rewrite flat_map_app'. simpl. now rewrite app_nil_r.
  - rewrite flat_map_app'. simpl. rewrite app_nil_r.
    rewrite <- app_assoc. simpl. auto.
Qed.

Lemma plug_add_leaf : forall t fs root fs' root' ,
  add_leaf t fs root = (fs', root') -> plug fs' [] root' = plug fs [t] root.
Proof.
  intros t [|f r] root fs' root' H; simpl in H; inversion H; subst; simpl; auto.
  - now rewrite app_nil_r.
  - unfold f_close. simpl. now rewrite app_nil_r.
Qed.

(** ** Node similarity *)
Definition same_node (n n' : node) : Prop :=
  n_tag n' = n_tag n /\ n_parent n' = n_parent n /\ n_children n' = n_children n
  /\ n_attrs n' = n_attrs n /\ n_classes n' = n_classes n /\ n_id n' = n_id n
  /\ n_data n' = n_data n /\ n_link n' = n_link n.
Definition sim (d d' : dom) (j : nat) : Prop :=
  forall n, node_at d j = Some n -> exists n', node_at d' j = Some n' /\ same_node n n'.
Definition simc (d d' : dom) (j : nat) : Prop :=
  forall n, node_at d j = Some n ->
  exists n', node_at d' j = Some n' /\ same_node n n' /\ n_closed n' = n_closed n.

Lemma simc_sim : forall d d' j, simc d d' j -> sim d d' j.
Proof. intros d d' j H n Hn. destruct (H n Hn) as [n' [? [? ?]]]. eauto. Qed.

Lemma carries_same : forall n n' a, same_node n n' -> carries n a -> carries n' a.
Proof.
  unfold carries. intros n n' a (H1&H2&H3&H4&H5&H6&H7&H8).
  rewrite H4, H5, H6. auto.
Qed.
Lemma link_data_same : forall n n' t a, same_node n n' -> link_data n t a -> link_data n' t a.
Proof.
  unfold link_data. intros n n' t a (H1&H2&H3&H4&H5&H6&H7&H8). rewrite H8. auto.
Qed.

Lemma stores_ext : forall d d' t p,
  (forall j, In j (preorder t) -> sim d d' j) -> stores d p t -> stores d' p t.
Proof.
  intros d d' t. induction t as [i t a kids IH | i s] using tree_ind2; intros p Hs H.
  - rewrite stores_Tag in *. destruct H as [(n & Hn & H1 & H2 & H3 & H4 & H5 & H6) Hk].
    destruct (Hs i) with (n := n) as [n' [Hn' Hsame]]; simpl; auto.
    split.
    + pose proof Hsame as (E1&E2&E3&E4&E5&E6&E7&E8).
      exists n'. repeat split; try congruence; try apply (carries_same _ _ _ Hsame H5).
      apply (link_data_same _ _ _ _ Hsame H6).
    + rewrite Forall_forall in *. intros k Hin. apply IH; auto.
      intros j Hj. apply Hs. simpl. right. apply in_flat_map. eauto.
  - simpl in *. destruct H as (n & Hn & H1 & H2 & H3 & H4).
    destruct (Hs i) with (n := n) as [n' [Hn' Hsame]]; simpl; auto.
    destruct Hsame as (E1&E2&E3&E4&E5&E6&E7&E8).
    exists n'. repeat split; congruence.
Qed.

(** ** The zipper is stored in the arena *)
Definition pp (fs : list frame) : pref :=
  match fs with [] => PRoot | f :: _ => PNode (f_id f) end.

Fixpoint frames_ok (d : dom) (fs : list frame) (hole : list nat) (root : list tree) : Prop :=
  match fs with
  | [] => d_root d = map tid root ++ hole /\ Forall (stores d PRoot) root
  | f :: r =>
      (exists n, node_at d (f_id f) = Some n /\ n_tag n = Some (f_tag f) /\ n_data n = None
                 /\ n_parent n = pp r /\ n_children n = map tid (f_kids f) ++ hole
                 /\ carries n (f_attrs f) /\ link_data n (f_tag f) (f_attrs f)
                 /\ n_closed n = false)
      /\ Forall (stores d (PNode (f_id f))) (f_kids f)
      /\ frames_ok d r [f_id f] root
  end.

Lemma frames_ext : forall d d' fs hole root,
  d_root d' = d_root d ->
  (forall j, In j (pre_fs fs root) -> simc d d' j) ->
  frames_ok d fs hole root -> frames_ok d' fs hole root.
Proof.
  induction fs as [|f r IH]; simpl; intros hole root Hr Hs H.
  - rewrite Hr. destruct H as [H1 H2]. split; auto.
    rewrite Forall_forall in *. intros t Ht. apply stores_ext with (d := d); auto.
    intros j Hj. apply simc_sim, Hs, in_flat_map. eauto.
  - destruct H as [(n & Hn & H1 & H2 & H3 & H4 & H5 & H6 & H7) [Hk Hf]].
    repeat split.
    + destruct (Hs (f_id f)) with (n := n) as [n' [Hn' [Hsame Hc]]]; auto.
      { apply in_or_app. simpl. auto. }
      pose proof Hsame as (E1&E2&E3&E4&E5&E6&E7&E8).
      exists n'. repeat split; try congruence; try apply (carries_same _ _ _ Hsame H5).
      apply (link_data_same _ _ _ _ Hsame H6).
    + rewrite Forall_forall in *. intros t Ht. apply stores_ext with (d := d); auto.
      intros j Hj. apply simc_sim, Hs, in_or_app. right. right. apply in_flat_map. eauto.
    + apply IH; auto. intros j Hj. apply Hs, in_or_app. auto.
Qed.

Lemma frames_document : forall d fs hole root,
  frames_ok d fs (map tid hole) root -> Forall (stores d (pp fs)) hole ->
  document d (plug fs hole root).
Proof.
  induction fs as [|f r IH]; simpl; intros hole root H Hh.
  - destruct H as [H1 H2]. split.
    + now rewrite map_app.
    + apply Forall_app; auto.
  - destruct H as [(n & Hn & H1 & H2 & H3 & H4 & H5 & H6 & H7) [Hk Hf]].
    apply IH; auto. constructor; auto. unfold f_close. rewrite stores_Tag. split.
    + exists n. repeat split; auto; try apply H5. now rewrite map_app.
    + apply Forall_app. auto.
Qed.

(** ** The invariant *)
Record Inv (s : pstate) (z : zst) : Prop := {
  inv_frames : frames_ok (p_dom s) (z_open z) [] (z_root z);
  inv_stack : p_stack s = map f_id (z_open z);
  inv_pre : pre_fs (z_open z) (z_root z) = seq 0 (z_n z);
  inv_len : length (d_nodes (p_dom s)) = z_n z;
  inv_flag : p_in_pre s = z_pre z }.

Lemma Inv0 : Inv pstate0 z0.
Proof. constructor; simpl; auto. Qed.

Lemma inv_top : forall s z, Inv s z ->
  get_top s = match z_open z with [] => None | f :: _ => Some (f_id f) end.
Proof.
  intros s z H. unfold get_top. rewrite (inv_stack _ _ H).
  pose proof (inv_frames _ _ H) as F.
  destruct (z_open z) as [|f r]; simpl in *; auto.
  destruct F as [(n & Hn & _ & _ & _ & _ & _ & _ & Hc) _]. rewrite Hn, Hc. auto.
Qed.

Lemma seq_snoc : forall n, seq 0 (S n) = seq 0 n ++ [n].
Proof. intros. rewrite seq_S. simpl. auto. Qed.

(** upd *)
Lemma upd_length : forall {A} (l : list A) i f, length (upd l i f) = length l.
Proof. induction l; destruct i; simpl; auto. Qed.
Lemma upd_same : forall {A} (l : list A) i f,
  nth_error (upd l i f) i = option_map f (nth_error l i).
Proof. induction l; destruct i; simpl; auto. Qed.
Lemma upd_other : forall {A} (l : list A) i j f, i <> j ->
  nth_error (upd l i f) j = nth_error l j.
Proof.
  induction l; destruct i, j; simpl; intros; auto; try congruence.
Qed.

Lemma node_at_lt : forall d j n, node_at d j = Some n -> j < length (d_nodes d).
Proof. intros. apply nth_error_Some. unfold node_at in H. congruence. Qed.

(** Appending a node under the innermost open tag. *)
Definition appended (d d' : dom) (p : pref) (n : node) : Prop :=
  length (d_nodes d') = S (length (d_nodes d))
  /\ node_at d' (length (d_nodes d)) = Some n
  /\ (forall j, (match p with PNode k => j <> k | _ => True end) -> simc d d' j)
  /\ (forall k m, p = PNode k -> node_at d k = Some m ->
        exists m', node_at d' k = Some m' /\ n_closed m' = n_closed m
          /\ same_node (add_child (length (d_nodes d)) m) m')
  /\ d_root d' = match p with
                 | PNode _ => d_root d
                 | _ => d_root d ++ [length (d_nodes d)]
                 end.

Lemma same_node_refl : forall n, same_node n n.
Proof. intros. repeat split. Qed.

Lemma append_node_appended : forall d p n,
  (forall k, p = PNode k -> exists m, node_at d k = Some m) ->
  appended d (append_node d p n) p n.
Proof.
  intros d p n Hp. unfold appended, append_node, node_at.
  assert (G : forall d0 : dom, forall r, 
    length (d_nodes (Dom (d_nodes d0 ++ [n]) r)) = S (length (d_nodes d0))
    /\ nth_error (d_nodes (Dom (d_nodes d0 ++ [n]) r)) (length (d_nodes d0)) = Some n
    /\ (forall j, simc d0 (Dom (d_nodes d0 ++ [n]) r) j)).
  { intros d0 r. simpl. rewrite app_length. simpl. split; [lia|]. split.
    - rewrite nth_error_app2 by lia. now rewrite Nat.sub_diag.
    - intros j m Hm. exists m. split.
      + unfold node_at in *. simpl. rewrite nth_error_app1; auto.
        apply nth_error_Some. congruence.
      + split; auto. apply same_node_refl. }
  destruct p as [| |k]; simpl.
  - specialize (G d (d_root d ++ [length (d_nodes d)])). destruct G as [G1 [G2 G3]].
    repeat split; auto. intros; discriminate.
  - specialize (G d (d_root d ++ [length (d_nodes d)])). destruct G as [G1 [G2 G3]].
    repeat split; auto. intros; discriminate.
  - destruct (Hp k eq_refl) as [m Hm].
    rewrite app_length, upd_length. simpl. split; [lia|]. split.
    { rewrite nth_error_app2 by (rewrite upd_length; lia). rewrite upd_length, Nat.sub_diag. auto. }
    split; [|split; auto].
    + intros j Hj m0 Hm0. unfold node_at in *. simpl. exists m0. split.
      * rewrite nth_error_app1.
        { rewrite upd_other; auto. }
        { rewrite upd_length. apply nth_error_Some. congruence. }
      * split; auto. apply same_node_refl.
    + intros k' m' E Hm'. inversion E; subst k'. unfold node_at in *.
      exists (add_child (length (d_nodes d)) m'). split.
      * rewrite nth_error_app1.
        { rewrite upd_same, Hm'. auto. }
        { rewrite upd_length. apply nth_error_Some. congruence. }
      * split; auto. apply same_node_refl.
Qed.

Lemma NoDup_app_disj : forall {A} (l1 l2 : list A) x,
  NoDup (l1 ++ l2) -> In x l1 -> In x l2 -> False.
Proof.
  induction l1; simpl; intros l2 x H H1 H2; auto.
  inversion H; subst. destruct H1.
  - subst. apply H4. apply in_or_app. auto.
  - eapply IHl1; eauto.
Qed.

Lemma Inv_NoDup : forall s z, Inv s z -> NoDup (pre_fs (z_open z) (z_root z)).
Proof. intros. rewrite (inv_pre _ _ H). apply seq_NoDup. Qed.

(** Appending a leaf [t] stored in the new node. *)
Lemma frames_leaf : forall d d' fs root t n,
  NoDup (pre_fs fs root) ->
  (forall j, In j (pre_fs fs root) -> j < length (d_nodes d)) ->
  frames_ok d fs [] root ->
  appended d d' (match fs with [] => PRoot | f :: _ => PNode (f_id f) end) n ->
  tid t = length (d_nodes d) -> stores d' (pp fs) t ->
  forall fs' root', add_leaf t fs root = (fs', root') -> frames_ok d' fs' [] root'.
Proof.
  intros d d' [|f r] root t n ND Hlt F (A1 & A2 & A3 & A4 & A5) Ht Hst fs' root' E;
    simpl in E; inversion E; subst; clear E; simpl in *.
  - destruct F as [F1 F2]. rewrite A5, F1, map_app. simpl. rewrite Ht, !app_nil_r. split; auto.
    apply Forall_app. split; auto.
    rewrite Forall_forall in *. intros x Hx. apply stores_ext with (d := d); auto.
    intros j _. apply simc_sim, A3. auto.
  - destruct F as [(m & Hm & H1 & H2 & H3 & H4 & H5 & H6 & H7) [Hk Hf]].
    rewrite app_nil_r in H4.
    destruct (A4 (f_id f) m eq_refl Hm) as (m' & Hm' & Hc & Hsame).
    pose proof Hsame as (E1&E2&E3&E4&E5&E6&E7&E8). simpl in E1,E2,E3,E4,E5,E6,E7,E8.
    repeat split.
    + exists m'. repeat split; try congruence.
      * rewrite E3, H4, map_app. simpl. now rewrite Ht, app_nil_r.
      * intros. rewrite E4. apply H5; auto.
      * rewrite E4. apply H5.
      * rewrite E5. apply H5.
      * rewrite E6. apply H5.
      * unfold link_data in *. rewrite E8. auto.
    + apply Forall_app. split; auto. rewrite Forall_forall in *. intros x Hx.
      apply stores_ext with (d := d); auto. intros j Hj. apply simc_sim, A3.
      intros ->. apply NoDup_remove_2 in ND. apply ND, in_or_app. right. apply in_flat_map. eauto.
    + apply frames_ext with (d := d); auto. intros j Hj. apply A3. intros ->.
      eapply NoDup_app_disj; eauto. simpl. auto.
Qed.

(** Pushing an open tag. *)
Lemma frames_push : forall d d' fs root t a n,
  NoDup (pre_fs fs root) ->
  frames_ok d fs [] root ->
  appended d d' (pp fs) n ->
  n_tag n = Some t -> n_data n = None -> n_parent n = pp fs -> n_children n = [] ->
  carries n a -> link_data n t a -> n_closed n = false ->
  frames_ok d' (Fr (length (d_nodes d)) t a [] :: fs) [] root.
Proof.
  intros d d' fs root t a n ND F (A1 & A2 & A3 & A4 & A5) N1 N2 N3 N4 N5 N6 N7.
  simpl. repeat split.
  - exists n. repeat split; auto; apply N5.
  - constructor.
  - destruct fs as [|f r]; simpl in *.
    + destruct F as [F1 F2]. rewrite A5, F1, app_nil_r. split; auto.
      rewrite Forall_forall in *. intros x Hx. apply stores_ext with (d := d); auto.
      intros j _. apply simc_sim, A3. auto.
    + destruct F as [(m & Hm & H1 & H2 & H3 & H4 & H5 & H6 & H7) [Hk Hf]].
      rewrite app_nil_r in H4.
      destruct (A4 (f_id f) m eq_refl Hm) as (m' & Hm' & Hc & Hsame).
      pose proof Hsame as (E1&E2&E3&E4&E5&E6&E7&E8). simpl in E1,E2,E3,E4,E5,E6,E7,E8.
      repeat split.
      * exists m'. repeat split; try congruence.
        -- intros. rewrite E4. apply H5; auto.
        -- rewrite E4. apply H5.
        -- rewrite E5. apply H5.
        -- rewrite E6. apply H5.
        -- unfold link_data in *. rewrite E8. auto.
      * rewrite Forall_forall in *. intros x Hx.
        apply stores_ext with (d := d); auto. intros j Hj. apply simc_sim, A3.
        intros ->. apply NoDup_remove_2 in ND. apply ND, in_or_app. right. apply in_flat_map. eauto.
      * apply frames_ext with (d := d); auto. intros j Hj. apply A3. intros ->.
        eapply NoDup_app_disj; eauto. simpl. auto.
Qed.

(** Attributes. *)
Lemma dget_dict_of : forall l acc k,
  dget k (dict_of l acc) = match dlast k l with Some v => Some v | None => dget k acc end.
Proof.
  induction l as [|[k' v] l IH]; simpl; intros; auto.
  rewrite IH. destruct (dlast k l); auto. rewrite dget_dset. destruct (seqb k k'); auto.
Qed.

Lemma dget_map : forall {A B} (f : str -> A -> B) (d : dict A) k,
  dget k (map (fun p => (fst p, f (fst p) (snd p))) d) =
  match dget k d with Some v => Some (f k v) | None => None end.
Proof.
  induction d as [|[k' v] d IH]; simpl; intros; auto.
  destruct (seqb_spec k k'); subst; auto.
Qed.

Lemma tag_attrs_carries : forall a av cls nid,
  tag_attrs a = Ok (av, cls, nid) ->
  forall t p ch c dt l pd, carries (Node t p ch c av cls nid dt l pd) a.
Proof.
  unfold tag_attrs. intros a av cls nid H t p ch c dt l pd.
  inv_bind H. inversion H; subst; clear H.
  unfold carries; simpl.
  rewrite !dget_dict_of in *. simpl in *.
  set (f := fun (k : str) (v : option str) => if seqb k (lit "class")
    then match x with Some c => AvList c | None => AvNone end
    else match v with Some s => AvStr s | None => AvNone end).
  change (fun p0 : str * option str => _) with (fun p0 : str * option str => (fst p0, f (fst p0) (snd p0))).
  setoid_rewrite dget_map. setoid_rewrite dget_dict_of. simpl.
  split; [|split; [|split]].
  - intros k Hk. subst f. cbv beta. destruct (seqb_spec k (lit "class")) as [e|_]; [elim (Hk e)|].
    destruct (dlast k a) as [[s|]|]; auto.
  - subst f. simpl. destruct (dlast (lit "class") a) as [[s|]|]; inversion E; subst; auto.
  - unfold attr. destruct (dlast (lit "class") a) as [[s|]|]; inversion E; subst; auto.
  - unfold attr. destruct (dlast (lit "id") a) as [[s|]|]; auto.
Qed.

Lemma attr_str_attr : forall k a, attr_str k a = attr k a.
Proof.
  intros. unfold attr_str, attr. rewrite dget_dict_of. destruct (dlast (lit k) a); auto.
Qed.

Lemma make_link_data : forall g ref t a lk,
  is_link t = true -> make_link g ref t a = Ok lk ->
  forall tg p ch c av cls nid dt pd,
  link_data (Node tg p ch c av cls nid dt (Some lk) pd) t a.
Proof.
  unfold make_link. intros. inv_bind H0. inversion H0; subst; clear H0.
  unfold link_data, is_link in *. simpl.
  destruct (seqb_spec t (lit "a")).
  - subst. rewrite !attr_str_attr.
    change (seqb (lit "a") (lit "img")) with false. cbv iota. eexists. split; [reflexivity|]. auto.
  - simpl in H. rewrite H, !attr_str_attr. eexists. split; [reflexivity|]. auto.
Qed.

Lemma is_void_void : forall t, is_void t = void t.
Proof. reflexivity. Qed.

(** The pending/footer bookkeeping does not change the tree. *)
Lemma same_nodes_simc : forall d nodes',
  (forall j n, node_at d j = Some n -> exists n', nth_error nodes' j = Some n' /\ same_node n n'
      /\ n_closed n' = n_closed n) ->
  forall j, simc d (Dom nodes' (d_root d)) j.
Proof. intros d nodes' H j n Hn. destruct (H j n Hn) as (n' & ? & ? & ?). eauto. Qed.

Lemma simc_pending : forall d k id,
  forall j, simc d (Dom (upd (d_nodes d) k (add_pending id)) (d_root d)) j.
Proof.
  intros d k id j n Hn. unfold node_at in *. simpl.
  destruct (Nat.eq_dec k j) as [->|N].
  - rewrite upd_same, Hn. simpl. eexists. split; eauto. split; auto. repeat split.
  - rewrite upd_other by auto. exists n. split; auto. split; auto. apply same_node_refl.
Qed.

Lemma simc_closed : forall d k,
  forall j, sim d (Dom (upd (d_nodes d) k set_closed) (d_root d)) j.
Proof.
  intros d k j n Hn. unfold node_at in *. simpl.
  destruct (Nat.eq_dec k j) as [->|N].
  - rewrite upd_same, Hn. simpl. eexists. split; eauto. repeat split.
  - rewrite upd_other by auto. exists n. split; auto. apply same_node_refl.
Qed.

Lemma Inv_lt : forall s z j, Inv s z -> In j (pre_fs (z_open z) (z_root z)) ->
  j < length (d_nodes (p_dom s)).
Proof.
  intros s z j H Hj. rewrite (inv_pre _ _ H) in Hj. apply in_seq in Hj.
  rewrite (inv_len _ _ H). lia.
Qed.

Lemma pp_node : forall s z k, Inv s z -> pp (z_open z) = PNode k ->
  exists m, node_at (p_dom s) k = Some m.
Proof.
  intros s z k H E. pose proof (inv_frames _ _ H) as F.
  destruct (z_open z) as [|f r]; simpl in E; inversion E; subst.
  simpl in F. destruct F as [(n & Hn & _) _]. eauto.
Qed.

Lemma inv_parent : forall s z, Inv s z ->
  match get_top s with Some i => PNode i | None => PRoot end = pp (z_open z).
Proof. intros. rewrite (inv_top _ _ H). destruct (z_open z); auto. Qed.

Lemma step_start : forall g t a s s' z,
  Inv s z -> handle_starttag g t a s = Ok s' -> Inv s' (zstep (OStart t a) z).
Proof.
  intros g t a s s' z I H. unfold handle_starttag in H.
  rewrite (inv_parent _ _ I) in H.
  inv_bind H. destruct x as [[av cls] nid].
  inv_bind H. inv_bind H. destruct x0 as [[d footer] next].
  inversion H; subst; clear H.
  set (n := Node (Some t) (pp (z_open z)) [] (is_void t) av cls nid None x []) in *.
  assert (Hd : d_root d = d_root (p_dom s) /\ length (d_nodes d) = length (d_nodes (p_dom s))
               /\ forall j, simc (p_dom s) d j).
  { clear - E1 I. destruct (is_link t).
    - destruct (seqb (placement_of g t) (lit "footer")).
      { inversion E1; subst. repeat split; auto. intros j m Hm. exists m.
        split; auto. split; auto. apply same_node_refl. }
      destruct (seqb (placement_of g t) (lit "after_block")).
      { destruct (pp (z_open z)); inversion E1; subst. simpl. rewrite upd_length.
        repeat split; auto. apply simc_pending. }
      inversion E1; subst. repeat split; auto. intros j m Hm. exists m.
      split; auto. split; auto. apply same_node_refl.
    - inversion E1; subst. repeat split; auto. intros j m Hm. exists m.
      split; auto. split; auto. apply same_node_refl. }
  destruct Hd as [Hd1 [Hd2 Hd3]].
  assert (F : frames_ok d (z_open z) [] (z_root z)).
  { apply frames_ext with (d := p_dom s); auto. apply I. }
  assert (Hp : forall k, pp (z_open z) = PNode k -> exists m, node_at d k = Some m).
  { intros k Hk. destruct (pp_node _ _ _ I Hk) as [m Hm]. destruct (Hd3 k m Hm) as (m' & ? & _). eauto. }
  pose proof (append_node_appended d (pp (z_open z)) n Hp) as A.
  assert (Hcar : carries n a) by (apply tag_attrs_carries; auto).
  assert (Hlk : link_data n t a).
  { destruct (is_link t) eqn:L.
    - inv_bind E0. inversion E0; subst. eapply make_link_data; eauto.
    - inversion E0; subst. unfold link_data, is_link in *. apply orb_false_iff in L as [L1 L2].
      rewrite L1, L2. reflexivity. }
  unfold zstep. change (void t) with (is_void t). destruct (is_void t) eqn:V.
  - destruct (add_leaf (Tag (z_n z) t a []) (z_open z) (z_root z)) as [fs root] eqn:AL.
    constructor; simpl.
    + eapply frames_leaf with (n := n); eauto.
      * eapply Inv_NoDup; eauto.
      * intros. rewrite Hd2. eapply Inv_lt; eauto.
      * rewrite Hd2. symmetry. apply I.
      * rewrite stores_Tag. split; [|constructor]. exists n. split.
        { rewrite <- (inv_len _ _ I), <- Hd2. apply A. }
        repeat split; auto; apply Hcar.
    + rewrite (inv_stack _ _ I). destruct (z_open z); simpl in AL; inversion AL; subst; auto.
    + rewrite (pre_add_leaf _ _ _ _ _ AL), (inv_pre _ _ I). simpl preorder.
      now rewrite <- seq_snoc.
    + destruct A as [A1 _]. rewrite A1, Hd2, (inv_len _ _ I). auto.
    + now rewrite (inv_flag _ _ I).
  - constructor; simpl.
    + assert (EN : z_n z = length (d_nodes d)) by (rewrite Hd2; symmetry; apply I).
      rewrite EN. apply (frames_push d _ (z_open z) (z_root z) t a n); auto.
      eapply Inv_NoDup; eauto.
    + rewrite (inv_stack _ _ I), (inv_len _ _ I). auto.
    + rewrite (inv_pre _ _ I). change [z_n z] with ([z_n z]). now rewrite <- seq_snoc.
    + destruct A as [A1 _]. rewrite A1, Hd2, (inv_len _ _ I). auto.
    + now rewrite (inv_flag _ _ I).
Qed.

Lemma step_data : forall x s z,
  Inv s z -> Inv (handle_data x s) (zstep (OData x) z).
Proof.
  intros x s z I. unfold handle_data. rewrite (inv_top _ _ I).
  set (p := match match z_open z with [] => None | f :: _ => Some (f_id f) end with
            | Some i => PNode i | None => PNone end).
  set (n := Node None p [] true [] [] None (Some (data_text (p_in_pre s) x)) None []).
  assert (Hp : forall k, p = PNode k -> exists m, node_at (p_dom s) k = Some m).
  { intros k Hk. apply (pp_node _ _ _ I). subst p. destruct (z_open z); simpl; auto. discriminate. }
  pose proof (append_node_appended (p_dom s) p n Hp) as A.
  assert (A' : appended (p_dom s) (append_node (p_dom s) p n)
                 (match z_open z with [] => PRoot | f :: _ => PNode (f_id f) end) n).
  { subst p. destruct (z_open z); simpl in *; auto.
    destruct A as (A1 & A2 & A3 & A4 & A5). repeat split; auto. intros; discriminate. }
  unfold zstep. rewrite <- (inv_flag _ _ I).
  destruct (add_leaf (Text (z_n z) (data_text (p_in_pre s) x)) (z_open z) (z_root z)) as [fs root] eqn:AL.
  constructor; simpl.
  - eapply frames_leaf with (n := n); eauto.
    + eapply Inv_NoDup; eauto.
    + intros. eapply Inv_lt; eauto.
    + apply I.
    + symmetry. apply I.
    + simpl. exists n. split.
      { rewrite <- (inv_len _ _ I). apply A. }
      repeat split; auto. simpl. subst p. destruct (z_open z); auto.
  - rewrite (inv_stack _ _ I). destruct (z_open z); simpl in AL; inversion AL; subst; auto.
  - rewrite (pre_add_leaf _ _ _ _ _ AL), (inv_pre _ _ I). simpl preorder.
    now rewrite <- seq_snoc.
  - destruct A as [A1 _]. rewrite A1, (inv_len _ _ I). auto.
  - reflexivity.
Qed.

Lemma frames_close_top : forall d f r root,
  frames_ok d (f :: r) [] root ->
  NoDup (pre_fs (f :: r) root) ->
  forall fs' root', add_leaf (f_close f []) r root = (fs', root') ->
  frames_ok (Dom (upd (d_nodes d) (f_id f) set_closed) (d_root d)) fs' [] root'.
Proof.
  intros d f r root F ND fs' root' E.
  set (d' := Dom (upd (d_nodes d) (f_id f) set_closed) (d_root d)).
  assert (S : forall j, sim d d' j) by apply simc_closed.
  assert (SC : forall j, j <> f_id f -> simc d d' j).
  { intros j Hj m Hm. exists m. subst d'. unfold node_at in *. simpl.
    rewrite upd_other by auto. split; auto. split; auto. apply same_node_refl. }
  simpl in F. destruct F as [(m & Hm & H1 & H2 & H3 & H4 & H5 & H6 & H7) [Hk Hf]].
  rewrite app_nil_r in H4.
  assert (T : stores d' (pp r) (f_close f [])).
  { apply stores_ext with (d := d); auto. unfold f_close. rewrite app_nil_r. rewrite stores_Tag.
    split; auto. exists m. repeat split; auto; apply H5. }
  destruct r as [|f1 r]; simpl in E; inversion E; subst; clear E; simpl in *.
  - destruct Hf as [F1 F2]. rewrite app_nil_r, map_app. simpl. split; auto.
    apply Forall_app. split; auto.
    rewrite Forall_forall in *. intros x Hx. apply stores_ext with (d := d); auto.
  - destruct Hf as [(m1 & Hm1 & G1 & G2 & G3 & G4 & G5 & G6 & G7) [Gk Gf]].
    assert (ND' := ND).
    assert (N1 : f_id f1 <> f_id f).
    { intros Heq. apply (NoDup_app_disj _ _ (f_id f1) ND).
      - apply in_or_app. simpl. auto.
      - simpl. auto. }
    destruct (SC (f_id f1) N1 m1 Hm1) as (m1' & Hm1' & Hsame & Hcl).
    pose proof Hsame as (E1&E2&E3&E4&E5&E6&E7&E8).
    repeat split.
    + exists m1'. repeat split; try congruence.
      * rewrite E3, G4, map_app, app_nil_r. auto.
      * intros. rewrite E4. apply G5; auto.
      * rewrite E4. apply G5.
      * rewrite E5. apply G5.
      * rewrite E6. apply G5.
      * unfold link_data in *. rewrite E8. auto.
    + apply Forall_app. split; auto. rewrite Forall_forall in *. intros x Hx.
      apply stores_ext with (d := d); auto.
    + apply frames_ext with (d := d); auto. intros j Hj. apply SC. intros ->.
      apply (NoDup_app_disj _ _ (f_id f) ND).
      * apply in_or_app. auto.
      * simpl. auto.
Qed.

Lemma step_end : forall t s z,
  Inv s z -> Inv (handle_endtag t s) (zstep (OEnd t) z).
Proof.
  intros t s z I. unfold handle_endtag, zstep. change (is_void t) with (void t).
  destruct (void t); auto.
  rewrite (inv_top _ _ I).
  pose proof (inv_frames _ _ I) as F. pose proof (Inv_NoDup _ _ I) as ND.
  pose proof (inv_stack _ _ I) as ST. pose proof (inv_pre _ _ I) as PR.
  destruct (z_open z) as [|f r] eqn:EO.
  { constructor; simpl; auto; try apply I. now rewrite (inv_flag _ _ I). }
  pose proof F as F'. simpl in F'. destruct F' as [(m & Hm & H1 & _) _].
  rewrite Hm, H1. destruct (seqb (f_tag f) t) eqn:ET.
  - destruct (add_leaf (f_close f []) r (z_root z)) as [fs root] eqn:AL.
    constructor; simpl.
    + eapply frames_close_top; eauto.
    + rewrite ST. simpl. destruct r; simpl in AL; inversion AL; subst; auto.
    + rewrite (pre_add_leaf _ _ _ _ _ AL). rewrite <- PR. unfold f_close. simpl.
      now rewrite app_nil_r.
    + rewrite upd_length. apply I.
    + now rewrite (inv_flag _ _ I).
  - constructor; simpl; auto; try apply I; try (now rewrite (inv_flag _ _ I)).
Qed.

Lemma step_close : forall g s s' z,
  Inv s z -> close g s = Ok s' -> Inv s' (zstep OClose z).
Proof.
  intros g s s' z I H. unfold close in H. inv_bind H. inv_bind H. inv_bind H.
  inversion H; subst; clear H. simpl.
  pose proof (inv_frames _ _ I) as F. pose proof (inv_pre _ _ I) as PR.
  destruct (frames_document (p_dom s) (z_open z) [] (z_root z)) as [D1 D2]; auto.
  constructor; simpl; try apply I.
  - rewrite app_nil_r. auto.
  - reflexivity.
  - rewrite pre_plug. simpl. now rewrite app_nil_r.
Qed.

Lemma step_inv : forall g o s s' z,
  Inv s z -> step g o s = Ok s' -> Inv s' (zstep o z).
Proof.
  intros g [t a|t|x| |] s s' z I H; cbn [step] in H.
  - eapply step_start; eauto.
  - inversion H; subst. now apply step_end.
  - inversion H; subst. now apply step_data.
  - eapply step_close; eauto.
  - inversion H; subst. constructor; simpl; auto. apply I.
Qed.

Lemma run_inv : forall g h s s' z,
  Inv s z -> run g h s = Ok s' -> Inv s' (zrun h z).
Proof.
  induction h as [|o h IH]; simpl; intros s s' z I H.
  - inversion H; subst; auto.
  - inv_bind H. eapply IH; eauto. eapply step_inv; eauto.
Qed.

Lemma run_app : forall g h1 h2 s,
  run g (h1 ++ h2) s = let* s1 := run g h1 s in run g h2 s1.
Proof.
  induction h1; simpl; intros; auto. destruct (step g a s); simpl; auto.
Qed.

(** The document forest of a state. *)
Definition forest (z : zst) : list tree := plug (z_open z) [] (z_root z).

Lemma Inv_document : forall s z, Inv s z ->
  document (p_dom s) (forest z)
  /\ flat_map preorder (forest z) = seq 0 (length (d_nodes (p_dom s))).
Proof.
  intros s z I. split.
  - apply frames_document; auto. apply I.
  - unfold forest. rewrite pre_plug, (inv_pre _ _ I), (inv_len _ _ I). simpl. apply app_nil_r.
Qed.
End TF.
