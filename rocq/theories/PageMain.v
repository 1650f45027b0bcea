(** From nodes to the whole page. *)
From Verif Require Import WrapFacts WrapLoop WrapWidth.
From Verif Require Import BaseFacts StrFacts SelFacts TreeFacts HistoryFacts DomFacts LineFacts BoxFacts AnsiStyle RenderFacts ElemFacts ElemText LinkFacts DocFacts.
From Verif Require Export PageFacts.
Open Scope Z_scope.

Section M.
Context `{U : Uni}.

(** ** Reference numbers *)
Lemma rank_seq : forall (r : nat -> Z) L a, map r L = map Z.of_nat (seq a (length L)) -> forall i, In i L -> r i = Z.of_nat a - 1 + rank i L.
Proof.
  intros r L. induction L as [|x L IH]; intros a H i I; [contradiction|]. cbn [map length seq] in H. injection H as H1 H2. cbn [rank].
  destruct (Nat.eqb_spec i x) as [->|NE]; [lia|]. destruct I as [->|I]; [congruence|]. rewrite (IH (S a) H2 i I). lia.
Qed.
Definition numbered_at (g : cfg) (d : dom) (i : nat) : bool := match tag_at d i with Some t => numbered g t | None => false end.
Lemma numbered_filter : forall g d q t, stores d q t -> numbered_ids g t = filter (numbered_at g d) (preorder t).
Proof.
  intros g d q t. revert q. induction t as [i tg a kids IH|i x] using tree_ind2; intros q H.
  - apply stores_Tag in H as [(n & H1 & H2 & _) HK]. cbn [numbered_ids preorder filter].
    assert (E : flat_map (numbered_ids g) kids = filter (numbered_at g d) (flat_map preorder kids)).
    { clear -IH HK. induction IH as [|k kids E _ IH2]; auto. inversion HK; subst. cbn [flat_map]. rewrite filter_app, <- (E _ H1), IH2; auto. }
    rewrite E. unfold numbered_at at 2, tag_at. rewrite H1, H2. destruct (numbered g tg); reflexivity.
  - cbn [stores] in H. destruct H as (n & H1 & H2 & _). cbn [numbered_ids preorder filter]. unfold numbered_at, tag_at. rewrite H1, H2. reflexivity.
Qed.
Lemma numbered_forest : forall g d F, Forall (stores d PRoot) F -> flat_map (numbered_ids g) F = filter (numbered_at g d) (flat_map preorder F).
Proof. intros g d F H. induction H as [|t F H _ IH]; auto. cbn [flat_map]. rewrite filter_app, <- (numbered_filter _ _ _ _ H), IH. reflexivity. Qed.
Lemma numbers_exact : forall g h s F, run g h pstate0 = Ok s -> document (p_dom s) F ->
  flat_map preorder F = seq 0 (length (d_nodes (p_dom s))) ->
  forall i n t lk, is_tagged (p_dom s) i n t -> numbered g t = true -> n_link n = Some lk ->
    lc_reference (lk_ctx lk) = rank i (flat_map (numbered_ids g) F).
Proof.
  intros g h s F H [D1 D2] P i n t lk [T1 T2] NB HL. rewrite (numbered_forest _ _ _ D2), P.
  set (L := filter (numbered_at g (p_dom s)) (seq 0 (length (d_nodes (p_dom s))))).
  destruct (reach_refs _ _ _ H) as [R _]. rewrite references_seq in R.
  set (r := fun j => match node_at (p_dom s) j with Some m => match n_link m with Some l => lc_reference (lk_ctx l) | None => 0 end | None => 0 end).
  assert (E : flat_map (fun j => match node_at (p_dom s) j with Some m => reference_of g m | None => [] end) (seq 0 (length (d_nodes (p_dom s)))) = map r L).
  { unfold L. generalize (seq 0 (length (d_nodes (p_dom s)))) as l. induction l as [|j l IH]; auto. cbn [flat_map filter]. rewrite IH.
    unfold numbered_at at 2, tag_at, r at 2. unfold reference_of. destruct (node_at (p_dom s) j) as [m|] eqn:EJ; [|reflexivity].
    pose proof (lo_info _ _ (reach_links _ _ _ H) j m EJ) as X. unfold link_info in X.
    destruct (n_tag m) as [t'|]; [|reflexivity]. destruct (numbered g t') eqn:NB'.
    - assert (L' : is_link t' = true) by (unfold numbered in NB'; apply andb_prop in NB' as [NB' _]; exact NB').
      rewrite L' in X. destruct X as (lk' & ref & X & _). rewrite X. cbn [map app]. unfold r. rewrite EJ, X. reflexivity.
    - destruct (n_link m); reflexivity. }
  rewrite E in R.
  assert (LL : length L = count_numbered g (items h)).
  { rewrite <- (map_length r L), R, map_length, seq_length. reflexivity. }
  rewrite <- LL in R. pose proof (rank_seq r L 1 R i) as X. unfold r in X. rewrite T1, HL in X. rewrite X; [lia|].
  unfold L. apply filter_In. split; [apply in_seq; pose proof (node_at_lt _ _ _ T1); lia|]. unfold numbered_at, tag_at. now rewrite T1, T2.
Qed.

(** ** Distinct nodes *)
Lemma nodup_app : forall (a b : list nat), NoDup (a ++ b) -> NoDup a /\ NoDup b.
Proof.
  induction a as [|x a IH]; intros b H; [split; [constructor|exact H]|]. cbn [app] in H. inversion H; subst.
  apply IH in H3 as [H3 H4]. split; auto. constructor; auto. intros I. apply H2. apply in_or_app. auto.
Qed.
Lemma preorder_tid : forall t, exists r, preorder t = tid t :: r.
Proof. intros [i tg a kids|i x]; cbn; eauto. Qed.
Lemma kids_nodup : forall kids, NoDup (flat_map preorder kids) -> NoDup (map tid kids).
Proof.
  induction kids as [|t kids IH]; intros H; cbn [map]; [constructor|]. cbn [flat_map] in H.
  constructor; [|apply IH; apply nodup_app in H; apply H]. intros I. apply in_map_iff in I as (t' & E & I).
  destruct (preorder_tid t) as (r & Er). rewrite Er in H. cbn [app] in H. inversion H as [|? ? H1 _]; subst. apply H1. apply in_or_app. right.
  apply in_flat_map. exists t'. split; auto. destruct (preorder_tid t') as (r' & ->). left. auto.
Qed.
Lemma kid_nodup : forall kids t, NoDup (flat_map preorder kids) -> In t kids -> NoDup (preorder t).
Proof.
  induction kids as [|x kids IH]; intros t H I; [contradiction|]. cbn [flat_map] in H. destruct I as [->|I].
  - apply nodup_app in H. apply H.
  - apply IH; auto. apply nodup_app in H. apply H.
Qed.

Section C.
Variables (o : options) (g : cfg) (h : list op) (s : pstate) (sg : asgs).
Hypothesis CL : closing o g h s sg.
Variable number : nat -> Z.
Hypothesis NUM : forall i n t lk, is_tagged (p_dom s) i n t -> numbered g t = true -> n_link n = Some lk -> lc_reference (lk_ctx lk) = number i.
Local Notation d := (p_dom s).
Local Notation draw listing i bx := (render_node (render_fuel (p_dom s)) (p_dom s) sg listing i bx).
Local Notation texts_of := (inner_texts s sg).
Local Notation content_of := (inner_content s sg).

Lemma stored_put : forall q t where_, stores d q t -> placed g where_ (tag_at d (tid t)) = put g where_ t.
Proof.
  intros q [i tg a ks|i x] w H.
  - apply stores_Tag in H as [(n & H1 & H2 & _) _]. unfold tag_at. cbn [tid]. rewrite H1, H2. reflexivity.
  - cbn [stores] in H. destruct H as (n & H1 & H2 & _). unfold tag_at. cbn [tid]. rewrite H1, H2. reflexivity.
Qed.

(** Node of [t] stands at [p]. *)
Definition good (t : tree) (p : pos) : Prop :=
  NoDup (preorder t) /\ (exists q, stores d q t)
  /\ match t with Tag i _ _ _ => forall n, node_at d i = Some n -> stands d i n p | Text _ _ => True end.
Lemma positions_length : forall up kids, length (positions up kids) = length kids.
Proof. intros. unfold positions. now rewrite map_length, seq_length. Qed.
Lemma good_list : forall q up kids, ancestry d q up -> Forall (stores d q) kids -> children_of d q = map tid kids ->
  NoDup (flat_map preorder kids) -> forall k t p, nth_error kids k = Some t -> nth_error (positions up kids) k = Some p -> good t p.
Proof.
  intros q up kids HA HF HC ND k t p HK HP. rewrite (position_nth up kids k t HK) in HP. injection HP as <-.
  assert (I : In t kids) by (eapply nth_error_In; eauto).
  split; [eapply kid_nodup; eauto|]. split; [exists q; eapply Forall_forall in HF; eauto|].
  destruct t as [i tg a ks|]; auto. intros n HN. eapply kids_stand; eauto using kids_nodup.
Qed.
Lemma good_kids : forall i tg a kids p, good (Tag i tg a kids) p ->
  forall k t p', nth_error kids k = Some t -> nth_error (positions (tg :: ps_up p) kids) k = Some p' -> good t p'.
Proof.
  intros i tg a kids p (ND & (q & ST) & HS) k t p' HK HP. apply stores_Tag in ST as [(n & H1 & H2 & H3 & H4 & H5 & _) HF].
  eapply (good_list (PNode i)); eauto.
  - econstructor; eauto. exact (st_up _ _ _ _ (HS n H1)).
  - unfold children_of. now rewrite H1.
  - cbn [preorder] in ND. now inversion ND.
Qed.

Definition listable (t : tree) : bool :=
  match t with Tag _ tg _ _ => is_link tg && negb (seqb (placement g tg) (lit "inline")) | Text _ _ => false end.
Lemma put_listable : forall where_ t, lit where_ <> lit "inline" -> put g where_ t = true -> listable t = true.
Proof.
  intros w [i tg a ks|] NE H; [|discriminate]. cbn [put listable] in *. apply andb_prop in H as [H1 H2].
  change (is_link tg) with (is_a tg || is_img tg)%bool. rewrite H1. destruct (seqb_spec (placement g tg) (lit w)) as [->|]; [|discriminate].
  now rewrite (seqb_false _ _ NE).
Qed.
Definition shown (t : tree) (p : pos) : Prop :=
  (forall bx, draw false (tid t) bx = show g number false t p (place_of bx))
  /\ (listable t = true -> forall bx, draw true (tid t) bx = show g number true t p (place_of bx)).

Lemma texts_eq : forall i n kids up bx, node_at d i = Some n -> n_children n = map tid kids ->
  (forall k t p, nth_error kids k = Some t -> nth_error (positions up kids) k = Some p -> shown t p) ->
  texts_of n bx = in_order (at_positions (map (show g number false) kids) (positions up kids) (place_of bx)).
Proof.
  intros i n kids up bx HN HC HK. unfold inner_texts. rewrite mapM_in_order, HC.
  rewrite (at_positions_map _ (show g number false) kids (positions up kids) (place_of bx)); [reflexivity|apply positions_length|].
  intros k t p H1 H2. apply (HK k t p H1 H2).
Qed.
Lemma content_eq : forall i n kids up bx, node_at d i = Some n -> n_children n = map tid kids -> Forall (stores d (PNode i)) kids ->
  (forall k t p, nth_error kids k = Some t -> nth_error (positions up kids) k = Some p -> shown t p) ->
  content_of n bx = let* x := in_order (at_positions (map (show g number false) kids) (positions up kids) (place_of bx)) in
    let* y := in_order (at_positions (map (fun k => if put g "after_block" k then show g number true k else fun _ _ => Ok []) kids) (positions up kids) (place_of bx)) in
    Ok (x ++ (if existsb (put g "after_block") kids then nl else []) ++ y).
Proof.
  intros i n kids up bx HN HC HF HK. unfold inner_content. rewrite (texts_eq i n kids up bx HN HC HK).
  destruct (in_order _) as [x|]; [|reflexivity]. cbn [bind].
  rewrite (lo_pending _ _ (reach_links _ _ _ (cl_fed _ _ _ _ _ CL)) _ _ HN), HC.
  set (keep := fun j => placed g "after_block" (tag_at d j)).
  assert (KP : forall t, In t kids -> keep (tid t) = put g "after_block" t).
  { intros t I. eapply Forall_forall in HF; [|exact I]. unfold keep. eapply stored_put; eauto. }
  assert (E : in_order (at_positions (map (fun k => if put g "after_block" k then show g number true k else fun _ _ => Ok []) kids) (positions up kids) (place_of bx))
    = bind (mapM (fun j => draw true j bx) (filter keep (map tid kids))) (fun x => Ok (concat x))).
  { rewrite mapM_in_order, <- in_order_filter. f_equal. symmetry. apply at_positions_map; [apply positions_length|].
    intros k t p H1 H2. rewrite KP by (eapply nth_error_In; eauto). destruct (put g "after_block" t) eqn:PT; [|reflexivity].
    apply (HK k t p H1 H2). apply (put_listable "after_block"); auto. vm_compute; discriminate. }
  rewrite E. assert (X : existsb (put g "after_block") kids = match filter keep (map tid kids) with [] => false | _ => true end).
  { clear -KP. induction kids as [|t kids IH]; [reflexivity|]. cbn [map filter existsb]. rewrite (KP t) by now left.
    destruct (put g "after_block" t); [reflexivity|]. cbn [orb]. apply IH. intros t' I. apply KP. now right. }
  rewrite X. unfold keep. destruct (filter _ (map tid kids)) as [|j l]; [reflexivity|].
  destruct (mapM (fun j => draw true j bx) (j :: l)) as [y|]; reflexivity.
Qed.

Theorem shown_tree : forall t p, good t p -> shown t p.
Proof.
  induction t as [i tg a kids IH|i x] using tree_ind2; intros p GD.
  - assert (HK : forall k t p', nth_error kids k = Some t -> nth_error (positions (tg :: ps_up p) kids) k = Some p' -> shown t p').
    { intros k t p' H1 H2. assert (I : In t kids) by (eapply nth_error_In; eauto). eapply Forall_forall in IH; [|exact I]. apply IH.
      eapply good_kids; eauto. }
    destruct GD as (ND & (q & ST) & HS). apply stores_Tag in ST as [(n & H1 & H2 & H3 & H4 & H5 & H6 & H7) HF]. specialize (HS n H1).
    assert (T : is_tagged d i n tg) by (split; auto).
    pose proof (fun bx => texts_eq i n kids (tg :: ps_up p) bx H1 H5 HK) as ET.
    pose proof (fun bx => content_eq i n kids (tg :: ps_up p) bx H1 H5 HF HK) as EC.
    split.
    + intros bx. cbn [tid show]. 
      eapply (element_eq o g h s sg CL number NUM i n tg a kids p bx
        (fun w => in_order (at_positions (map (show g number false) kids) (positions (tg :: ps_up p) kids) w))
        (fun w => let* x := in_order (at_positions (map (show g number false) kids) (positions (tg :: ps_up p) kids) w) in
           let* y := in_order (at_positions (map (fun k => if put g "after_block" k then show g number true k else fun _ _ => Ok []) kids) (positions (tg :: ps_up p) kids) w) in
           Ok (x ++ (if existsb (put g "after_block") kids then nl else []) ++ y))); eauto.
    + intros LB bx. cbn [tid show listable] in *. apply andb_prop in LB as [L1 L2].
      eapply (listing_eq o g h s sg CL number NUM i n tg a kids p bx
        (fun w => in_order (at_positions (map (show g number false) kids) (positions (tg :: ps_up p) kids) w))
        (fun w => let* x := in_order (at_positions (map (show g number false) kids) (positions (tg :: ps_up p) kids) w) in
           let* y := in_order (at_positions (map (fun k => if put g "after_block" k then show g number true k else fun _ _ => Ok []) kids) (positions (tg :: ps_up p) kids) w) in
           Ok (x ++ (if existsb (put g "after_block") kids then nl else []) ++ y))); eauto.
      intros E. rewrite E in L2. discriminate.
  - destruct GD as (_ & (q & ST) & _). cbn [stores] in ST. destruct ST as (n & H1 & H2 & H3 & _). split; [|discriminate].
    intros bx. cbn [tid show]. rewrite (rendered_step d _ _ _ _ (reach_downward _ _ _ (cl_fed _ _ _ _ _ CL))).
    unfold level_render. rewrite H1, H3. reflexivity.
Qed.

(** ** All elements *)
Fixpoint located_kids (l : list tree) (ps : list pos) : list (tree * pos) :=
  match l, ps with
  | k :: l, q :: ps => located k q ++ located_kids l ps
  | _, _ => []
  end.
Lemma located_Tag : forall i tg a kids p, located (Tag i tg a kids) p
  = (Tag i tg a kids, p) :: located_kids kids (positions (tg :: ps_up p) kids).
Proof. reflexivity. Qed.
Lemma located_flat : forall l ps, located_kids l ps = located_all l ps.
Proof.
  unfold located_all. induction l as [|k l IH]; intros [|q ps]; cbn [located_kids combine flat_map]; auto. now rewrite IH.
Qed.
Lemma located_ids : forall t p, map (fun x => tid (fst x)) (located t p) = preorder t.
Proof.
  induction t as [i tg a kids IH|i x] using tree_ind2; intros p; [|reflexivity]. rewrite located_Tag. cbn [map fst tid preorder]. f_equal.
  assert (L : length (positions (tg :: ps_up p) kids) = length kids) by apply positions_length.
  revert L. generalize (positions (tg :: ps_up p) kids) as ps. induction IH as [|k kids E _ IH2]; intros [|q ps] L; cbn in *; try discriminate; auto.
  rewrite map_app, E, IH2; auto.
Qed.
Lemma located_all_ids : forall F ps, length ps = length F -> map (fun x => tid (fst x)) (located_all F ps) = flat_map preorder F.
Proof.
  intros F ps. rewrite <- located_flat. revert ps. induction F as [|k F IH]; intros [|q ps] L; cbn in *; try discriminate; auto.
  rewrite map_app, located_ids, IH; auto.
Qed.
Lemma located_good : forall t p, good t p -> Forall (fun x => good (fst x) (snd x)) (located t p).
Proof.
  induction t as [i tg a kids IH|i x] using tree_ind2; intros p GD; [|constructor; [exact GD|constructor]].
  rewrite located_Tag. constructor; [exact GD|].
  assert (HK := good_kids _ _ _ _ _ GD). clear GD. revert HK. generalize (positions (tg :: ps_up p) kids) as ps.
  induction IH as [|k kids E _ IH2]; intros [|q ps] HK; cbn [located_kids]; try constructor. apply Forall_app. split.
  - apply E. apply (HK 0%nat); reflexivity.
  - apply IH2. intros j t p' H1 H2. apply (HK (S j)); auto.
Qed.
Lemma located_all_good : forall F ps, (forall k t p, nth_error F k = Some t -> nth_error ps k = Some p -> good t p) ->
  Forall (fun x => good (fst x) (snd x)) (located_all F ps).
Proof.
  intros F ps H. rewrite <- located_flat. revert ps H. induction F as [|k F IH]; intros [|q ps] H; cbn [located_kids]; try constructor.
  apply Forall_app. split.
  - apply located_good. apply (H 0%nat); reflexivity.
  - apply IH. intros j t p' H1 H2. apply (H (S j)); auto.
Qed.

Section D.
Variable F : list tree.
Hypothesis DOC : document d F.
Hypothesis PRE : flat_map preorder F = seq 0 (length (d_nodes d)).
Lemma forest_good : forall k t p, nth_error F k = Some t -> nth_error (positions [] F) k = Some p -> good t p.
Proof.
  destruct DOC as [D1 D2]. apply (good_list PRoot [] F); auto; [constructor|]. rewrite PRE. apply seq_NoDup.
Qed.
Lemma body_eq : bind (mapM (fun i => draw false i (g_box g)) (d_root d)) (fun x => Ok (concat x)) = body g number F.
Proof.
  rewrite mapM_in_order. unfold body. rewrite (proj1 DOC).
  rewrite (at_positions_map _ (show g number false) F (positions [] F) (page_place g)); [reflexivity|apply positions_length|].
  intros k t p H1 H2. exact (proj1 (shown_tree t p (forest_good k t p H1 H2)) (g_box g)).
Qed.
Lemma footer_eq : (let* foot := if seqb (g_link g) (lit "footer") then
      match p_footer s with
      | [] => Ok []
      | l => let* links := mapM (fun i => draw true i (g_box g)) l in Ok (nl :: links)
      end else Ok [] in Ok (concat foot)) = footer g number F.
Proof.
  unfold footer. destruct (seqb (g_link g) (lit "footer")); [|reflexivity].
  rewrite (lo_footer _ _ (reach_links _ _ _ (cl_fed _ _ _ _ _ CL))), <- PRE.
  rewrite <- (located_all_ids F (positions [] F)) by apply positions_length.
  set (L := located_all F (positions [] F)).
  assert (G : Forall (fun x => good (fst x) (snd x)) L) by (apply located_all_good, forest_good). clearbody L.
  set (keep := fun j => placed g "footer" (tag_at d j)).
  assert (E : filter keep (map (fun x => tid (fst x)) L) = map (fun x => tid (fst x)) (filter (fun x => put g "footer" (fst x)) L)).
  { clear -G. induction G as [|[t p] L (_ & (q & ST) & _) _ IH]; [reflexivity|]. cbn [map filter fst snd] in *. unfold keep at 1.
    rewrite (stored_put _ _ _ ST), IH. destruct (put g "footer" t); reflexivity. }
  rewrite E. set (L' := filter (fun x => put g "footer" (fst x)) L).
  assert (G' : Forall (fun x => good (fst x) (snd x) /\ listable (fst x) = true) L').
  { unfold L'. apply Forall_forall. intros x I. apply filter_In in I as [I1 I2]. eapply Forall_forall in G; [|exact I1]. split; auto.
    apply (put_listable "footer"); auto. vm_compute; discriminate. }
  assert (E2 : bind (mapM (fun i => draw true i (g_box g)) (map (fun x => tid (fst x)) L')) (fun x => Ok (concat x))
     = in_order (map (fun x => show g number true (fst x) (snd x) (page_place g)) L')).
  { rewrite mapM_in_order, map_map. f_equal. apply map_ext_in. intros x I. eapply Forall_forall in G'; [|exact I]. destruct G' as [G1 G2].
    exact (proj2 (shown_tree _ _ G1) G2 (g_box g)). }
  rewrite <- E2. clear. destruct L' as [|x L']; [reflexivity|]. cbn [map].
  destruct (mapM _ _); reflexivity.
Qed.
End D.
End C.

Lemma close_page : forall o g h s F, o_renderers o = [] -> o_ext o = [] -> construct o = Ok g ->
  run g h pstate0 = Ok s -> ~ In OClose h -> document (p_dom s) F ->
  flat_map preorder F = seq 0 (length (d_nodes (p_dom s))) ->
  (let* s' := close g s in Ok (p_out s')) = page g F.
Proof.
  intros o g h s F O1 O2 CN RU NC DOC PRE. destruct (fresh_run _ _ _ RU NC) as [FC FA].
  destruct (stock_assign o g h s O1 O2 CN RU) as (sg & AS).
  assert (CL : closing o g h s sg) by (constructor; auto).
    pose proof (numbers_exact g h s F RU DOC PRE) as NUM.
    unfold page. cbv zeta. rewrite <- (body_eq o g h s sg CL _ NUM F DOC PRE), <- (footer_eq o g h s sg CL _ NUM F DOC PRE).
    unfold close. cbv zeta. rewrite AS. cbn [bind].
    destruct (mapM _ (d_root (p_dom s))) as [body|]; [|reflexivity]. cbn [bind].
    match goal with |- bind (bind ?x _) _ = bind (bind ?y _) _ => change y with x; destruct x as [foot|]; [|reflexivity] end. cbn [bind p_out].
    rewrite FC. cbn [app]. rewrite concat_app. unfold finished. destruct (g_optimise g); reflexivity.
Qed.
End M.
Close Scope Z_scope.
