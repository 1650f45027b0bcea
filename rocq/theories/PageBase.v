(** Positions of nodes, their renderers, and the content of an element. *)
From Verif Require Import BaseFacts StrFacts SelFacts TreeFacts DomFacts LineFacts BoxFacts AnsiStyle RenderFacts ElemFacts ElemText LinkFacts DocFacts.
From Verif Require Export RuleExact.

Section B.
Context `{U : Uni}.

(** ** Positions *)
Lemma firstn_S_nth : forall {A} (l : list A) k x, nth_error l k = Some x -> firstn (S k) l = firstn k l ++ [x].
Proof. induction l as [|a l IH]; intros [|k] x H; cbn in *; try discriminate; [now injection H as ->|now rewrite <- (IH _ _ H)]. Qed.
Lemma split_nth : forall {A} (l : list A) k x, nth_error l k = Some x -> l = firstn k l ++ x :: skipn (S k) l.
Proof. induction l as [|a l IH]; intros [|k] x H; cbn in *; try discriminate; [now injection H as ->|f_equal; now apply IH]. Qed.
Lemma position_nth : forall up kids k t, nth_error kids k = Some t -> nth_error (positions up kids) k = Some (position up kids k).
Proof.
  intros up kids k t H. unfold positions. apply map_nth_error. assert (L : k < length kids) by (apply nth_error_Some; congruence).
  rewrite (nth_error_nth' _ 0) by now rewrite seq_length. now rewrite seq_nth.
Qed.
Lemma stored_element : forall d q t, stores d q t -> is_tag d (tid t) = element t.
Proof.
  intros d q [i tg a ks|i s] H.
  - apply stores_Tag in H as [(n & H1 & H2 & H3 & _) _]. unfold is_tag. cbn [tid]. rewrite H1, ?H2, ?H3. reflexivity.
  - cbn [stores] in H. destruct H as (n & H1 & H2 & H3 & _). unfold is_tag. cbn [tid]. rewrite H1, ?H2, ?H3. reflexivity.
Qed.
Lemma stored_tags : forall d q kids, Forall (stores d q) kids -> filter (is_tag d) (map tid kids) = map tid (filter element kids).
Proof.
  intros d q kids H. induction H as [|t kids H _ IH]; auto. cbn [map filter]. rewrite (stored_element _ _ _ H), IH.
  destruct (element t); reflexivity.
Qed.
Lemma filter_none : forall {A} (f : A -> bool) l, existsb f l = false -> filter f l = [].
Proof. induction l as [|x l IH]; intros H; auto. cbn in *. destruct (f x); [discriminate|auto]. Qed.
Lemma filter_some : forall {A} (f : A -> bool) l, existsb f l = true -> exists x r, filter f l = x :: r /\ In x l.
Proof.
  induction l as [|x l IH]; intros H; [discriminate|]. cbn in *. destruct (f x); [eauto|]. destruct IH as (y & r & E & I); auto.
  exists y, r. auto.
Qed.
Lemma nat_index_app : forall l1 i l2, ~ In i l1 -> nat_index i (l1 ++ i :: l2) = Some (length l1).
Proof.
  induction l1 as [|x l1 IH]; intros i l2 H; cbn; [now rewrite Nat.eqb_refl|]. destruct (Nat.eqb_spec i x) as [->|N]; [elim H; now left|].
  rewrite IH; [reflexivity|]. intros I. apply H. now right.
Qed.
Lemma kids_stand : forall d q up kids, ancestry d q up -> Forall (stores d q) kids -> children_of d q = map tid kids ->
  NoDup (map tid kids) -> forall k i tg a ks n, nth_error kids k = Some (Tag i tg a ks) -> node_at d i = Some n ->
  stands d i n (position up kids k).
Proof.
  intros d q up kids HA HF HC ND k i tg a ks n HK HN.
  assert (HP : n_parent n = q).
  { assert (S1 : stores d q (Tag i tg a ks)) by (rewrite Forall_forall in HF; apply HF; eapply nth_error_In; eauto).
    apply stores_Tag in S1 as [(m & M1 & _ & _ & M2 & _) _]. congruence. }
  pose proof (split_nth _ _ _ HK) as SP.
  assert (ND2 : NoDup (map tid (firstn k kids) ++ i :: map tid (skipn (S k) kids))).
  { rewrite SP, map_app in ND. exact ND. }
  apply NoDup_remove in ND2 as [ND2 NI].
  assert (TC : tag_children d q = map tid (filter element (firstn k kids)) ++ i :: map tid (filter element (skipn (S k) kids))).
  { unfold tag_children. rewrite HC, (stored_tags _ _ _ HF). rewrite SP at 1. rewrite filter_app, map_app. reflexivity. }
  assert (LK : length (firstn k kids) = k) by (apply firstn_length_le; apply Nat.lt_le_incl, nth_error_Some; congruence).
  constructor; cbn [position ps_up ps_first ps_last ps_index]; rewrite ?HP; auto.
  - rewrite TC. destruct (existsb element (firstn k kids)) eqn:E.
    + destruct (filter_some _ _ E) as (x & r & -> & I). cbn [map app negb]. apply Nat.eqb_neq. intros E2. apply NI. rewrite <- E2. apply in_or_app. left. now apply in_map.
    + rewrite (filter_none _ _ E). cbn [map app negb]. apply Nat.eqb_refl.
  - rewrite TC. rewrite rev_app_distr. cbn [rev]. destruct (existsb element (skipn (S k) kids)) eqn:E.
    + destruct (filter element (skipn (S k) kids)) as [|y r] eqn:EF; [destruct (filter_some _ _ E) as (x & r & X & _); congruence|].
      assert (NE : map tid (y :: r) <> []) by discriminate. destruct (exists_last NE) as (l' & z & EZ). rewrite EZ, rev_app_distr. cbn [rev app negb].
      apply Nat.eqb_neq. intros ->. apply NI. apply in_or_app. right.
      assert (I : In i (map tid (y :: r))) by (rewrite EZ; apply in_or_app; right; now left). rewrite <- EF in I.
      apply in_map_iff in I as (u & U1 & U2). apply filter_In in U2 as [U2 _]. apply in_map_iff. eauto.
    + rewrite (filter_none _ _ E). cbn [map rev app negb]. apply Nat.eqb_refl.
  - rewrite HC. rewrite SP at 1. rewrite map_app. cbn [map tid]. rewrite nat_index_app, map_length, LK; auto.
    intros I. apply NI. apply in_or_app. now left.
Qed.

(** ** Rendering in order *)
Lemma in_order_app : forall l1 l2, in_order (l1 ++ l2) = let* a := in_order l1 in let* b := in_order l2 in Ok (a ++ b).
Proof.
  induction l1 as [|x l1 IH]; intros l2; cbn [in_order app bind].
  - destruct (in_order l2); reflexivity.
  - destruct x as [a|]; [|reflexivity]. cbn [bind]. rewrite IH. destruct (in_order l1); [|reflexivity]. cbn [bind].
    destruct (in_order l2); [|reflexivity]. cbn [bind]. now rewrite app_assoc.
Qed.
Lemma mapM_in_order : forall {A} (f : A -> res str) l, bind (mapM f l) (fun x => Ok (concat x)) = in_order (map f l).
Proof.
  induction l as [|a l IH]; auto. cbn [mapM map in_order]. destruct (f a); [|reflexivity]. cbn [bind]. rewrite <- IH.
  destruct (mapM f l); reflexivity.
Qed.
Lemma at_positions_map : forall (f : nat -> res str) (sh : tree -> pos -> place -> res str) kids ps w,
  length ps = length kids ->
  (forall k t p, nth_error kids k = Some t -> nth_error ps k = Some p -> f (tid t) = sh t p w) ->
  map f (map tid kids) = at_positions (map sh kids) ps w.
Proof.
  intros f sh kids. induction kids as [|t kids IH]; intros [|p ps] w L H; cbn in *; try discriminate; auto. f_equal.
  - apply (H 0 t p); reflexivity.
  - apply IH; [lia|]. intros k. apply (H (S k)).
Qed.
(** What is not listed adds nothing. *)
Lemma in_order_filter : forall {A} (keep : A -> bool) (f : A -> res str) l,
  in_order (map (fun x => if keep x then f x else Ok []) l) = in_order (map f (filter keep l)).
Proof.
  induction l as [|x l IH]; auto. cbn [map filter in_order]. destruct (keep x); cbn [map in_order]; rewrite IH; auto.
  cbn [bind]. destruct (in_order (map f (filter keep l))); reflexivity.
Qed.

(** ** Assigned renderers *)
Inductive plain_sel : sel -> Prop :=
| ps_el : forall e, plain_sel (el e)
| ps_first1 : forall s, plain_sel s -> plain_sel (SPseudo s (lit "first-child"))
| ps_last1 : forall s, plain_sel s -> plain_sel (SPseudo s (lit "last-child"))
| ps_chi : forall a s, plain_sel s -> plain_sel (chi a s).
Lemma text_plain : forall d i n x s, node_at d i = Some n -> n_data n = Some x -> plain_sel s -> selector_matches d s (ONode i) = Ok false.
Proof.
  intros d i n x s HN HD H. assert (ID : is_data d (ONode i) = true) by (unfold is_data; now rewrite HN, HD).
  induction H as [e|s H IH|s H IH|a s H IH]; cbn [selector_matches].
  - unfold el. cbn [selector_matches]. unfold element_matches. rewrite ID, ?HN. reflexivity.
  - change (seqb (lit "first-child") (lit "first-child")) with true. cbn [orb]. destruct (parent_of d (ONode i)); [|reflexivity]. rewrite ID. reflexivity.
  - change (seqb (lit "last-child") (lit "first-child")) with false. change (seqb (lit "last-child") (lit "last-child")) with true. cbn [orb].
    destruct (parent_of d (ONode i)); [|reflexivity]. rewrite ID. reflexivity.
  - unfold chi. cbn [selector_matches]. change (seqb (lit ">") (lit " ")) with false. change (seqb (lit ">") (lit ">")) with true. cbv iota.
    destruct (parent_of d (ONode i)); [|reflexivity]. rewrite IH. reflexivity.
Qed.
Lemma text_get : forall d i n x (rs : list (rule rcls)), node_at d i = Some n -> n_data n = Some x ->
  Forall (fun r => Forall (fun s => plain_sel (sl_tree s) /\ sl_pseudo_element s = false) (ru_sel r)) rs ->
  get_for_tag d (ONode i) rs = Ok None.
Proof.
  intros d i n x rs HN HD H. assert (AM : all_matches d (ONode i) rs = Ok []).
  { induction H as [|r rs H1 _ IH]; auto. cbn [all_matches].
    assert (TM : tag_matches d (ONode i) (ru_sel r) = Ok (false, None)).
    { unfold tag_matches. induction H1 as [|s l [P1 P2] _ IH1]; auto. cbn [tag_matches_from]. rewrite (text_plain d i n x _ HN HD P1). cbn [bind]. exact IH1. }
    rewrite TM. cbn [bind]. rewrite IH. reflexivity. }
  unfold get_for_tag. rewrite AM. reflexivity.
Qed.
Lemma default_plain : Forall (fun r => Forall (fun s => plain_sel (sl_tree s) /\ sl_pseudo_element s = false) (ru_sel r)) default_rules.
Proof.
  change default_rules with (rules_of (tl default_table)). unfold rules_of, default_table, row. cbn [tl map fst snd].
  repeat (constructor; [cbn [ru_sel]; repeat (constructor; [cbn [sl_tree sl_pseudo_element sl]; split; [|reflexivity]; repeat constructor|]); constructor|]).
  constructor.
Qed.
Lemma stock_assign : forall o g h s, o_renderers o = [] -> o_ext o = [] -> construct o = Ok g -> run g h pstate0 = Ok s ->
  exists sg, assign_all g (p_dom s) (p_asg s) (seq 0 (length (d_nodes (p_dom s)))) = Ok sg.
Proof.
  intros o g h s SR SE CN CF. destruct (stock_rules o g SR SE CN) as (GR & GD & GE). pose proof (reach_wf _ _ _ CF) as W.
  assert (H : forall i, In i (seq 0 (length (d_nodes (p_dom s)))) -> exists a, assign_one g (p_dom s) (p_asg s) i = Ok a).
  { intros i I. apply in_seq in I. destruct (node_at (p_dom s) i) as [n|] eqn:HN; [|unfold node_at in HN; apply nth_error_None in HN; lia].
    unfold assign_one, get_renderer. rewrite GR, HN. pose proof (wf_kind _ W _ _ HN) as K. destruct (n_tag n) as [t|] eqn:HT.
    - destruct (n_data n) eqn:HD; [contradiction|].
      destruct (default_get (p_dom s) i n t HN HT HD) as (st & _ & _ & DG).
      { intros m j _ HM. pose proof (wf_kind _ W _ _ HM) as K'. destruct (n_tag m), (n_data m); auto; contradiction. }
      rewrite DG. cbn [bind]. destruct (is_link t) eqn:L; [|eauto]. unfold get_ext_renderer. rewrite GE, (ext_get _ _ _ _ HN HT HD L). cbn [bind]. eauto.
    - destruct (n_data n) as [x|] eqn:HD; [|contradiction]. rewrite (text_get _ _ _ _ _ HN HD default_plain). cbn [bind]. eauto. }
  revert H. generalize (seq 0 (length (d_nodes (p_dom s)))) as l. induction l as [|i l IH]; intros H; [exists []; reflexivity|].
  cbn [assign_all]. destruct (H i (or_introl eq_refl)) as (a & ->). cbn [bind]. destruct IH as (sg & ->); [intros j J; apply H; now right|]. cbn [bind]. eauto.
Qed.

Section C.
Variables (o : options) (g : cfg) (h : list op) (s : pstate) (sg : asgs).
Hypothesis CL : closing o g h s sg.
Let d := p_dom s.
Let draw (listing : bool) (i : nat) (bx : box) : res str := render_node (render_fuel d) d sg listing i bx.

Lemma assigned_exact : forall i n t p, is_tagged d i n t -> stands d i n p ->
  match class_for t (inside "ol" p) with
  | Some c => a_rend (asg_get i sg) = Some c /\ a_settings (asg_get i sg) = Some (rule_settings t p)
  | None => a_rend (asg_get i sg) = Some Renderer
  end.
Proof.
  intros i n t p T HS. destruct (assigned _ _ _ _ _ _ _ _ CL T) as (HD & _ & _). destruct CL as [[SR SE] CN CF CA]. destruct T as [HN HT].
  destruct (stock_rules o g SR SE CN) as (GR & GD & GE).
  destruct (assign_all_get _ _ _ _ _ i CA) as (a & EA & EG).
  { apply in_seq. pose proof (node_at_lt _ _ _ HN). fold d. lia. }
  unfold assign_one in EA. fold d in EA. rewrite HN, HT in EA. unfold get_renderer in EA. rewrite GR in EA.
  rewrite (default_get_exact d i n t p HN HT HD HS) in EA. cbn [bind] in EA. rewrite EG. clear EG. unfold get_ext_renderer in EA. rewrite GE in EA.
  destruct (is_link t) eqn:L.
  - rewrite (ext_get _ _ _ _ HN HT HD L) in EA. cbn [bind] in EA. apply ok_inj in EA. subst a.
    destruct (class_for t _) as [c|]; [split; reflexivity|]. rewrite GD. reflexivity.
  - apply ok_inj in EA. subst a. destruct (class_for t _) as [c|]; [split; reflexivity|]. rewrite GD. reflexivity.
Qed.

(** The text inside an element, without and with the links listed after it. *)
Definition inner_texts (n : node) (bx : box) : res str :=
  let* parts := mapM (fun j => draw false j bx) (n_children n) in Ok (concat parts).
Definition inner_content (n : node) (bx : box) : res str :=
  let* x := inner_texts n bx in
  let* links := mapM (fun j => draw true j bx) (n_pending n) in
  Ok (x ++ (match n_pending n with [] => [] | _ => nl end) ++ concat links).

Lemma draw_elem : forall i n t p bx cl r bx', is_tagged d i n t -> stands d i n p -> is_link t = false ->
  class_for t (inside "ol" p) = Some cl -> instantiate d cl i (plain_ctx (rule_settings t p) bx) = Ok r ->
  (if i_block r then i_box r = Some bx' else bx' = bx) ->
  draw false i bx = let* c := inner_content n bx' in render_inst d r c.
Proof.
  intros i n t p bx cl r bx' T HS L K I B. pose proof (assigned_exact _ _ _ _ T HS) as A. rewrite K in A. destruct A as [A1 A2].
  destruct (assigned _ _ _ _ _ _ _ _ CL T) as (HD & _ & _). destruct T as [HN HT].
  assert (NL : n_link n = None).
  { pose proof (lo_info _ _ (reach_links _ _ _ (cl_fed _ _ _ _ _ CL)) i n HN) as X. unfold link_info in X. rewrite HT, L in X. exact X. }
  unfold draw. rewrite (rendered_step d _ _ _ _ (reach_downward _ _ _ (cl_fed _ _ _ _ _ CL))).
  unfold level_render. rewrite HN, HD, NL, A1, A2. cbv zeta. cbn [bind]. fold (plain_ctx (rule_settings t p) bx). rewrite I. cbn [bind].
  assert (EB : (if i_block r then the_box r else Ok bx) = Ok bx').
  { destruct (i_block r); [|congruence]. unfold the_box. now rewrite B. }
  rewrite EB. cbn [bind]. unfold inner_content, inner_texts, draw.
  destruct (mapM (fun j => render_node (render_fuel d) d sg false j bx') (n_children n)) as [parts|]; [|reflexivity]. cbn [bind].
  destruct (mapM (fun j => render_node (render_fuel d) d sg true j bx') (n_pending n)) as [links|]; [|reflexivity]. reflexivity.
Qed.
Lemma draw_other : forall i n t p bx, is_tagged d i n t -> stands d i n p -> is_link t = false ->
  class_for t (inside "ol" p) = None -> draw false i bx = inner_content n bx.
Proof.
  intros i n t p bx T HS L K. pose proof (assigned_exact _ _ _ _ T HS) as A. rewrite K in A.
  destruct (assigned _ _ _ _ _ _ _ _ CL T) as (HD & _ & _). destruct T as [HN HT].
  assert (NL : n_link n = None).
  { pose proof (lo_info _ _ (reach_links _ _ _ (cl_fed _ _ _ _ _ CL)) i n HN) as X. unfold link_info in X. rewrite HT, L in X. exact X. }
  unfold draw. rewrite (rendered_step d _ _ _ _ (reach_downward _ _ _ (cl_fed _ _ _ _ _ CL))).
  unfold level_render. rewrite HN, HD, NL, A. cbv zeta. cbn [bind].
  match goal with |- bind (instantiate d Renderer i ?c) _ = _ => change (instantiate d Renderer i c) with (Ok (Inst KRenderer (adjust [] c) c i None false)) end.
  cbn [bind i_block]. unfold inner_content, inner_texts, draw.
  destruct (mapM (fun j => render_node (render_fuel d) d sg false j bx) (n_children n)) as [parts|]; [|reflexivity]. cbn [bind].
  destruct (mapM (fun j => render_node (render_fuel d) d sg true j bx) (n_pending n)) as [links|]; [|reflexivity]. reflexivity.
Qed.
End C.
End B.
