(** Rendering of trees: unfolding, assigned renderers, instances. *)
From Verif Require Import BaseFacts StrFacts.
From Verif Require Export RuleFacts LinkTree RenderSpec.

Section R.
Context `{U : Uni}.

(** ** Fuel *)
Lemma mapM_ext : forall {A B} (f h : A -> res B) l, (forall a, In a l -> f a = h a) -> mapM f l = mapM h l.
Proof.
  induction l as [|a l IH]; intros H; auto. cbn [mapM]. rewrite (H a) by now left. rewrite IH; auto.
  intros; apply H; now right.
Qed.

(** One level of rendering, with the rendering of smaller nodes as a parameter. *)
Definition level_render (rec : bool -> nat -> box -> res str) (d : dom) (sg : asgs) (force : bool) (i : nat) (bx : box)
  : res str :=
      match node_at d i with
      | None => Err EIndex
      | Some n =>
          match n_data n with
          | Some t => Ok t
          | None =>
              let a := asg_get i sg in
              let placement (lk : link) :=
                match n_tag n with
                | Some t => if seqb t (lit "img") then lc_image_placement (lk_ctx lk)
                            else lc_link_placement (lk_ctx lk)
                | None => lc_link_placement (lk_ctx lk)
                end in
              let as_link :=
                match n_link n with
                | Some lk => force || seqb (placement lk) (lit "inline")
                | None => false
                end in
              match (if as_link then n_link n else None) with
              | Some lk =>
                  let* cl :=
                    if seqb (placement lk) (lit "inline")
                    then match a_rend a with Some c => Ok c | None => Err EType end
                    else match a_lsettings a with
                         | None => Err EAttr
                         | Some _ => match a_lrend a with Some c => Ok c | None => Err EType end
                         end in
                  let c := Ctx None (Some bx) (Some (lk_ctx lk))
                               (Some (LinkExtra (lk_href lk) (lk_title lk) (lk_gopher lk))) in
                  let* r := instantiate d cl i c in
                  let* bx' := if i_block r then the_box r else Ok bx in
                  let* parts := mapM (fun j => rec false j bx') (n_children n) in
                  render_inst d r (concat parts)
              | None =>
                  let c := Ctx (a_settings a) (Some bx)
                               (match n_link n with Some lk => Some (lk_ctx lk) | None => None end)
                               None in
                  let* cl := match a_rend a with Some c => Ok c | None => Err EType end in
                  let* r := instantiate d cl i c in
                  let* bx' := if i_block r then the_box r else Ok bx in
                  let* parts := mapM (fun j => rec false j bx') (n_children n) in
                  let* links := mapM (fun j => rec true j bx') (n_pending n) in
                  let sep := match n_pending n with [] => [] | _ => nl end in
                  render_inst d r (concat parts ++ sep ++ concat links)
              end
          end
      end.
Lemma render_node_S : forall f d sg force i bx,
  render_node (S f) d sg force i bx = level_render (render_node f d sg) d sg force i bx.
Proof. reflexivity. Qed.
Lemma level_ext : forall r1 r2 d sg force i bx,
  (forall n, node_at d i = Some n -> forall j, In j (n_children n) \/ In j (n_pending n) ->
     forall b bx', r1 b j bx' = r2 b j bx') ->
  level_render r1 d sg force i bx = level_render r2 d sg force i bx.
Proof.
  intros r1 r2 d sg force i bx H. unfold level_render. destruct (node_at d i) as [n|]; auto.
  specialize (H n eq_refl). destruct (n_data n); auto. cbv zeta.
  assert (E : forall b bx' l, (l = n_children n \/ l = n_pending n) ->
     mapM (fun j => r1 b j bx') l = mapM (fun j => r2 b j bx') l).
  { intros b bx' l HL. apply mapM_ext. intros j I. apply H. destruct HL as [->| ->]; auto. }
  match goal with |- match ?x with _ => _ end = _ => destruct x as [lk|] end.
  - match goal with |- bind ?x _ = _ => destruct x as [cl|]; auto end. cbn [bind].
    destruct (instantiate d cl i _) as [r|]; auto. cbn [bind].
    destruct (if i_block r then the_box r else Ok bx) as [bx'|]; auto. cbn [bind]. rewrite E by auto. reflexivity.
  - match goal with |- bind ?x _ = _ => destruct x as [cl|]; auto end. cbn [bind].
    destruct (instantiate d cl i _) as [r|]; auto. cbn [bind].
    destruct (if i_block r then the_box r else Ok bx) as [bx'|]; auto. cbn [bind]. rewrite !E by auto. reflexivity.
Qed.

(** Children and pending links come after their element. *)
Definition downward (d : dom) : Prop := forall i n j, node_at d i = Some n ->
  In j (n_children n) \/ In j (n_pending n) -> i < j /\ j < length (d_nodes d).
Lemma fuel_enough : forall d sg, downward d -> forall f f' force i bx,
  length (d_nodes d) - i < f -> length (d_nodes d) - i < f' ->
  render_node f d sg force i bx = render_node f' d sg force i bx.
Proof.
  intros d sg D. induction f as [|f IH]; intros f' force i bx H H'; [lia|].
  destruct f' as [|f']; [lia|]. rewrite !render_node_S. apply level_ext.
  intros n HN j HJ b bx'. destruct (D i n j HN HJ) as [D1 D2]. apply IH; lia.
Qed.
Lemma rendered_step : forall d sg force i bx, downward d ->
  render_node (render_fuel d) d sg force i bx = level_render (render_node (render_fuel d) d sg) d sg force i bx.
Proof.
  intros d sg force i bx D. unfold render_fuel at 1. rewrite render_node_S. apply level_ext.
  intros n HN j HJ b bx'. destruct (D i n j HN HJ) as [D1 D2]. apply fuel_enough; auto; unfold render_fuel; lia.
Qed.
Lemma reach_downward : forall g h s, run g h pstate0 = Ok s -> downward (p_dom s).
Proof.
  intros g h s H. pose proof (reach_wf _ _ _ H) as W. pose proof (reach_links _ _ _ H) as L.
  assert (C : forall i n j, node_at (p_dom s) i = Some n -> In j (n_children n) -> i < j /\ j < length (d_nodes (p_dom s))).
  { intros i n j HN I. destruct (wf_children _ W _ _ _ HN I) as (m & HM & HP). split; [|eapply node_at_lt; eauto].
    pose proof (wf_parent _ W _ _ HM) as K. rewrite HP in K. apply K. }
  intros i n j HN [I|I]; [eauto|]. rewrite (lo_pending _ _ L _ _ HN) in I. apply filter_In in I as [I _]. eauto.
Qed.

(** ** Text and ordinary elements *)
Lemma text_rendered : forall d sg i n x bx out, node_at d i = Some n -> n_data n = Some x ->
  rendered d sg i bx out -> out = x.
Proof.
  intros d sg i n x bx out HN HD H. unfold rendered, render_fuel in H. rewrite render_node_S in H.
  unfold level_render in H. rewrite HN, HD in H. now injection H.
Qed.
(** The instance of an element that is not rendered as a link. *)
Definition inst_of (d : dom) (sg : asgs) (i : nat) (n : node) (bx : box) (r : inst) : Prop :=
  exists cl, a_rend (asg_get i sg) = Some cl
  /\ instantiate d cl i (Ctx (a_settings (asg_get i sg)) (Some bx)
       (match n_link n with Some lk => Some (lk_ctx lk) | None => None end) None) = Ok r.
Lemma element_rendered : forall d sg i n t bx out, downward d ->
  is_tagged d i n t -> n_data n = None -> n_link n = None ->
  rendered d sg i bx out ->
  exists r bx' c, inst_of d sg i n bx r /\ (if i_block r then i_box r = Some bx' else bx' = bx)
    /\ content d sg n bx' c /\ render_inst d r c = Ok out.
Proof.
  intros d sg i n t bx out D [HN HT] HD HL H. unfold rendered in H. rewrite (rendered_step d sg false i bx D) in H.
  unfold level_render in H. rewrite HN, HD, HL in H. cbv zeta in H.
  apply bind_Ok in H as (cl & EC & H). apply bind_Ok in H as (r & ER & H). apply bind_Ok in H as (bx' & EB & H).
  apply bind_Ok in H as (parts & EP & H). apply bind_Ok in H as (links & EL & H).
  exists r, bx', (concat parts ++ (match n_pending n with [] => [] | _ => nl end) ++ concat links).
  split; [|split; [|split; auto]].
  - exists cl. rewrite HL. split; auto. destruct (a_rend (asg_get i sg)); [congruence|discriminate].
  - destruct (i_block r); [|congruence]. unfold the_box in EB. destruct (i_box r); congruence.
  - exists parts, links. apply mapM_Ok_Forall2 in EP, EL. auto.
Qed.

(** ** Assigned renderers *)
Lemma assign_all_get : forall g d sg ids sg' i, assign_all g d sg ids = Ok sg' -> In i ids ->
  exists a, assign_one g d sg i = Ok a /\ asg_get i sg' = a.
Proof.
  induction ids as [|j ids IH]; intros sg' i H I; [contradiction|]. cbn [assign_all] in H.
  inv_bind H. inv_bind H. injection H as <-. cbn [asg_get].
  destruct (Nat.eqb_spec i j) as [->|NE]; [eauto|]. destruct I as [->|I]; [congruence|]. eauto.
Qed.
Lemma stock_rules : forall o g, o_renderers o = [] -> o_ext o = [] -> construct o = Ok g ->
  g_rules g = default_rules /\ g_default g = RPlain (Some Renderer) /\ g_ext_rules g = rules_of default_ext_table.
Proof.
  intros o g HR HE H. unfold construct in H. rewrite HR, HE in H.
  destruct (_ && seqb (o_link o) _)%bool; [discriminate|]. destruct (_ && seqb (o_host o) _)%bool; [discriminate|].
  change (dupdate default_table []) with default_table in H. change (dupdate default_ext_table []) with default_ext_table in H.
  cbv zeta in H. change (dget [] default_table) with (Some ([] : list selector, RPlain (Some Renderer))) in H.
  cbv beta iota in H. injection H as <-. auto.
Qed.

Definition ext_class (t : str) : rcls :=
  if seqb t (lit "img") then ExtractedImageLinkRenderer else ExtractedLinkRenderer.
Lemma ext_get : forall d i n t, node_at d i = Some n -> n_tag n = Some t -> n_data n = None -> is_link t = true ->
  get_for_tag d (ONode i) (rules_of default_ext_table) = Ok (Some (ext_class t, [])).
Proof.
  intros d i n t HN HT HD HL. unfold get_for_tag. unfold default_ext_table. unfold rules_of, row. cbn [map fst snd all_matches ru_sel ru_spec].
  rewrite !(tag_matches_el d i n t HN HT HD). cbn [bind]. unfold ext_class, is_link in *.
  destruct (seqb_spec t (lit "a")) as [->|NA].
  - reflexivity.
  - destruct (seqb_spec t (lit "img")) as [->|NI]; [reflexivity|discriminate].
Qed.

Lemma assigned : forall o g h s sg i n t, closing o g h s sg -> is_tagged (p_dom s) i n t ->
  let a := asg_get i sg in
  n_data n = None
  /\ (match class_for t (in_ol (p_dom s) i) with
      | Some c => a_rend a = Some c
                  /\ exists st, a_settings a = Some st /\ extra_settings t st /\ NoDup (dkeys st)
      | None => a_rend a = Some Renderer end)
  /\ (is_link t = true -> a_lrend a = Some (ext_class t) /\ a_lsettings a = Some (Some [])).
Proof.
  intros o g h s sg i n t [[SR SE] CN CF CA] [HN HT] a.
  pose proof (reach_wf _ _ _ CF) as W.
  assert (HD : n_data n = None). { pose proof (wf_kind _ W _ _ HN) as K. rewrite HT in K. destruct (n_data n); [contradiction|auto]. }
  split; [exact HD|].
  destruct (stock_rules o g SR SE CN) as (GR & GD & GE).
  destruct (assign_all_get _ _ _ _ _ i CA) as (a' & EA & EG).
  { apply in_seq. pose proof (node_at_lt _ _ _ HN). lia. }
  fold a in EG. subst a'. unfold assign_one in EA. rewrite HN, HT in EA. unfold get_renderer in EA. rewrite GR in EA.
  destruct (default_get (p_dom s) i n t HN HT HD) as (st & X & ND & DG).
  { intros m j _ HM. pose proof (wf_kind _ W _ _ HM) as K. destruct (n_tag m), (n_data m); auto; contradiction. }
  rewrite DG in EA. cbn [bind] in EA. unfold get_ext_renderer in EA. rewrite GE in EA.
  destruct (is_link t) eqn:L.
  - rewrite (ext_get _ _ _ _ HN HT HD L) in EA. cbn [bind] in EA. injection EA as EA. rewrite <- EA. clear EA.
    destruct (class_for t _) as [c|]; cbn [assign_main assign_link a_rend a_settings a_lrend a_lsettings].
    + split; [split; [reflexivity|exists st; auto]|auto].
    + rewrite GD. cbn [assign_main assign_link a_rend a_settings a_lrend a_lsettings]. split; auto.
  - injection EA as EA. rewrite <- EA. clear EA. split; [|discriminate].
    destruct (class_for t _) as [c|]; cbn [assign_main a_rend a_settings].
    + split; [reflexivity|exists st; auto].
    + rewrite GD. reflexivity.
Qed.
End R.
