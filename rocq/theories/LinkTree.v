(** What links know in every reachable state, and which of them are pending
    after a block or for the footer. *)
From Verif Require Import BaseFacts StrFacts.
From Verif Require Export DomFacts.

Section L.
Context `{U : Uni}.

(** The tag of node [j]. *)
Definition tag_at (d : dom) (j : nat) : option str :=
  match node_at d j with Some m => n_tag m | None => None end.
Definition placed (g : cfg) (where_ : string) (t : option str) : bool :=
  match t with Some t => is_link t && seqb (placement g t) (lit where_) | None => false end.

(** What a link stores. *)
Definition link_info (g : cfg) (n : node) : Prop :=
  match n_tag n with
  | Some t =>
      if is_link t then
        exists lk ref, n_link n = Some lk
          /\ lk_ctx lk = LinkCtx (g_format g) (g_link g) (g_image g) ref (g_host g) (g_port g)
          /\ parse_href (lk_href lk) (g_host g) (g_port g) = Ok (lk_gopher lk)
      else n_link n = None
  | None => n_link n = None
  end.
Record links_ok (g : cfg) (s : pstate) : Prop := {
  lo_info : forall i n, node_at (p_dom s) i = Some n -> link_info g n;
  lo_pending : forall i n, node_at (p_dom s) i = Some n ->
    n_pending n = filter (fun j => placed g "after_block" (tag_at (p_dom s) j)) (n_children n);
  lo_footer : p_footer s
    = filter (fun j => placed g "footer" (tag_at (p_dom s) j)) (seq 0 (length (d_nodes (p_dom s)))) }.

Lemma placement_eq : forall g t, placement_of g t = placement g t.
Proof. reflexivity. Qed.

Definition start_parent_ref (s : pstate) : pref := match get_top s with Some i => PNode i | None => PRoot end.
Definition grow (p : pref) (after : bool) (id i : nat) (n : node) : node :=
  match p with
  | PNode k => if Nat.eqb k i then add_child id (if after then add_pending id n else n) else n
  | _ => n
  end.
Lemma start_nodes : forall g t a s s', handle_starttag g t a s = Ok s' ->
  let p := start_parent_ref s in
  let id := length (d_nodes (p_dom s)) in
  let after := placed g "after_block" (Some t) in
  exists lk av cls nid,
    length (d_nodes (p_dom s')) = S id
    /\ node_at (p_dom s') id = Some (Node (Some t) p [] (is_void t) av cls nid None lk [])
    /\ (forall i n, node_at (p_dom s) i = Some n -> node_at (p_dom s') i = Some (grow p after id i n))
    /\ p_footer s' = p_footer s ++ (if placed g "footer" (Some t) then [id] else [])
    /\ (if is_link t then exists l, lk = Some l /\ make_link g (p_next s) t a = Ok l else lk = None)
    /\ (after = true -> exists k, p = PNode k).
Proof.
  intros g t a s s' H p id after. unfold handle_starttag in H. fold (start_parent_ref s) in H. fold p in H. fold id in H.
  inv_bind H. destruct x as [[av cls] nid]. inv_bind H. inv_bind H. destruct x0 as [[d footer] next].
  inversion H; subst; clear H. exists x, av, cls, nid. cbn [p_dom p_footer].
  assert (HL : if is_link t then exists l, x = Some l /\ make_link g (p_next s) t a = Ok l else x = None).
  { destruct (is_link t). - inv_bind E0. inversion E0; subst. eauto. - now inversion E0. }
  assert (HD : length (d_nodes d) = id
    /\ (forall i n, node_at (p_dom s) i = Some n ->
          node_at d i = Some (match p with PNode k => if Nat.eqb k i then (if after then add_pending id n else n) else n | _ => n end))
    /\ footer = p_footer s ++ (if placed g "footer" (Some t) then [id] else [])
    /\ (after = true -> exists k, p = PNode k)).
  { unfold after, placed in *. rewrite <- placement_eq in *. destruct (is_link t); cbn [andb] in *.
    - destruct (seqb (placement_of g t) (lit "footer")) eqn:F.
      + inversion E1; subst. apply seqb_eq in F. rewrite F. change (seqb (lit "footer") (lit "after_block")) with false.
        split; [reflexivity|]. split; [|split; [reflexivity|discriminate]]. intros i n HN. rewrite HN. destruct p; auto. destruct (Nat.eqb i0 i); auto.
      + destruct (seqb (placement_of g t) (lit "after_block")).
        * destruct p as [| |k] eqn:EP; inversion E1; subst. cbn [d_nodes]. rewrite upd_length, app_nil_r.
          split; [reflexivity|]. split; [|split; [reflexivity|eauto]]. intros i n HN. unfold node_at. cbn [d_nodes].
          destruct (Nat.eqb_spec k i) as [->|NE].
          -- rewrite upd_same. unfold node_at in HN. rewrite HN. reflexivity.
          -- rewrite upd_other by exact NE. exact HN.
        * inversion E1; subst. rewrite app_nil_r. split; [reflexivity|]. split; [|split; [reflexivity|discriminate]].
          intros i n HN. rewrite HN. destruct p; auto. destruct (Nat.eqb i0 i); auto.
    - inversion E1; subst. rewrite app_nil_r. split; [reflexivity|]. split; [|split; [reflexivity|discriminate]].
      intros i n HN. rewrite HN. destruct p; auto. destruct (Nat.eqb i0 i); auto. }
  destruct HD as (D1 & D2 & D3 & D4). clear E1.
  assert (DI : forall i n, node_at (p_dom s) i = Some n -> i < id) by (intros; eapply node_at_lt; eauto).
  unfold append_node. rewrite D1. unfold node_at in *. split; [|split; [|split; [|split; [auto|split; auto]]]].
  - destruct p; cbn [d_nodes]; rewrite app_length; cbn [length]; rewrite ?upd_length; lia.
  - destruct p; cbn [d_nodes]; rewrite nth_error_app2; rewrite ?upd_length; try lia; rewrite D1, Nat.sub_diag; reflexivity.
  - intros i n HN. pose proof (DI i n HN) as LT. pose proof (D2 i n HN) as HN'. unfold grow.
    destruct p as [| |k]; cbn [d_nodes]; rewrite nth_error_app1; rewrite ?upd_length; try lia; auto.
    destruct (Nat.eqb_spec k i) as [->|NE].
    + rewrite upd_same, HN'. reflexivity.
    + rewrite upd_other by exact NE. exact HN'.
Qed.
Lemma data_nodes : forall x s,
  let p := match get_top s with Some i => PNode i | None => PNone end in
  let id := length (d_nodes (p_dom s)) in
  let s' := handle_data x s in
    length (d_nodes (p_dom s')) = S id
    /\ node_at (p_dom s') id = Some (Node None p [] true [] [] None (Some (data_text (p_in_pre s) x)) None [])
    /\ (forall i n, node_at (p_dom s) i = Some n -> node_at (p_dom s') i = Some (grow p false id i n))
    /\ p_footer s' = p_footer s.
Proof.
  intros x s p id s'. unfold s', handle_data. cbn [p_dom p_footer]. fold p.
  unfold append_node. fold id. unfold node_at. split; [|split; [|split; auto]].
  - destruct p; cbn [d_nodes]; rewrite app_length; cbn [length]; rewrite ?upd_length; unfold id; lia.
  - destruct p; cbn [d_nodes]; rewrite nth_error_app2; rewrite ?upd_length; try (unfold id; lia); unfold id; rewrite Nat.sub_diag; reflexivity.
  - intros i n HN. assert (LT : i < length (d_nodes (p_dom s))) by (eapply node_at_lt; eauto).
    unfold grow. destruct p as [| |k]; cbn [d_nodes]; rewrite nth_error_app1; rewrite ?upd_length; try lia; auto.
    destruct (Nat.eqb_spec k i) as [->|NE].
    + rewrite upd_same, HN. reflexivity.
    + rewrite upd_other by exact NE. exact HN.
Qed.

Lemma grow_tag : forall p b id i n, n_tag (grow p b id i n) = n_tag n /\ n_link (grow p b id i n) = n_link n.
Proof. intros. unfold grow. destruct p as [| |k]; auto. destruct (Nat.eqb k i); auto. destruct b; auto. Qed.
Lemma filter_ext_In : forall {A} (f h : A -> bool) l, (forall x, In x l -> f x = h x) -> filter f l = filter h l.
Proof.
  induction l as [|x l IH]; intros H; auto. cbn [filter]. rewrite (H x) by now left. rewrite IH; auto. intros; apply H; now right.
Qed.

(** One more node. *)
Lemma links_grow : forall g s s' p b id n0, wf_dom (p_dom s) -> links_ok g s ->
  id = length (d_nodes (p_dom s)) -> length (d_nodes (p_dom s')) = S id ->
  node_at (p_dom s') id = Some n0 -> n_children n0 = [] -> n_pending n0 = [] -> link_info g n0 ->
  b = placed g "after_block" (n_tag n0) ->
  (forall i n, node_at (p_dom s) i = Some n -> node_at (p_dom s') i = Some (grow p b id i n)) ->
  p_footer s' = p_footer s ++ (if placed g "footer" (n_tag n0) then [id] else []) ->
  links_ok g s'.
Proof.
  intros g s s' p b id n0 W L EID LEN HN0 HC HP HI HB HG HF.
  assert (TA : forall j, j < id -> tag_at (p_dom s') j = tag_at (p_dom s) j).
  { intros j LT. unfold tag_at. destruct (node_at (p_dom s) j) as [m|] eqn:E.
    - rewrite (HG j m E). apply grow_tag.
    - exfalso. unfold node_at in E. apply nth_error_None in E. lia. }
  assert (TN : tag_at (p_dom s') id = n_tag n0) by (unfold tag_at; now rewrite HN0).
  assert (OLD : forall i n, node_at (p_dom s') i = Some n -> (i = id /\ n = n0) \/
     exists m, node_at (p_dom s) i = Some m /\ n = grow p b id i m /\ i < id).
  { intros i n E. assert (LT : i < S id) by (rewrite <- LEN; eapply node_at_lt; eauto).
    destruct (Nat.eq_dec i id) as [->|NE]; [left; split; congruence|]. right.
    destruct (node_at (p_dom s) i) as [m|] eqn:EM.
    - exists m. rewrite (HG i m EM) in E. split; auto. split; [congruence|lia].
    - exfalso. unfold node_at in EM. apply nth_error_None in EM. lia. }
  assert (CH : forall i m, node_at (p_dom s) i = Some m -> forall j, In j (n_children m) -> j < id).
  { intros i m EM j I. destruct (wf_children _ W _ _ _ EM I) as (n & E & _). subst id. eapply node_at_lt; eauto. }
  constructor.
  - intros i n E. destruct (OLD i n E) as [[-> ->]|(m & EM & -> & _)]; auto.
    pose proof (lo_info _ _ L i m EM) as K. unfold link_info in *. destruct (grow_tag p b id i m) as [-> ->]. exact K.
  - intros i n E. destruct (OLD i n E) as [[-> ->]|(m & EM & -> & _)]; [rewrite HC, HP; reflexivity|].
    pose proof (lo_pending _ _ L i m EM) as K.
    assert (F : filter (fun j => placed g "after_block" (tag_at (p_dom s') j)) (n_children m) = n_pending m).
    { rewrite K. apply filter_ext_In. intros j I. rewrite TA; auto. eapply CH; eauto. }
    unfold grow. destruct p as [| |k]; auto. destruct (Nat.eqb k i); auto.
    cbn [n_children n_pending add_child]. replace (n_children (if b then add_pending id m else m)) with (n_children m) by (destruct b; reflexivity).
    rewrite filter_app, F. cbn [filter]. rewrite TN, <- HB. destruct b; cbn [add_pending n_pending]; auto. now rewrite app_nil_r.
  - rewrite HF, LEN, seq_S, filter_app. cbn [filter plus]. rewrite TN. f_equal.
    rewrite (lo_footer _ _ L), <- EID. apply filter_ext_In. intros j I. apply in_seq in I. rewrite TA; auto. lia.
Qed.

Lemma step_links : forall g o s1 s, wf_dom (p_dom s1) -> links_ok g s1 -> step g o s1 = Ok s -> links_ok g s.
Proof.
  intros g o s1 s W IH H2.
    destruct o as [t a|t|x| |]; cbn [step] in H2.
    + destruct (start_nodes _ _ _ _ _ H2) as (lk & av & cls & nid & A1 & A2 & A3 & A4 & A5 & _).
      eapply (links_grow g s1 s _ _ _ _ W IH eq_refl A1 A2); auto.
      unfold link_info. cbn [n_tag n_link]. destruct (is_link t); auto. destruct A5 as (l & -> & ML).
      unfold make_link in ML. inv_bind ML. inversion ML; subst. cbn [lk_ctx lk_href lk_gopher]. eexists _, _. split; [reflexivity|]. split; [reflexivity|]. exact E.
    + inversion H2; subst; clear H2. unfold handle_endtag.
      destruct (is_void t); auto. destruct (get_top s1) as [k|]; [|destruct IH; constructor; auto].
      destruct (node_at (p_dom s1) k) as [m|]; [|destruct IH; constructor; auto].
      destruct (n_tag m); [|destruct IH; constructor; auto]. destruct (seqb s t); [|destruct IH; constructor; auto].
      assert (OLD : forall i n, nth_error (upd (d_nodes (p_dom s1)) k set_closed) i = Some n ->
        exists m, node_at (p_dom s1) i = Some m /\ (n = m \/ n = set_closed m)).
      { intros i n E. destruct (Nat.eq_dec k i) as [->|NE].
        - rewrite upd_same in E. unfold node_at. destruct (nth_error (d_nodes (p_dom s1)) i); inversion E; subst. eauto.
        - rewrite upd_other in E by exact NE. eauto. }
      assert (TA : forall j, tag_at (Dom (upd (d_nodes (p_dom s1)) k set_closed) (d_root (p_dom s1))) j = tag_at (p_dom s1) j).
      { intros j. unfold tag_at, node_at. cbn [d_nodes]. destruct (Nat.eq_dec k j) as [->|NE].
        - rewrite upd_same. destruct (nth_error (d_nodes (p_dom s1)) j); reflexivity.
        - now rewrite upd_other. }
      constructor; cbn [p_dom p_footer d_nodes].
      * intros i n E. unfold node_at in E. cbn [d_nodes] in E. destruct (OLD i n E) as (m' & EM & [->| ->]);
          apply (lo_info _ _ IH i m' EM).
      * intros i n E. unfold node_at in E. cbn [d_nodes] in E. destruct (OLD i n E) as (m' & EM & EQ).
        rewrite (filter_ext_In _ (fun j => placed g "after_block" (tag_at (p_dom s1) j))) by (intros; now rewrite TA).
        destruct EQ as [->| ->]; apply (lo_pending _ _ IH i m' EM).
      * rewrite upd_length. rewrite (lo_footer _ _ IH). apply filter_ext_In. intros. now rewrite TA.
    + inversion H2; subst; clear H2. destruct (data_nodes x s1) as (A1 & A2 & A3 & A4).
      eapply (links_grow g s1 _ _ false _ _ W IH eq_refl A1 A2); auto.
      * reflexivity.
      * rewrite A4. now rewrite app_nil_r.
    + unfold close in H2. inv_bind H2. inv_bind H2. inv_bind H2. inversion H2; subst. destruct IH; constructor; auto.
    + inversion H2; subst. constructor; auto; intros [|i] n Hi; discriminate.
Qed.
Lemma start_links : forall g, links_ok g pstate0.
Proof. intros g. constructor; auto; intros [|i] n Hi; discriminate. Qed.
Lemma reach_links : forall g h s, run g h pstate0 = Ok s -> links_ok g s.
Proof.
  intros g h. induction h as [|o h IH] using rev_ind; intros s H.
  - inversion H; subst. apply start_links.
  - destruct (run_snoc _ _ _ _ _ H) as (s1 & H1 & H2). eapply step_links; eauto using reach_wf.
Qed.
End L.
