(** The page under any rule tables: from places in the document to nodes. *)
From Verif Require Import WrapFacts WrapLoop WrapWidth.
From Verif Require Import BaseFacts StrFacts SelFacts CssFacts TreeFacts HistoryFacts DomFacts LineFacts BoxFacts AnsiStyle RenderFacts ElemFacts ElemText LinkFacts DocFacts SettingsFacts PageBase PageFacts PageMain.
From Verif Require Import GoodFacts.
From Verif Require Export StyleShow.

Section M.
Context `{U : Uni}.

(** ** Tables *)
Lemma In_dset : forall A k (v : A) d x, In x (dset k v d) -> In x d \/ x = (k, v).
Proof.
  intros A k v d x. induction d as [|[k' v'] d IH]; cbn [dset In]; [intros [<-|[]]; auto|].
  destruct (seqb_spec k k') as [->|]; cbn [In]; intros [<-|H]; auto. destruct (IH H); auto.
Qed.
Lemma In_dupdate : forall A (e d : dict A) x, In x (dupdate d e) -> In x d \/ In x e.
Proof.
  intros A e. induction e as [|[k v] e IH]; intros d x H; cbn [dupdate In] in *; auto.
  apply IH in H as [H|H]; auto. apply In_dset in H as [H| ->]; auto.
Qed.
Lemma In_ddel : forall A k (d : dict A) x, In x (ddel k d) -> In x d.
Proof. intros A k d x. induction d as [|[k' v'] d IH]; cbn [ddel In]; auto. destruct (seqb k k'); cbn [In]; intros H; tauto. Qed.
Lemma dget_In : forall A k (d : dict A) v, dget k d = Some v -> In (k, v) d.
Proof.
  intros A k d v. induction d as [|[k' v'] d IH]; cbn [dget]; [discriminate|]. destruct (seqb_spec k k') as [->|]; [intros H; injection H as ->; now left|].
  intros H. right. auto.
Qed.
Lemma default_ok : table_ok default_table.
Proof.
  intros k sels c s H. unfold default_table, row, margin_only in H. cbn [In] in H.
  repeat match type of H with _ \/ _ => destruct H as [H|H] | False => contradiction end; try discriminate;
  injection H as _ _ _ <-; unfold keyed; cbn; repeat constructor; intros [].
Qed.
Lemma default_ext_ok : table_ok default_ext_table.
Proof.
  intros k sels c s H. unfold default_ext_table, row in H. cbn [In] in H.
  repeat match type of H with _ \/ _ => destruct H as [H|H] | False => contradiction end; discriminate.
Qed.
Lemma rules_of_ok : forall t, table_ok t -> rules_ok (rules_of t).
Proof.
  intros t H ru c s I E. unfold rules_of in I. apply in_map_iff in I as ([k [sels r]] & <- & I). cbn [fst snd ru_spec] in E. subst r.
  exact (H _ _ _ _ I).
Qed.
(** ** Places and their nodes *)
Definition here_id (z : site) : nat := match z with x :: _ => tid (sp_here x) | [] => 0 end.
Lemma spots_ids : forall up kids before, map here_id (spots up before kids) = map tid kids.
Proof. intros up. induction kids as [|t kids IH]; intros before; cbn [spots map]; auto. now rewrite IH. Qed.
Lemma spots_in : forall up kids before z, In z (spots up before kids) -> exists b t c, z = Spot b t c :: up /\ In t kids.
Proof.
  intros up. induction kids as [|t kids IH]; intros before z I; cbn [spots In] in I; [contradiction|]. destruct I as [<-|I].
  - exists before, t, kids. split; auto. now left.
  - apply IH in I as (b & t' & c & -> & I). exists b, t', c. split; auto. now right.
Qed.
Lemma places_Tag : forall up before i tg a kids after,
  places up before (Tag i tg a kids) after
  = (Spot before (Tag i tg a kids) after :: up) :: all_places (Spot before (Tag i tg a kids) after :: up) [] kids.
Proof.
  intros up before i tg a kids after. cbn [places]. f_equal. set (z := Spot before (Tag i tg a kids) after :: up). clearbody z.
  match goal with |- ?f [] kids = _ => assert (G : forall ks l, f l ks = all_places z l ks); [|apply G] end.
  induction ks as [|k ks IH]; intros l; cbn [all_places]; [reflexivity|]. now rewrite <- IH.
Qed.
Lemma places_ids : forall t up before after, map here_id (places up before t after) = preorder t.
Proof.
  induction t as [i tg a kids IH|i x] using tree_ind2; intros up before after; [|reflexivity]. rewrite places_Tag. cbn [map here_id sp_here tid preorder]. f_equal.
  generalize (@nil tree) as b. generalize (Spot before (Tag i tg a kids) after :: up) as z. clear -IH. induction IH as [|k kids E _ IH2]; intros z b; cbn [all_places flat_map map]; auto.
  now rewrite map_app, E, IH2.
Qed.
Lemma all_places_ids : forall kids up before, map here_id (all_places up before kids) = flat_map preorder kids.
Proof. induction kids as [|k kids IH]; intros up before; cbn [all_places flat_map]; auto. now rewrite map_app, places_ids, IH. Qed.
Lemma filter_ids : forall (f : nat -> bool) (p : site -> bool) L, (forall z, In z L -> f (here_id z) = p z) ->
  filter f (map here_id L) = map here_id (filter p L).
Proof.
  intros f p L H. induction L as [|z L IH]; auto. cbn [map filter]. rewrite (H z) by now left. rewrite IH by (intros y J; apply H; now right).
  destruct (p z); reflexivity.
Qed.
Lemma places_at : forall d F t up before after, at_site d F (Spot before t after :: up) -> Forall (at_site d F) (places up before t after).
Proof.
  intros d F. induction t as [i tg a kids IH|i x] using tree_ind2; intros up before after H; [|constructor; [exact H|constructor]].
  rewrite places_Tag. constructor; [exact H|]. pose proof (inner_at d F _ H) as HI. unfold inner_spots in HI. cbn [sp_here kids_of] in HI.
  revert HI. generalize (@nil tree) as b. generalize (Spot before (Tag i tg a kids) after :: up) as z. clear -IH.
  induction IH as [|k kids E _ IH2]; intros z b HI; cbn [all_places spots] in *; [constructor|]. inversion HI; subst. apply Forall_app. split; auto.
Qed.
Lemma all_places_at : forall d F kids up before, Forall (at_site d F) (spots up before kids) -> Forall (at_site d F) (all_places up before kids).
Proof.
  intros d F. induction kids as [|k kids IH]; intros up before H; cbn [all_places spots] in *; [constructor|]. inversion H; subst.
  apply Forall_app. split; auto. now apply places_at.
Qed.

(** ** Tables that raise nowhere *)
(** Rules whose selectors raise at none of the places [P]. *)
Definition quiet_rules (P : site -> Prop) (rules : list (rule rcls)) : Prop :=
  forall ru s z e, In ru rules -> In s (ru_sel ru) -> P z -> ~ judged (sl_tree s) z (Fails e).
Definition in_document (F : list tree) (z : site) : Prop := In z (all_places [] [] F).
Definition links_of (F : list tree) (z : site) : Prop := in_document F z /\ at_link z = true.
Lemma untroubled_iff : forall g F, untroubled g F <-> quiet_rules (in_document F) (g_rules g) /\ quiet_rules (links_of F) (g_ext_rules g).
Proof.
  intros g F. split.
  - intros H. split; intros ru s z e R J P.
    + apply (H (sl_tree s) z e). apply in_flat_map. exists z. split; [exact P|]. apply in_map_iff. exists s. split; auto. apply in_or_app. left. apply in_flat_map. eauto.
    + destruct P as [P L]. apply (H (sl_tree s) z e). apply in_flat_map. exists z. split; [exact P|]. apply in_map_iff. exists s. split; auto. apply in_or_app. right. rewrite L. apply in_flat_map. eauto.
  - intros [H1 H2] s z e J. apply in_flat_map in J as (z' & Z & J). apply in_map_iff in J as (sl & E & J). injection E as <- ->.
    apply in_app_or in J as [J|J]; [apply in_flat_map in J as (ru & R & J); exact (H1 ru sl z e R J Z)|].
    destruct (at_link z) eqn:L; [|contradiction]. apply in_flat_map in J as (ru & R & J). exact (H2 ru sl z e R J (conj Z L)).
Qed.
Lemma no_empty_place : forall kids up before, ~ In [] (all_places up before kids).
Proof.
  assert (P : forall t up before after, ~ In [] (places up before t after)).
  { induction t as [i tg a kids IH|i x] using tree_ind2; intros up before after; [|intros [H|[]]; discriminate]. rewrite places_Tag. intros [H|H]; [discriminate|].
    revert H. generalize (@nil tree) as b. generalize (Spot before (Tag i tg a kids) after :: up) as z. induction IH as [|k kids E _ IH2]; intros z b H; cbn [all_places] in H; [contradiction|].
    apply in_app_or in H as [H|H]; [elim (E _ _ _ H)|eapply IH2; eauto]. }
  induction kids as [|k kids IH]; intros up before H; cbn [all_places] in H; [contradiction|]. apply in_app_or in H as [H|H]; [elim (P _ _ _ _ H)|elim (IH _ _ H)].
Qed.
Section Q.
Variables (d : dom) (F : list tree).
Hypothesis WF : wf_dom d.
Hypothesis DOC : document d F.
Hypothesis PRE : flat_map preorder F = seq 0 (length (d_nodes d)).
Lemma forest_at : Forall (at_site d F) (all_places [] [] F).
Proof.
  destruct DOC as [D1 D2]. apply all_places_at. apply spots_at; cbn [app home]; auto; [exact I|intros x J; exact J].
Qed.
Lemma node_place : forall i n, node_at d i = Some n -> exists z, In z (all_places [] [] F) /\ place_obj z = ONode i /\ at_site d F z.
Proof.
  intros i n N. pose proof (node_at_lt _ _ _ N) as L.
  assert (H : In i (map here_id (all_places [] [] F))) by (rewrite all_places_ids, PRE; apply in_seq; lia).
  apply in_map_iff in H as (z & E & H). exists z. split; auto. pose proof (proj1 (Forall_forall _ _) forest_at z H) as A.
  split; auto. destruct z as [|x z]; [exfalso|cbn [here_id place_obj] in *; now rewrite E].
  exact (no_empty_place F [] [] H).
Qed.
Lemma quiet_total : forall s z, In z (all_places [] [] F) -> (forall e, ~ judged s z (Fails e)) -> exists v, selector_matches d s (place_obj z) = Ok v.
Proof.
  intros s z Z H. pose proof (judge d F WF s z (proj1 (Forall_forall _ _) forest_at z Z)) as T.
  destruct (selector_matches d s (place_obj z)) as [v|e]; [eauto|]. elim (H e). now apply T.
Qed.
Lemma quiet_covered : forall rules, quiet_rules (in_document F) rules -> forall i n, node_at d i = Some n -> rules_covered d i rules.
Proof.
  intros rules H i n N ru I s J. destruct (node_place i n N) as (z & Z1 & Z2 & Z3). rewrite <- Z2. apply quiet_total; auto. intros e. eapply H; eauto.
Qed.
Lemma quiet_links : forall rules, quiet_rules (links_of F) rules -> forall i n t, node_at d i = Some n -> n_tag n = Some t -> is_link t = true -> rules_covered d i rules.
Proof.
  intros rules H i n t N T L ru I s J. destruct (node_place i n N) as (z & Z1 & Z2 & Z3). rewrite <- Z2. apply quiet_total; auto. intros e. eapply H; eauto.
  split; auto. destruct z as [|[b0 x c0] up]; [discriminate|]. injection Z2 as Z2. pose proof (site_stores _ _ _ _ Z3) as S. cbn [sp_here] in *. destruct x as [j tg a kids|j y]; cbn [tid] in Z2; subst j.
  - apply stores_Tag in S as [(n' & N1 & N2 & _) _]. assert (tg = t) by congruence. subst tg. exact L.
  - destruct S as (n' & N1 & N2 & _). congruence.
Qed.
End Q.
(** Rules made of names and classes raise nowhere. *)
Fixpoint simple_sel (s : sel) : bool :=
  match s with
  | SElement _ | SOther => true
  | SClass s1 _ | SHash s1 _ | SPseudo s1 _ => simple_sel s1
  | SNegation s1 s2 | SCombined s1 _ s2 => simple_sel s1 && simple_sel s2
  | _ => false
  end.
Lemma first_never : forall J l v, first_of J l v -> (forall z e, ~ J z (Fails e)) -> forall e, v <> Fails e.
Proof. intros J l v H N. induction H; intros e0 E; subst; try discriminate; [elim (N _ _ H)|eapply IHfirst_of; eauto]. Qed.
Lemma simple_quiet : forall s, simple_sel s = true -> forall z e, ~ judged s z (Fails e).
Proof.
  induction s as [nm|s IH cn|s IH x|s1 IH1 s2 IH2|s IH k op v|s IH p|s IH f args|s1 IH1 cb s2 IH2|]; cbn [simple_sel]; intros S z e H; try discriminate;
  (destruct z as [|[b [i tg a kids|i x0] c] up]; cbn [judged] in H; try discriminate).
  - destruct nm; [|discriminate]. unfold says in H. destruct H as [[_ H]|[_ H]]; discriminate.
  - destruct H as [[_ H]|[_ H]]; [elim (IH S _ _ H)|discriminate].
  - destruct H as [[_ H]|[_ H]]; [elim (IH S _ _ H)|discriminate].
  - apply andb_true_iff in S as [S1 S2]. destruct H as [[_ (w & H & E)]|[H _]]; [|elim (IH1 S1 _ _ H)]. destruct w; try discriminate. elim (IH2 S2 _ _ H).
  - destruct H as [[_ H]|[_ H]]; [elim (IH S _ _ H)|discriminate].
  - apply andb_true_iff in S as [S1 S2]. destruct H as [[_ H]|[_ H]]; [|discriminate]. destruct H as [[_ H]|[H _]]; [|elim (IH2 S2 _ _ H)].
    destruct H as [[_ H]|[[_ H]|[[_ H]|[_ [[_ H]|(l & j & m & _ & _ & _ & H)]]]]]; try discriminate.
    + exact (first_never _ _ _ H (IH1 S1) e eq_refl).
    + elim (IH1 S1 _ _ H).
    + exact (first_never _ _ _ H (IH1 S1) e eq_refl).
    + elim (IH1 S1 _ _ H).
Qed.
Definition simple_table (t : table) : bool := forallb (fun row => forallb (fun s => simple_sel (sl_tree s)) (fst (snd row))) t.
Lemma simple_table_quiet : forall F t, simple_table t = true -> quiet_table F t.
Proof.
  intros F t H k sels r s z e I J _. unfold simple_table in H. rewrite forallb_forall in H. specialize (H _ I). cbn [fst snd] in H. rewrite forallb_forall in H. apply simple_quiet. exact (H _ J).
Qed.

Record built (d : dom) (g : cfg) : Prop := {
  bu_rules : forall i n, node_at d i = Some n -> rules_covered d i (g_rules g);
  bu_ext : forall i n t, node_at d i = Some n -> n_tag n = Some t -> is_link t = true -> rules_covered d i (g_ext_rules g);
  bu_rules_ok : rules_ok (g_rules g);
  bu_ext_ok : rules_ok (g_ext_rules g);
  bu_default : match g_default g with RPair _ (Some s) => keyed s | _ => True end;
  bu_a : g_ext_a g <> None }.
Lemma quiet_rules_of : forall F t (P : site -> Prop), quiet_table F t -> (forall z, P z -> in_document F z) -> quiet_rules P (rules_of t).
Proof.
  intros F t P H HP ru s z e I J Z. unfold rules_of in I. apply in_map_iff in I as ([k [sels r]] & <- & I). cbn [fst snd ru_sel] in J.
  apply (H _ _ _ _ _ _ I J). exact (HP z Z).
Qed.
(** The rules of the caller's tables, with those that come with the renderer. *)
Lemma construct_quiet : forall F o g, construct o = Ok g -> quiet_table F (o_renderers o) -> quiet_table F (o_ext o) ->
  quiet_rules (in_document F) (g_rules g) /\ quiet_rules (links_of F) (g_ext_rules g).
Proof.
  intros F o g H C1 C2. unfold construct in H.
  destruct (_ && seqb (o_link o) _)%bool; [discriminate|]. destruct (_ && seqb (o_host o) _)%bool; [discriminate|].
  set (t := dupdate default_table (o_renderers o)) in *. set (e := dupdate default_ext_table (o_ext o)) in *.
  destruct (dget [] t) as [[sels dflt]|] eqn:D; [|discriminate]. injection H as <-. cbn [g_rules g_ext_rules].
  split.
  - apply quiet_rules_of with (F := F); [|auto]. intros k ss r s z x I J. apply In_ddel in I.
    apply In_dupdate in I as [I|I]; [exact (simple_table_quiet F default_table eq_refl _ _ _ _ _ _ I J)|exact (C1 _ _ _ _ _ _ I J)].
  - apply quiet_rules_of with (F := F); [|intros z [Z _]; exact Z]. intros k ss r s z x I J.
    apply In_dupdate in I as [I|I]; [exact (simple_table_quiet F default_ext_table eq_refl _ _ _ _ _ _ I J)|exact (C2 _ _ _ _ _ _ I J)].
Qed.
Lemma ext_a_some : forall o g, construct o = Ok g -> g_ext_a g <> None.
Proof.
  intros o g H. unfold construct in H.
  destruct (_ && seqb (o_link o) _)%bool; [discriminate|]. destruct (_ && seqb (o_host o) _)%bool; [discriminate|].
  destruct (dget [] _) as [[sels dflt]|]; [|discriminate]. injection H as <-. cbn [g_ext_a].
  assert (G : forall (l : table) dd, dget (lit "a") dd <> None -> dget (lit "a") (dupdate dd l) <> None).
  { induction l as [|[k v] l IH]; intros dd N; cbn [dupdate]; auto. apply IH. rewrite dget_dset. destruct (seqb (lit "a") k); [discriminate|auto]. }
  specialize (G (o_ext o) default_ext_table ltac:(vm_compute; discriminate)).
  destruct (dget (lit "a") (dupdate default_ext_table (o_ext o))) as [[]|]; [discriminate|congruence].
Qed.
Lemma construct_built : forall d F o g, wf_dom d -> document d F -> flat_map preorder F = seq 0 (length (d_nodes d)) ->
  construct o = Ok g -> quiet_rules (in_document F) (g_rules g) -> quiet_rules (links_of F) (g_ext_rules g) ->
  table_ok (o_renderers o) -> table_ok (o_ext o) -> built d g.
Proof.
  intros d F o g WF DOC PRE H C1 C2 T1 T2. pose proof (ext_a_some _ _ H) as A1. revert A1.
  pose proof (quiet_covered d F WF DOC PRE _ C1) as B1. pose proof (quiet_links d F WF DOC PRE _ C2) as B2. intros A1. revert A1 B1 B2. clear C1 C2. unfold construct in H.
  destruct (_ && seqb (o_link o) _)%bool; [discriminate|]. destruct (_ && seqb (o_host o) _)%bool; [discriminate|].
  set (t := dupdate default_table (o_renderers o)) in *. set (e := dupdate default_ext_table (o_ext o)) in *.
  destruct (dget [] t) as [[sels dflt]|] eqn:D; [|discriminate]. injection H as <-. intros A1 B1 B2.
  assert (KT : table_ok t).
  { intros k ss c s I. apply In_dupdate in I as [I|I]; [exact (default_ok _ _ _ _ I)|exact (T1 _ _ _ _ I)]. }
  assert (KE : table_ok e).
  { intros k ss c s I. apply In_dupdate in I as [I|I]; [exact (default_ext_ok _ _ _ _ I)|exact (T2 _ _ _ _ I)]. }
  constructor; [exact B1|exact B2|..]; cbn [g_rules g_ext_rules g_default g_ext_a].
  - apply rules_of_ok. intros k ss c s I. apply In_ddel in I. exact (KT _ _ _ _ I).
  - now apply rules_of_ok.
  - destruct dflt as [c|c [s|]]; try exact I. apply dget_In in D. exact (KT _ _ _ _ D).
  - exact A1.
Qed.

Section C.
Variables (g : cfg) (s : pstate) (F : list tree) (sg : asgs).
Hypothesis RU : good g s.
Hypothesis DOC : document (p_dom s) F.
Hypothesis PRE : flat_map preorder F = seq 0 (length (d_nodes (p_dom s))).
Hypothesis BU : built (p_dom s) g.
Local Notation d := (p_dom s).
Let WF : wf_dom d := go_wf _ _ RU.
Let CK : classes_ok d := go_classes _ _ RU.

Lemma roots_at : Forall (at_site d F) (spots [] [] F).
Proof.
  destruct DOC as [D1 D2]. apply spots_at; cbn [app home]; auto; [exact I|intros x J; exact J].
Qed.

(** ** Assignment *)
(** The first of some selectors to raise at a node. *)
Fixpoint first_err (i : nat) (l : list selector) : option exn :=
  match l with
  | [] => None
  | x :: r => match selector_matches d (sl_tree x) (ONode i) with Err e => Some e | Ok _ => first_err i r end
  end.
Definition fails_as {A} (o : option exn) (m : res A) : Prop := match o with Some e => m = Err e | None => exists a, m = Ok a end.
Lemma first_err_app : forall i l r, first_err i (l ++ r) = match first_err i l with Some e => Some e | None => first_err i r end.
Proof. intros i l r. induction l as [|x l IH]; cbn [app first_err]; auto. destruct (selector_matches _ _ _); auto. Qed.
Lemma tag_matches_fails : forall i l, fails_as (first_err i l) (tag_matches d (ONode i) l).
Proof.
  intros i l. unfold tag_matches. generalize (false, @None spec3). induction l as [|x l IH]; intros acc; cbn [first_err tag_matches_from fails_as]; [eauto|].
  destruct (selector_matches d (sl_tree x) (ONode i)) as [v|e]; [|reflexivity]. cbn [bind]. destruct v; auto.
  destruct acc as [b0 [sp|]]; cbn [snd].
  - destruct (more_specific_Some (specificity x) sp) as (b1 & -> & _). cbn [bind]. apply IH.
  - rewrite more_specific_None. cbn [bind]. apply IH.
Qed.
Lemma all_matches_fails : forall i (rules : list (rule rcls)), fails_as (first_err i (flat_map ru_sel rules)) (all_matches d (ONode i) rules).
Proof.
  intros i rules. induction rules as [|r rules IH]; cbn [flat_map all_matches]; [cbn; eauto|]. rewrite first_err_app.
  pose proof (tag_matches_fails i (ru_sel r)) as T. destruct (first_err i (ru_sel r)) as [e|]; cbn [fails_as] in T.
  - rewrite T. reflexivity.
  - destruct T as ([m o] & ->). cbn [bind]. destruct (first_err i (flat_map ru_sel rules)) as [e|]; cbn [fails_as] in *.
    + rewrite IH. reflexivity.
    + destruct IH as (ms & ->). cbn [bind]. destruct m; [destruct o|]; eauto.
Qed.
Lemma got_fails : forall i (rules : list (rule rcls)), fails_as (first_err i (flat_map ru_sel rules)) (get_for_tag d (ONode i) rules).
Proof.
  intros i rules. pose proof (all_matches_fails i rules) as T. unfold get_for_tag. destruct (first_err _ _); cbn [fails_as] in *; [now rewrite T|].
  destruct T as (ms & ->). cbn [bind]. destruct (combine_specs (None, []) (sort_spec ms)) as [c' st']. eauto.
Qed.
Lemma got_total : forall i n rules, node_at d i = Some n -> rules_covered d i rules -> exists r, get_for_tag d (ONode i) rules = Ok r.
Proof.
  intros i n rules N HC.
  assert (TM : forall group, group_covered d i group -> exists r, tag_matches d (ONode i) group = Ok r /\ (fst r = true -> snd r <> None)).
  { intros group G. destruct (tag_matches_total d (ONode i) group) as (r & E).
    - intros x J. exact (G x J).
    - exists r. split; auto. pose proof (tag_matches_inv _ _ _ _ E) as [_ I2]. destruct r as [v [sp|]]; cbn [fst snd] in *; [discriminate|]. congruence. }
  assert (AM : exists ms, all_matches d (ONode i) rules = Ok ms).
  { clear -HC TM. induction rules as [|r rules IH]; cbn [all_matches]; [eauto|]. destruct (TM (ru_sel r)) as ([m o] & -> & _); [apply HC; now left|].
    cbn [bind]. destruct IH as (ms & ->); [intros ru Hr; apply HC; now right|]. cbn [bind]. destruct m; [destruct o|]; eauto. }
  destruct AM as (ms & M). unfold get_for_tag. rewrite M. cbn [bind]. destruct (combine_specs (None, []) (sort_spec ms)) as [c' st']. destruct c'; eauto.
Qed.
Lemma assign_total : exists sg0, assign_all g d (p_asg s) (seq 0 (length (d_nodes d))) = Ok sg0.
Proof.
  assert (H : forall i, In i (seq 0 (length (d_nodes d))) -> exists a, assign_one g d (p_asg s) i = Ok a).
  { intros i J. apply in_seq in J. destruct (node_at d i) as [n|] eqn:HN; [|unfold node_at in HN; apply nth_error_None in HN; lia].
    unfold assign_one, get_renderer. rewrite HN. destruct (got_total i n (g_rules g) HN (bu_rules _ _ BU i n HN)) as (r & ->). cbn [bind].
    destruct (n_tag n) as [t|] eqn:TG; eauto. destruct (is_link t) eqn:LK; eauto. unfold get_ext_renderer.
    destruct (got_total i n (g_ext_rules g) HN (bu_ext _ _ BU i n t HN TG LK)) as (r' & ->). cbn [bind]. destruct r' as [[c st]|]; cbn [bind]; eauto.
    pose proof (bu_a _ _ BU) as K. destruct (g_ext_a g); [cbn [bind]; eauto|congruence]. }
  revert H. generalize (seq 0 (length (d_nodes d))) as l. induction l as [|i l IH]; intros H; [exists []; reflexivity|].
  cbn [assign_all]. destruct (H i (or_introl eq_refl)) as (a & ->). cbn [bind]. destruct IH as (sg0 & ->); [intros j J; apply H; now right|]. cbn [bind]. eauto.
Qed.

Hypothesis AS : assign_all g d (p_asg s) (seq 0 (length (d_nodes d))) = Ok sg.
Hypothesis FA : p_asg s = [].

Section E.
Variables (b c : list tree) (i : nat) (tg : str) (a : attributes) (kids : list tree) (up : site).
Local Notation z := (Spot b (Tag i tg a kids) c :: up).
Hypothesis AT : at_site d F z.
Lemma here_node : exists n, node_at d i = Some n /\ n_tag n = Some tg /\ n_data n = None /\ n_parent n = home up /\ n_children n = map tid kids
  /\ link_data n tg a /\ Forall (stores d (PNode i)) kids /\ carries n a.
Proof. pose proof (site_stores _ _ _ _ AT) as ST. cbn [sp_here] in ST. apply stores_Tag in ST as [(n & H1 & H2 & H3 & H4 & H5 & H6 & H7) HF]. exists n. auto 10. Qed.
Lemma here_assigned : assign_one g d [] i = Ok (asg_get i sg).
Proof.
  destruct here_node as (n & N & _). destruct (assign_all_get _ _ _ _ _ i AS) as (x & X1 & X2); [apply in_seq; pose proof (node_at_lt _ _ _ N); lia|].
  rewrite FA in X1. congruence.
Qed.
Lemma main_class : forall cl over, styled (g_rules g) (g_default g) z cl over ->
  a_rend (asg_get i sg) = Some cl /\ (forall l, a_settings (asg_get i sg) = Some l -> keyed l)
  /\ forall key, dget key over = overridden key (a_settings (asg_get i sg)) None.
Proof.
  intros cl over ST. pose proof here_assigned as HA. destruct here_node as (n & N & NT & _).
  destruct (got d F WF b (Tag i tg a kids) c up eq_refl AT (g_rules g) (bu_rules _ _ BU i n N) (bu_rules_ok _ _ BU)) as (r & R & Q).
  cbn [tid] in R. unfold assign_one, get_renderer in HA. rewrite R, N, NT in HA. cbn [bind asg_get] in HA.
  set (m := match r with Some (c0, s0) => RPair (Some c0) (Some s0) | None => g_default g end) in *.
  assert (E : a_rend (asg_get i sg) = a_rend (assign_main m asg0) /\ a_settings (asg_get i sg) = a_settings (assign_main m asg0)).
  { destruct (is_link tg); [|injection HA as <-; auto]. destruct (get_ext_renderer g d i) as [e|]; [|discriminate]. cbn [bind] in HA. injection HA as <-.
    destruct e; auto. }
  destruct E as [-> ->]. unfold m. destruct r as [[cl' st]|].
  - destruct Q as (Q1 & Q2 & Q3). cbn [assign_main a_rend a_settings]. destruct ST as [[S1 S2]|[S1 _]]; [|elim (wins_not_silent _ _ _ _ _ Q2 S1)].
    split; [f_equal; eapply wins_fun; eauto|]. split; [intros l E; now injection E as <-|]. intros key. cbn [overridden]. specialize (Q3 key). specialize (S2 key).
    destruct (dget key st) as [v|], (dget key over) as [v'|]; auto.
    + f_equal. eapply wins_fun; eauto.
    + elim (wins_not_silent _ _ _ _ _ Q3 S2).
    + elim (wins_not_silent _ _ _ _ _ S2 Q3).
  - destruct ST as [[S1 _]|[_ S2]]; [elim (wins_not_silent _ _ _ _ _ S1 Q)|]. pose proof (bu_default _ _ BU) as K.
    destruct (g_default g) as [c0|c0 s0]; cbn [assign_main a_rend a_settings]; destruct S2 as [-> ->].
    + split; auto. split; [discriminate|]. reflexivity.
    + split; auto. split; [intros l ->; exact K|]. intros key. destruct s0 as [s0|]; cbn [overridden]; auto. destruct (dget key s0); reflexivity.
Qed.
Lemma link_class : forall cl, is_link tg = true -> listed_by g z cl ->
  a_lrend (asg_get i sg) = Some cl /\ a_lsettings (asg_get i sg) <> None.
Proof.
  intros cl L ST. pose proof here_assigned as HA. destruct here_node as (n & N & NT & _).
  destruct (got d F WF b (Tag i tg a kids) c up eq_refl AT (g_ext_rules g) (bu_ext _ _ BU i n tg N NT L) (bu_ext_ok _ _ BU)) as (r & R & Q).
  cbn [tid] in R. unfold assign_one, get_ext_renderer in HA. rewrite R, N, NT, L in HA. destruct (get_renderer g d i) as [m|]; [|discriminate]. cbn [bind asg_get] in HA.
  destruct r as [[cl' st]|].
  - destruct Q as (_ & Q2 & _). cbn [bind] in HA. injection HA as <-. cbn [assign_link a_lrend a_lsettings]. split; [|discriminate].
    destruct ST as [S1|[S1 _]]; [|elim (wins_not_silent _ _ _ _ _ Q2 S1)]. f_equal. eapply wins_fun; eauto.
  - destruct ST as [S1|[_ (s0 & S2)]]; [elim (wins_not_silent _ _ _ _ _ S1 Q)|]. rewrite S2 in HA. cbn [bind] in HA. injection HA as <-.
    cbn [assign_link a_lrend a_lsettings]. split; [auto|discriminate].
Qed.
Lemma here_index : nat_index i (children_of d (home up)) = Some (length b).
Proof.
  pose proof AT as (H1 & H2 & _). unfold level in *. cbn [sp_before sp_here sp_after] in *. rewrite H2, map_app. cbn [map tid].
  rewrite nat_index_app, map_length; auto. intros J.
  assert (ND : NoDup (map tid (b ++ Tag i tg a kids :: c))) by (rewrite <- H2; apply (wf_nodup _ WF)).
  rewrite map_app in ND. cbn [map tid] in ND. apply NoDup_remove_2 in ND. apply ND. apply in_or_app. now left.
Qed.
Lemma here_pre : pre_parent d i = in_pre up.
Proof.
  destruct here_node as (n & N & _ & _ & P & _). unfold pre_parent, in_pre. rewrite N, P. destruct up as [|[b' t' c'] up']; [reflexivity|]. cbn [home sp_here].
  pose proof (up_element _ _ _ _ _ AT) as E. cbn [sp_here] in E. destruct t' as [i' tg' a' kids'|]; [|discriminate].
  pose proof (site_stores _ _ _ _ (at_up _ _ _ _ AT)) as ST. cbn [sp_here] in ST. apply stores_Tag in ST as [(m & M1 & M2 & _) _]. cbn [tid]. now rewrite M1, M2.
Qed.
End E.

(** ** Nodes *)
Local Notation draw listing j bx := (render_node (render_fuel d) d sg listing j bx).
Definition drawn (t : tree) : Prop := forall up b c, at_site d F (Spot b t c :: up) -> forall listing bx out,
  shows g F listing (Spot b t c :: up) bx out -> draw listing (tid t) bx = Ok out.
Lemma drawn_list : forall listing bx L outs, (forall z, In z L -> at_site d F z /\ exists b t c up, z = Spot b t c :: up /\ drawn t) ->
  Forall2 (fun y o => shows g F listing y bx o) L outs -> mapM (fun j => draw listing j bx) (map here_id L) = Ok outs.
Proof.
  intros listing bx L outs H Q. apply mapM_Forall2. induction Q as [|y o L outs Q _ IH]; cbn [map]; constructor.
  - destruct (H y (or_introl eq_refl)) as (A1 & b & t & c & up & -> & D). cbn [here_id sp_here]. exact (D up b c A1 listing bx o Q).
  - apply IH. intros y' J. apply H. now right.
Qed.
Lemma placed_listed : forall w z, at_site d F z -> z <> [] -> LinkTree.placed g w (tag_at d (here_id z)) = listed_at g w z.
Proof.
  intros w [|x up] H N; [congruence|]. cbn [here_id listed_at]. eapply stored_put. exact (site_stores _ _ _ _ H).
Qed.
Lemma bind_ok : forall (x : res box) y, (let* bx := x in Ok bx) = Ok y -> x = Ok y.
Proof. intros [v|] y H; [exact H|discriminate]. Qed.
Lemma drawn_all : forall t, drawn t.
Proof.
  induction t as [i tg a kids IH|i x] using tree_ind2; intros up b c AT listing bx out SH.
  2:{ inversion SH; subst. pose proof (site_stores _ _ _ _ AT) as ST. cbn [sp_here] in ST. destruct ST as (n & H1 & H2 & H3 & _). cbn [tid].
      rewrite (rendered_step d _ _ _ _ (go_down _ _ RU)). unfold level_render. now rewrite H1, H3. }
  destruct (here_node b c i tg a kids up AT) as (n & N1 & N2 & N3 & N4 & N5 & N6 & N7 & N8).
  pose proof (lo_info _ _ (go_links _ _ RU) i n N1) as LI. unfold link_info in LI. rewrite N2 in LI.
  pose proof (lo_pending _ _ (go_links _ _ RU) i n N1) as LP.
  assert (PN : n_parent n <> PNone) by (rewrite N4; destruct up; discriminate).
  assert (IX : nat_index i (children_of d (n_parent n)) = Some (length b)) by (rewrite N4; eapply here_index; eauto).
  assert (SK : para_skip d i = only_code kids).
  { eapply skip_code; [split; [exact N1|exact N2]|exact N5|exact N7]. }
  pose proof (here_pre b c i tg a kids up AT) as PP.
  assert (KD : forall f bx' L outs, L = filter f (inner_spots (Spot b (Tag i tg a kids) c :: up)) -> forall lst, Forall2 (fun y o => shows g F lst y bx' o) L outs ->
     mapM (fun j => draw lst j bx') (map here_id L) = Ok outs).
  { intros f bx' L outs -> lst Q. eapply drawn_list; [|exact Q]. intros z J. apply filter_In in J as [J _].
    pose proof (inner_at d F _ AT) as IA. eapply Forall_forall in IA; [|exact J]. split; auto.
    unfold inner_spots in J. cbn [sp_here kids_of] in J. apply spots_in in J as (b' & t' & c' & -> & J). exists b', t', c', (Spot b (Tag i tg a kids) c :: up). split; auto.
    eapply Forall_forall in IH; eauto. }
  assert (KK : forall bx' outs, Forall2 (fun y o => shows g F false y bx' o) (inner_spots (Spot b (Tag i tg a kids) c :: up)) outs ->
     mapM (fun j => draw false j bx') (n_children n) = Ok outs).
  { intros bx' outs Q. rewrite N5. rewrite <- (spots_ids (Spot b (Tag i tg a kids) c :: up) kids []).
    apply (KD (fun _ => true)); auto. clear. unfold inner_spots. cbn [sp_here kids_of]. induction (spots _ _ _) as [|z L IH]; auto. cbn [filter]. now f_equal. }
  assert (KL : n_pending n = map here_id (filter (listed_at g "after_block") (inner_spots (Spot b (Tag i tg a kids) c :: up)))).
  { rewrite LP, N5. rewrite <- (spots_ids (Spot b (Tag i tg a kids) c :: up) kids []). apply filter_ids. intros z J. apply placed_listed.
    - pose proof (inner_at d F _ AT) as IA. eapply Forall_forall in IA; [exact IA|exact J].
    - apply spots_in in J as (b' & t' & c' & -> & _). discriminate. }
  change (is_link tg) with (is_link_tag tg) in LI.
  rewrite (rendered_step d _ _ _ _ (go_down _ _ RU)). cbn [tid]. unfold level_render. rewrite N1, N3, N2. cbv zeta.
  assert (TGT : forall lk, parse_href (lk_href lk) (g_host g) (g_port g) = Ok (lk_gopher lk) -> n_link n = Some lk -> is_link_tag tg = true ->
    LinkExtra (lk_href lk) (lk_title lk) (lk_gopher lk) = link_details g tg a).
  { intros lk PH NL L. unfold link_details, is_img. unfold link_data in N6. unfold is_link_tag, is_a, is_img in L. destruct (seqb_spec tg (lit "a")) as [->|NA].
    - destruct N6 as (lk' & X1 & X2 & X3). assert (lk' = lk) by congruence. subst lk'. change (seqb (lit "a") (lit "img")) with false. cbv iota. unfold target. rewrite <- X2, <- X3, PH. reflexivity.
    - destruct (seqb_spec tg (lit "img")) as [->|NI]; [|discriminate].
      destruct N6 as (lk' & X1 & X2 & X3). assert (lk' = lk) by congruence. subst lk'. unfold target. rewrite <- X2, <- X3, PH. reflexivity. }
  assert (PL : forall lk ref, lk_ctx lk = link_context g ref -> is_link_tag tg = true -> seqb (if seqb tg (lit "img") then lc_image_placement (lk_ctx lk) else lc_link_placement (lk_ctx lk)) (lit "inline") = shown_inline g tg).
  { intros lk ref -> L. unfold shown_inline. rewrite L. cbn [andb]. unfold link_context, placement. cbn [lc_image_placement lc_link_placement]. unfold is_link_tag, is_a, is_img in L.
    destruct (seqb_spec tg (lit "a")) as [->|]; [reflexivity|]. destruct (seqb_spec tg (lit "img")); [reflexivity|discriminate]. }
  assert (LB : is_link_tag tg = true \/ is_link_tag tg = false) by (destruct (is_link_tag tg); auto).
  inversion SH; subst; clear SH; repeat match goal with x := _ : list _ |- _ => subst x end.
  - (* in the text *)
    match goal with H : styled _ _ _ cl over |- _ => destruct (main_class b c i tg a kids up AT cl over H) as (M1 & M2 & M3) end.
    assert (AL : match n_link n with Some lk => false || seqb (if seqb tg (lit "img") then lc_image_placement (lk_ctx lk) else lc_link_placement (lk_ctx lk)) (lit "inline") | None => false end = false).
    { destruct LB as [L|L]; rewrite L in LI; [|now rewrite LI]. destruct LI as (lk & ref & L1 & L2 & _). rewrite L1. cbn [orb]. rewrite (PL lk ref L2 L). assumption. }
    rewrite AL. rewrite M1. cbn [bind].
    set (cx := Ctx (a_settings (asg_get i sg)) (Some bx) _ None).
    match goal with H : settled cl tg _ over ?s1, H' : room_in _ _ _ inner |- _ =>
      destruct (settled_inst d cl i cx n tg (length b) over s1 bx inner N1 N2 PN IX eq_refl M2 M3 H H') as (r & R1 & R2 & R3) end.
    apply bind_ok in R3. rewrite R1. cbn [bind]. rewrite R3. cbn [bind].
    match goal with H : Forall2 _ (inner_spots _) parts |- _ => rewrite (KK inner parts H) end. cbn [bind].
    match goal with H : Forall2 _ ?L entries |- _ => rewrite KL; rewrite (KD (listed_at g "after_block") inner L entries eq_refl true H) end. cbn [bind].
    match goal with H : picture _ _ _ _ _ _ _ _ _ _ _ |- _ => apply (x_picture _ _ R2) in H; eapply rendered_picture with (c := cx) (l := c_link cx) (e := None); [exact N1|exact N2|exact N8|reflexivity|reflexivity|reflexivity|exact R1|exact SK|exact PP|] end.
    match goal with H : picture _ _ ?k ?p ?s1 ?q ?l ?e ?ct _ _ |- picture _ _ _ _ _ _ ?l' _ ?ct' _ _ => replace l' with l; [replace ct' with ct; [exact H|]|] end.
    + f_equal. f_equal. destruct (filter (listed_at g "after_block") (inner_spots _)); reflexivity.
    + unfold cx. cbn [c_link]. destruct LB as [L|L]; rewrite L in *; [|now rewrite LI]. destruct LI as (lk & ref & L1 & L2 & _). rewrite L1, L2. f_equal. unfold link_context. f_equal.
      transitivity (lc_reference (lk_ctx lk)); [|now rewrite L2]. symmetry. eapply (numbers_all g s F (go_refs _ _ RU) DOC PRE i n lk); auto.
  - (* with its target *)
    match goal with H : styled _ _ _ cl over |- _ => destruct (main_class b c i tg a kids up AT cl over H) as (M1 & _ & _) end.
    assert (L : is_link_tag tg = true) by (match goal with H : shown_inline g tg = true |- _ => unfold shown_inline in H; apply andb_prop in H; apply H end).
    rewrite L in LI. destruct LI as (lk & ref & L1 & L2 & L3). rewrite L1. rewrite (PL lk ref L2 L).
    match goal with H : shown_inline g tg = true |- _ => rewrite H; cbn [orb]; rewrite (PL lk ref L2 L), H end. rewrite M1. cbn [bind].
    set (cx := Ctx None (Some bx) _ _).
    match goal with H : settled cl tg _ _ ?s1, H' : room_in _ _ _ inner |- _ =>
      destruct (settled_inst d cl i cx n tg (length b) [] s1 bx inner N1 N2 PN IX eq_refl ltac:(discriminate) ltac:(reflexivity) H H') as (r & R1 & R2 & R3) end.
    apply bind_ok in R3. rewrite R1. cbn [bind]. rewrite R3. cbn [bind].
    match goal with H : Forall2 _ (inner_spots _) parts |- _ => rewrite (KK inner parts H) end. cbn [bind].
    match goal with H : picture _ _ _ _ _ _ _ _ _ _ _ |- _ => apply (x_picture _ _ R2) in H; eapply rendered_picture with (c := cx) (l := c_link cx) (e := c_extra cx); [exact N1|exact N2|exact N8|reflexivity|reflexivity|reflexivity|exact R1|exact SK|exact PP|] end.
    unfold cx. cbn [c_link c_extra]. rewrite (TGT lk L3 L1 L).
    assert (RF : lk_ctx lk = link_context g (reference g F i)).
    { rewrite L2. unfold link_context. f_equal. transitivity (lc_reference (lk_ctx lk)); [now rewrite L2|]. eapply (numbers_all g s F (go_refs _ _ RU) DOC PRE i n lk); auto. }
    rewrite RF. assumption.
  - (* listed *)
    match goal with H : listed_by _ _ cl, H' : is_link_tag tg = true |- _ => destruct (link_class b c i tg a kids up AT cl H' H) as (M1 & M2); rename H' into L end.
    rewrite L in LI. destruct LI as (lk & ref & L1 & L2 & L3). rewrite L1. cbn [orb]. rewrite (PL lk ref L2 L).
    match goal with H : shown_inline g tg = false |- _ => rewrite H end. rewrite M1. destruct (a_lsettings (asg_get i sg)); [|congruence]. cbn [bind].
    set (cx := Ctx None (Some bx) _ _).
    match goal with H : settled cl tg _ _ ?s1, H' : room_in _ _ _ inner |- _ =>
      destruct (settled_inst d cl i cx n tg (length b) [] s1 bx inner N1 N2 PN IX eq_refl ltac:(discriminate) ltac:(reflexivity) H H') as (r & R1 & R2 & R3) end.
    apply bind_ok in R3. rewrite R1. cbn [bind]. rewrite R3. cbn [bind].
    match goal with H : Forall2 _ (inner_spots _) parts |- _ => rewrite (KK inner parts H) end. cbn [bind].
    match goal with H : picture _ _ _ _ _ _ _ _ _ _ _ |- _ => apply (x_picture _ _ R2) in H; eapply rendered_picture with (c := cx) (l := c_link cx) (e := c_extra cx); [exact N1|exact N2|exact N8|reflexivity|reflexivity|reflexivity|exact R1|exact SK|exact PP|] end.
    unfold cx. cbn [c_link c_extra]. rewrite (TGT lk L3 L1 L).
    assert (RF : lk_ctx lk = link_context g (reference g F i)).
    { rewrite L2. unfold link_context. f_equal.
      transitivity (lc_reference (lk_ctx lk)); [now rewrite L2|]. eapply (numbers_all g s F (go_refs _ _ RU) DOC PRE i n lk); auto. }
    rewrite RF. assumption.
Qed.

(** ** The page *)
Lemma sites_drawn : forall listing bx L outs, Forall (at_site d F) L -> (forall z, In z L -> z <> []) ->
  Forall2 (fun y o => shows g F listing y bx o) L outs -> mapM (fun j => draw listing j bx) (map here_id L) = Ok outs.
Proof.
  intros listing bx L outs H NE Q. eapply drawn_list; [|exact Q]. intros z J. eapply Forall_forall in H; [|exact J]. split; auto.
  specialize (NE z J). destruct z as [|[b t c] up]; [congruence|]. exists b, t, c, up. split; auto. apply drawn_all.
Qed.
Lemma places_some : forall t up before after z, In z (places up before t after) -> z <> [].
Proof.
  induction t as [i tg a kids IH|i x] using tree_ind2; intros up before after z J; [|destruct J as [<-|[]]; discriminate].
  rewrite places_Tag in J. destruct J as [<-|J]; [discriminate|]. revert J. generalize (@nil tree) as l. generalize (Spot before (Tag i tg a kids) after :: up) as y. clear -IH.
  induction IH as [|k kids E _ IH2]; intros y l J; cbn [all_places] in J; [contradiction|]. apply in_app_or in J as [J|J]; eauto.
Qed.
Lemma all_places_some : forall kids up before z, In z (all_places up before kids) -> z <> [].
Proof. induction kids as [|k kids IH]; intros up before z J; cbn [all_places] in J; [contradiction|]. apply in_app_or in J as [J|J]; eauto using places_some. Qed.
Lemma close_styled : forall out, p_chunks s = [] -> styled_page g F out -> (let* s' := close g s in Ok (p_out s')) = Ok out.
Proof.
  intros out FC (parts & entries & P1 & P2 & ->). cbv zeta in *. pose proof roots_at as RA.
  assert (B : mapM (fun i => draw false i (g_box g)) (d_root d) = Ok parts).
  { rewrite (proj1 DOC), <- (spots_ids [] F []). apply sites_drawn; auto. intros z J. apply spots_in in J as (b & t & c & -> & _). discriminate. }
  set (L := filter (listed_at g "footer") (all_places [] [] F)) in *.
  assert (FT : p_footer s = map here_id L).
  { rewrite (lo_footer _ _ (go_links _ _ RU)), <- PRE, <- (all_places_ids F [] []). apply filter_ids. intros z J. apply placed_listed.
    - pose proof (all_places_at d F F [] [] RA) as X. eapply Forall_forall in X; eauto.
    - eapply all_places_some; eauto. }
  unfold close. cbv zeta. rewrite AS. cbn [bind]. rewrite B. cbn [bind].
  assert (Q : (if seqb (g_link g) (lit "footer") then match p_footer s with [] => Ok [] | l => let* links := mapM (fun i => draw true i (g_box g)) l in Ok (nl :: links) end else Ok [])
     = Ok (match (if seqb (g_link g) (lit "footer") then L else []) with [] => [] | _ => nl :: entries end)).
  { destruct (seqb (g_link g) (lit "footer")); [|reflexivity]. rewrite FT.
    assert (E : mapM (fun i => draw true i (g_box g)) (map here_id L) = Ok entries).
    { apply sites_drawn; auto.
      - pose proof (all_places_at d F F [] [] RA) as X. rewrite Forall_forall in *. intros z J. apply X. apply filter_In in J. apply J.
      - intros z J. apply filter_In in J as [J _]. eapply all_places_some; eauto. }
    destruct L as [|z L']; [reflexivity|]. cbn [map] in E |- *. rewrite E. reflexivity. }
  match goal with |- bind (bind ?x _) _ = _ => change x with (if seqb (g_link g) (lit "footer") then match p_footer s with [] => Ok [] | l => let* links := mapM (fun i => draw true i (g_box g)) l in Ok (nl :: links) end else Ok []) end.
  rewrite Q. cbn [bind p_out]. rewrite FC. cbn [app]. rewrite concat_app.
  assert (X : concat (match (if seqb (g_link g) (lit "footer") then L else []) with [] => [] | _ => nl :: entries end)
    = (match (if seqb (g_link g) (lit "footer") then L else []) with [] => [] | _ => nl end) ++ concat entries).
  { destruct (if seqb (g_link g) (lit "footer") then L else []) as [|z l] eqn:E; [inversion P2; reflexivity|reflexivity]. }
  unfold finished. rewrite <- X. destruct (g_optimise g); reflexivity.
Qed.
End C.
End M.
