(** The cascade over places in a document. *)
From Verif Require Import WrapFacts WrapLoop WrapWidth.
From Verif Require Import BaseFacts StrFacts SelFacts CssFacts TreeFacts DomFacts HistoryFacts SettingsFacts PageBase.
From Verif Require Export StyleFacts JudgeFacts.

Lemma sub_attributes : forall t i tg a kids, In (Tag i tg a kids) (subtrees t) -> In a (all_attributes t).
Proof.
  induction t as [j t b ks IH|j s] using tree_ind2; intros i tg a kids H; cbn [subtrees all_attributes] in *.
  - destruct H as [E|H]; [injection E as _ _ -> _; now left|]. right. apply in_flat_map in H as (u & HU & H). apply in_flat_map. exists u. split; auto.
    rewrite Forall_forall in IH. eapply IH; eauto.
  - destruct H as [E|[]]. discriminate.
Qed.
Lemma forest_carries : forall d F, document d F -> flat_map preorder F = seq 0 (length (d_nodes d)) ->
  forall i n, node_at d i = Some n -> SelSpec.element d i -> exists a, carries n a /\ In a (flat_map all_attributes F).
Proof.
  intros d F [D1 D2] HP i n Hi (n0 & t0 & E1 & E2). rewrite Hi in E1. injection E1 as <-. pose proof (node_at_lt _ _ _ Hi) as LT.
  assert (HI : In i (flat_map preorder F)) by (rewrite HP; apply in_seq; lia).
  apply in_flat_map in HI as (t & Ht & HI). rewrite <- subtrees_ids in HI.
  apply in_map_iff in HI as (u & Hu & HI). rewrite Forall_forall in D2.
  destruct (stores_sub_any _ _ _ _ (D2 t Ht) HI) as (q & Hq).
  destruct u as [i' tg a kids | i' s]; simpl in Hu; subst i'.
  - apply stores_Tag in Hq as [(n' & Hn & _ & _ & _ & _ & H & _) _]. exists a. split; [congruence|]. apply in_flat_map. exists t. split; auto. eapply sub_attributes; eauto.
  - simpl in Hq. destruct Hq as (n' & Hn & H1 & _). congruence.
Qed.

Section A.
Context `{U : Uni}.
Variables (d : dom) (F : list tree).
Hypothesis WF : wf_dom d.
Hypothesis CK : classes_ok d.
Hypothesis DOC : document d F.
Hypothesis PRE : flat_map preorder F = seq 0 (length (d_nodes d)).

Lemma covered_supported : forall s, covered F s -> supported d s.
Proof.
  induction s as [nm|s IH cn|s IH x|s1 IH1 s2 IH2|s IH k op v|s IH p|s IH f args|s1 IH1 cb s2 IH2|]; cbn [covered supported]; try tauto.
  intros [H (R1 & R2 & R3)]. split; auto. repeat split; auto. intros i n av E N G. destruct (forest_carries d F DOC PRE i n N E) as (a & (C1 & C2 & _) & A). specialize (R3 a A).
  destruct (str_eq_dec k (lit "class")) as [->|NK].
  - rewrite C2 in G. destruct (dlast (lit "class") a) as [[x|]|]; inversion G; subst; auto. now apply R3.
  - rewrite (C1 k NK) in G. destruct (dlast k a) as [[x|]|]; inversion G; subst; auto. unfold plain_space in R3. tauto.
Qed.
(** No selector of a group raises at a node. *)
Definition group_covered (i : nat) (group : list selector) : Prop :=
  forall s, In s group -> exists v, selector_matches d (sl_tree s) (ONode i) = Ok v.
Definition rules_covered (i : nat) (rules : list (rule rcls)) : Prop := forall ru, In ru rules -> group_covered i (ru_sel ru).
(** ** At an element *)
Section E.
Variables (b c : list tree) (t : tree) (up : site).
Hypothesis EL : PageSpec.element t = true.
Hypothesis AT : at_site d F (Spot b t c :: up).
Let z : site := Spot b t c :: up.
Let i := tid t.
Lemma el_b : elementb d i = true.
Proof. pose proof (site_stores _ _ _ _ AT) as S. cbn [sp_here] in S. destruct t as [j tg a kids|]; [|discriminate]. apply stores_Tag in S as [(n & N1 & N2 & _) _]. unfold elementb, i. cbn [tid]. now rewrite N1, N2. Qed.
Lemma here_is : exists n, node_at d i = Some n.
Proof. pose proof (site_stores _ _ _ _ AT) as S. eapply stores_node. exact S. Qed.
Lemma covered_hits : forall s, covered F s -> exists v, selector_matches d s (ONode i) = Ok v /\ (v = true <-> css_at s z).
Proof.
  intros s H. destruct (matches_css d WF CK s (covered_supported s H) i el_b) as (v & E & Q). exists v. split; auto. rewrite Q. apply (css_site d F WF); auto.
Qed.
Lemma judged_here : forall s w, judged s z w <-> w = seen (selector_matches d s (ONode i)).
Proof. intros s w. apply (judge d F WF s z AT). Qed.
Lemma hits : forall s, (exists v, selector_matches d s (ONode i) = Ok v) -> exists v, selector_matches d s (ONode i) = Ok v /\ (v = true <-> judged s z Yes).
Proof.
  intros s (v & E). exists v. split; auto. rewrite judged_here, E. destruct v; cbn [seen]; split; congruence.
Qed.
Lemma group_reaches : forall group, group_covered i group -> exists r, tag_matches d (ONode i) group = Ok r
  /\ (forall sp, r = (true, Some sp) <-> reaches group z sp).
Proof.
  intros group H. destruct (tag_matches_total d (ONode i) group) as (r & E); [exact H|].
  exists r. split; auto. pose proof (tag_matches_inv _ _ _ _ E) as [I1 I2].
  assert (SH : forall s, In s group -> (sel_hits d (ONode i) s <-> judged (sl_tree s) z Yes)).
  { intros s Hs. destruct (hits _ (H s Hs)) as (v & V & Q). unfold sel_hits. rewrite V. rewrite <- Q. split; congruence. }
  intros sp. split.
  - intros ->. cbn [fst snd] in *. destruct I2 as (_ & s & J1 & J2 & J3 & J4). exists s. split; auto. split; [now apply SH|]. split; auto.
    intros s' K1 K2. apply J4; auto. now apply SH.
  - intros (s & J1 & J2 & J3 & J4). destruct r as [v o]. cbn [fst snd] in *. destruct o as [sp'|].
    + destruct I2 as (-> & s' & K1 & K2 & K3 & K4). f_equal. f_equal. apply SH in K2; auto. specialize (J4 s' K1 K2). rewrite K3 in J4.
      assert (K5 : ~ lex_lt sp' sp) by (rewrite <- J3; apply K4; auto; now apply SH).
      destruct (lex_total sp sp') as [Q|[Q|Q]]; [contradiction|auto|contradiction].
    + subst v. assert (false = true) by (apply I1; exists s; split; auto; now apply SH). discriminate.
Qed.
Lemma rule_reaches : forall rules, rules_covered i rules -> forall k ru sp,
  rule_matches d (ONode i) rules k ru sp <-> nth_error rules k = Some ru /\ reaches (ru_sel ru) z sp.
Proof.
  intros rules H k ru sp. unfold rule_matches. split; intros [N R]; split; auto.
  - destruct (group_reaches (ru_sel ru)) as (r & E & Q); [apply H; eapply nth_error_In; eauto|]. apply Q. congruence.
  - destruct (group_reaches (ru_sel ru)) as (r & E & Q); [apply H; eapply nth_error_In; eauto|]. rewrite E. f_equal. now apply Q.
Qed.
Lemma wins_winner : forall X rules (f : rspec rcls -> option X) x, rules_covered i rules ->
  ((exists k, winner d (ONode i) rules f k x) <-> wins rules z f x).
Proof.
  intros X rules f x H. unfold winner, wins. split.
  - intros (k & ru & sp & M & V & B). apply (rule_reaches _ H) in M as [M1 M2]. exists k, ru, sp. repeat split; auto. intros k' ru' sp' N R. apply (B k' ru' sp'). now apply (rule_reaches _ H).
  - intros (k & ru & sp & M1 & M2 & V & B). exists k, ru, sp. split; [now apply (rule_reaches _ H)|]. split; auto. intros k' ru' sp' M. apply (rule_reaches _ H) in M as [N R]. now apply (B k' ru' sp').
Qed.
Lemma silent_none : forall X rules (f : rspec rcls -> option X), rules_covered i rules -> (no_rule d (ONode i) rules f <-> silent rules z f).
Proof.
  intros X rules f H. unfold no_rule, silent. split.
  - intros Q k ru sp N R. apply (Q k ru sp). now apply (rule_reaches _ H).
  - intros Q k ru sp M. apply (rule_reaches _ H) in M as [N R]. eauto.
Qed.
Lemma matches_total : forall rules, rules_covered i rules -> exists ms, all_matches d (ONode i) rules = Ok ms.
Proof.
  induction rules as [|r rules IH]; intros H; cbn [all_matches]; [eauto|]. destruct (group_reaches (ru_sel r)) as ([m o] & -> & _); [apply H; now left|].
  cbn [bind]. destruct IH as (ms & ->); [intros ru Hr; apply H; now right|]. cbn [bind]. destruct m; [destruct o|]; eauto.
Qed.
End E.

(** ** Uniqueness *)
Lemma wins_fun : forall X rules z (f : rspec rcls -> option X) x y, wins rules z f x -> wins rules z f y -> x = y.
Proof.
  intros X rules z f x y (k & ru & sp & N & R & V & B) (k' & ru' & sp' & N' & R' & V' & B').
  assert (H : f (ru_spec ru') <> None) by congruence. assert (H' : f (ru_spec ru) <> None) by congruence.
  specialize (B _ _ _ N' R' H). specialize (B' _ _ _ N R H'). destruct B as [B|[B1 B2]], B' as [B'|[B1' B2']].
  - elim (lex_asym _ _ B B').
  - subst. elim (lex_irrefl _ B).
  - subst. elim (lex_irrefl _ B').
  - assert (k = k') by lia. subst k'. congruence.
Qed.
Lemma wins_not_silent : forall X rules z (f : rspec rcls -> option X) x, wins rules z f x -> silent rules z f -> False.
Proof. intros X rules z f x (k & ru & sp & N & R & V & _) S. rewrite (S _ _ _ N R) in V. discriminate. Qed.

Lemma combine_keyed : forall l (acc : option rcls * settings), keyed (snd acc) -> keyed (snd (combine_specs acc l)).
Proof.
  induction l as [|[sp r] l IH]; intros acc H; cbn [combine_specs]; auto. apply IH. cbn [snd]. destruct (rspec_settings r); auto. apply dupdate_NoDup. exact H.
Qed.
Lemma got_keyed : forall o (rules : list (rule rcls)) c st, get_for_tag d o rules = Ok (Some (c, st)) -> keyed st.
Proof.
  intros o rules c st. unfold get_for_tag. destruct (all_matches d o rules) as [ms|]; cbn [bind]; [|discriminate].
  pose proof (combine_keyed (sort_spec ms) (None, [])) as K. destruct (combine_specs (None, []) (sort_spec ms)) as [c' st']. intros H.
  destruct c'; inversion H; subst. apply K. constructor.
Qed.

(** ** What is assigned *)
Section G.
Variable g : cfg.
Hypothesis RK : rules_ok (g_rules g).
Lemma got : forall b t c up, PageSpec.element t = true -> at_site d F (Spot b t c :: up) -> forall rules, rules_covered (tid t) rules -> rules_ok rules ->
  exists r, get_for_tag d (ONode (tid t)) rules = Ok r /\
  match r with
  | None => silent rules (Spot b t c :: up) rule_renderer
  | Some (cl, st) => keyed st /\ wins rules (Spot b t c :: up) rule_renderer cl
      /\ forall key, match dget key st with
                     | Some v => wins rules (Spot b t c :: up) (rule_setting key) v
                     | None => silent rules (Spot b t c :: up) (rule_setting key)
                     end
  end.
Proof.
  intros b t c up E H rules HC HK. destruct (matches_total b c t up H rules HC) as (ms & M).
  assert (G : exists r, get_for_tag d (ONode (tid t)) rules = Ok r).
  { unfold get_for_tag. rewrite M. cbn [bind]. destruct (combine_specs (None, []) (sort_spec ms)) as [c' st']. destruct c'; eauto. }
  destruct G as (r & G). exists r. split; auto. pose proof (get_for_tag_spec _ _ _ _ HK G) as Q. destruct r as [[cl st]|].
  - destruct Q as [Q1 Q2]. split; [eapply got_keyed; eauto|]. split; [apply (wins_winner b c t up H); auto|].
    intros key. specialize (Q2 key). destruct (dget key st); [now apply (wins_winner b c t up H)|now apply (silent_none b c t up H)].
  - now apply (silent_none b c t up H).
Qed.
End G.
End A.
