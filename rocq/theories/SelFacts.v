(** Facts about selector matching, specificity and the cascade. *)
From Verif Require Export DomFacts SelSpec StrFacts.
From Coq Require DecimalPos.

(** ** Specificity *)
Lemma compare_cases : forall x y, exists r, compare_specificity (Some x) (Some y) = Ok r
  /\ ((r = -1 /\ lex_lt x y) \/ (r = 0 /\ x = y) \/ (r = 1 /\ lex_lt y x))%Z.
Proof.
  intros [[a b] c] [[a' b'] c']. unfold compare_specificity, compare3, lex_lt.
  eexists. split; [reflexivity|].
  destruct (Z.eqb_spec a a'); [destruct (Z.eqb_spec b b'); [destruct (Z.eqb_spec c c')|]|]; subst.
  - simpl. auto.
  - destruct (c - c' >? 0)%Z eqn:E1; [right; right; split; lia|].
    destruct (c - c' <? 0)%Z eqn:E2; [left; split; lia|]. lia.
  - destruct (b - b' >? 0)%Z eqn:E1; [right; right; split; lia|].
    destruct (b - b' <? 0)%Z eqn:E2; [left; split; lia|]. lia.
  - destruct (a - a' >? 0)%Z eqn:E1; [right; right; split; lia|].
    destruct (a - a' <? 0)%Z eqn:E2; [left; split; lia|]. lia.
Qed.
Lemma lex_irrefl : forall x, ~ lex_lt x x.
Proof. intros [[a b] c]; simpl; lia. Qed.
Lemma lex_trans : forall x y z, lex_lt x y -> lex_lt y z -> lex_lt x z.
Proof. intros [[a b] c] [[a' b'] c'] [[a2 b2] c2]; simpl; lia. Qed.
Lemma lex_total : forall x y, lex_lt x y \/ x = y \/ lex_lt y x.
Proof.
  intros x y. destruct (compare_cases x y) as (r & _ & [[_ H]|[[_ H]|[_ H]]]); auto.
Qed.
Lemma lex_asym : forall x y, lex_lt x y -> lex_lt y x -> False.
Proof. intros. eapply lex_irrefl, lex_trans; eauto. Qed.

Ltac cmp x y :=
  let r := fresh "r" in let E := fresh "E" in let H := fresh "H" in
  destruct (compare_cases x y) as (r & E & H); rewrite E;
  destruct H as [[-> H]|[[-> H]|[-> H]]].

Lemma spec_lt_iff : forall x y, spec_lt x y = true <-> lex_lt x y.
Proof.
  intros. unfold spec_lt. cmp x y; simpl; split; intros; auto; try discriminate.
  - subst. exfalso. eapply lex_irrefl; eauto.
  - exfalso. eapply lex_asym; eauto.
Qed.
Lemma spec_gt_iff : forall x y, spec_gt x y = true <-> lex_lt y x.
Proof.
  intros. unfold spec_gt. cmp x y; simpl; split; intros; auto; try discriminate.
  - exfalso. eapply lex_asym; eauto.
  - subst. exfalso. eapply lex_irrefl; eauto.
Qed.
Lemma spec_eq_iff : forall x y, spec_eq x y = true <-> x = y.
Proof.
  intros. unfold spec_eq. cmp x y; simpl; split; intros; auto; try discriminate; subst;
  exfalso; eapply lex_irrefl; eauto.
Qed.
Lemma spec_le_iff : forall x y, spec_le x y = true <-> lex_lt x y \/ x = y.
Proof.
  intros. unfold spec_le. cmp x y; simpl; split; intros; auto; try discriminate.
  destruct H0; [|subst]; exfalso; [eapply lex_asym|eapply lex_irrefl]; eauto.
Qed.
Lemma spec_ge_iff : forall x y, spec_ge x y = true <-> lex_lt y x \/ x = y.
Proof.
  intros. unfold spec_ge. cmp x y; simpl; split; intros; auto; try discriminate.
  destruct H0; [|subst]; exfalso; [eapply lex_asym|eapply lex_irrefl]; eauto.
Qed.

(** ** Groups *)
Definition sel_hits (d : dom) (o : obj) (s : selector) : Prop :=
  selector_matches d (sl_tree s) o = Ok true.

Lemma more_specific_None : forall x, more_specific x None = Ok true.
Proof. intros [[a b] c]. reflexivity. Qed.
Lemma more_specific_Some : forall x y, exists b, more_specific x (Some y) = Ok b /\ (b = true <-> lex_lt y x).
Proof.
  intros. unfold more_specific. cmp x y; simpl; eexists; (split; [reflexivity|]); split; intros; auto; try discriminate.
  - exfalso. eapply lex_asym; eauto.
  - subst. exfalso. eapply lex_irrefl; eauto.
Qed.

(** Invariant of the accumulator. *)
Definition group_inv (d : dom) (o : obj) (seen : list selector) (acc : bool * option spec3) : Prop :=
  (fst acc = true <-> exists s, In s seen /\ sel_hits d o s)
  /\ match snd acc with
     | None => fst acc = false
     | Some sp => fst acc = true /\ exists s, In s seen /\ sel_hits d o s /\ specificity s = sp
          /\ forall s', In s' seen -> sel_hits d o s' -> ~ lex_lt sp (specificity s')
     end.

Lemma tag_matches_from_inv : forall d o l acc seen r,
  group_inv d o seen acc -> tag_matches_from d o acc l = Ok r -> group_inv d o (seen ++ l) r.
Proof.
  induction l as [|s l IH]; simpl; intros acc seen r H E.
  - inversion E; subst. now rewrite app_nil_r.
  - destruct (selector_matches d (sl_tree s) o) as [m|] eqn:M; [|discriminate]. simpl in E.
    replace (seen ++ s :: l) with ((seen ++ [s]) ++ l) by now rewrite <- app_assoc.
    destruct m.
    + destruct acc as [b osp]. simpl in E. destruct osp as [sp|].
      * destruct (more_specific_Some (specificity s) sp) as (b0 & E0 & HB). rewrite E0 in E. simpl in E.
        destruct H as [H1 (H2 & s0 & H3 & H4 & H5 & H6)]. simpl in *. subst b.
        eapply IH; [|exact E]. destruct b0; unfold group_inv; simpl.
        -- split. { split; auto. intros _. exists s. rewrite in_app_iff. simpl. auto. }
           split; auto. exists s. rewrite in_app_iff. simpl. repeat split; auto.
           intros s' Hs' Hh Hl. apply in_app_iff in Hs' as [Hs' |[<- | []]].
           ++ apply (H6 s' Hs' Hh). eapply lex_trans; [apply HB; auto | exact Hl].
           ++ eapply lex_irrefl; eauto.
        -- split. { split; auto. intros _. exists s. rewrite in_app_iff. simpl. auto. }
           split; auto. exists s0. rewrite in_app_iff. repeat split; auto.
           intros s' Hs' Hh Hl. apply in_app_iff in Hs' as [Hs' |[<- | []]].
           ++ eapply H6; eauto.
           ++ apply HB in Hl. discriminate.
      * rewrite more_specific_None in E. simpl in E. destruct H as [H1 H2]. simpl in *. subst b.
        eapply IH; [|exact E]. unfold group_inv; simpl.
        split. { split; auto. intros _. exists s. rewrite in_app_iff. simpl. auto. }
        split; auto. exists s. rewrite in_app_iff. simpl. repeat split; auto.
        intros s' Hs' Hh Hl. apply in_app_iff in Hs' as [Hs' |[<- | []]].
        -- enough (false = true) by discriminate. apply H1. eauto.
        -- eapply lex_irrefl; eauto.
    + eapply IH; [|exact E]. destruct H as [H1 H2]. unfold group_inv. split.
      * rewrite H1. split; intros (s0 & H3 & H4).
        -- exists s0. rewrite in_app_iff. auto.
        -- apply in_app_iff in H3 as [H3|[<- | []]]; eauto. unfold sel_hits in H4. congruence.
      * destruct (snd acc) as [sp|]; auto. destruct H2 as (H2 & s0 & H3 & H4 & H5 & H6).
        split; auto. exists s0. rewrite in_app_iff. repeat split; auto.
        intros s' Hs' Hh Hl. apply in_app_iff in Hs' as [Hs' |[<- | []]].
        -- eapply H6; eauto.
        -- unfold sel_hits in Hh. congruence.
Qed.
Lemma tag_matches_inv : forall d o l r, tag_matches d o l = Ok r -> group_inv d o l r.
Proof.
  intros. change l with ([] ++ l). eapply tag_matches_from_inv; eauto.
  split; simpl; auto. split; [discriminate|]. intros (s & [] & _).
Qed.
Lemma tag_matches_total : forall d o l,
  (forall s, In s l -> exists b, selector_matches d (sl_tree s) o = Ok b) ->
  exists r, tag_matches d o l = Ok r.
Proof.
  intros d o l H. unfold tag_matches. generalize (false, @None spec3). revert H.
  induction l as [|s l IH]; simpl; intros H acc; eauto.
  destruct (H s (or_introl eq_refl)) as (b & ->). simpl. destruct b; [|apply IH; auto].
  destruct acc as [b0 [sp|]]; simpl.
  - destruct (more_specific_Some (specificity s) sp) as (b1 & -> & _). simpl. apply IH; auto.
  - rewrite more_specific_None. simpl. apply IH; auto.
Qed.

(** ** The cascade *)
Section Casc.
Context {C X : Type}.
Implicit Types (l : list (spec3 * rspec C)).
Variable f : rspec C -> option X.

(** The last entry saying [f]. *)
Fixpoint lastf (acc : option (spec3 * X)) l : option (spec3 * X) :=
  match l with
  | [] => acc
  | (sp, r) :: t => lastf (match f r with Some x => Some (sp, x) | None => acc end) t
  end.
(** The best entry saying [f], by position from the right. *)
Definition better (sp : spec3) (o : option X) (b : option (spec3 * X)) : option (spec3 * X) :=
  match o with
  | None => b
  | Some x => match b with
              | None => Some (sp, x)
              | Some (sp', x') => if spec_lt sp' sp then Some (sp, x) else b
              end
  end.
Fixpoint bestf l : option (spec3 * X) :=
  match l with
  | [] => None
  | (sp, r) :: t => better sp (f r) (bestf t)
  end.

Definition sorted l : Prop :=
  forall a x b y c, l = a ++ x :: b ++ y :: c -> ~ lex_lt (fst y) (fst x).
Lemma sorted_tl : forall x l, sorted (x :: l) -> sorted l.
Proof. intros x l H a y b z c ->. apply (H (x :: a) y b z c). reflexivity. Qed.
Lemma sorted_hd : forall x l y, sorted (x :: l) -> In y l -> ~ lex_lt (fst y) (fst x).
Proof. intros x l y H Hy. apply in_split in Hy as (a & b & ->). apply (H [] x a y b). reflexivity. Qed.
Lemma sorted_cons : forall x l, sorted l -> (forall y, In y l -> ~ lex_lt (fst y) (fst x)) -> sorted (x :: l).
Proof.
  intros x l H HH a y b z c E. destruct a as [|a0 a]; simpl in E; inversion E; subst.
  - apply HH. apply in_app_iff. simpl. auto.
  - eapply H; eauto.
Qed.
Lemma insert_In : forall (x : spec3 * rspec C) l y, In y (insert_spec x l) -> y = x \/ In y l.
Proof.
  induction l as [|z l IH]; simpl; intros y H.
  - destruct H; auto.
  - destruct (spec_lt (fst z) (fst x)); simpl in H; destruct H as [H|H]; auto. apply IH in H as [H|H]; auto.
Qed.
Lemma insert_sorted : forall (x : spec3 * rspec C) l, sorted l -> sorted (insert_spec x l).
Proof.
  induction l as [|y l IH]; simpl; intros H.
  - apply sorted_cons; [auto | intros ? []].
  - destruct (spec_lt (fst y) (fst x)) eqn:E.
    + apply sorted_cons. { apply IH. eapply sorted_tl; eauto. }
      intros z Hz. apply insert_In in Hz as [-> |Hz].
      * intros HL. apply spec_lt_iff in E. eapply lex_asym; eauto.
      * eapply sorted_hd; eauto.
    + apply sorted_cons; auto. intros z [<- |Hz] HL.
      * apply spec_lt_iff in HL. congruence.
      * assert (~ lex_lt (fst z) (fst y)) by (eapply sorted_hd; eauto).
        destruct (lex_total (fst y) (fst x)) as [Hx|[Hx|Hx]].
        -- apply spec_lt_iff in Hx. congruence.
        -- rewrite Hx in *. auto.
        -- apply H0. eapply lex_trans; eauto.
Qed.
Lemma sort_sorted : forall l, sorted (sort_spec l).
Proof.
  induction l; simpl. - intros a x b y c E. destruct a; discriminate.
  - now apply insert_sorted.
Qed.

Lemma lastf_acc : forall l acc, lastf acc l = match lastf None l with Some r => Some r | None => acc end.
Proof.
  induction l as [|[sp r] l IH]; simpl; intros acc; auto.
  destruct (f r); auto. rewrite IH. symmetry. rewrite IH. destruct (lastf None l); auto.
Qed.
Lemma lastf_In : forall l sp x, lastf None l = Some (sp, x) -> exists r, In (sp, r) l /\ f r = Some x.
Proof.
  induction l as [|[sp r] l IH]; simpl; intros sp0 x H; [discriminate|].
  rewrite lastf_acc in H. destruct (lastf None l) as [[sp1 x1]|] eqn:E.
  - inversion H; subst. destruct (IH _ _ eq_refl) as (r0 & H1 & H2). eauto.
  - destruct (f r) eqn:F; inversion H; subst. eauto.
Qed.
Lemma lastf_insert : forall l sp r, sorted l ->
  lastf None (insert_spec (sp, r) l) = better sp (f r) (lastf None l).
Proof.
  induction l as [|[sp' r'] l IH]; intros sp r HS.
  - simpl. destruct (f r); auto.
  - pose proof (sorted_tl _ _ HS) as HS'. simpl insert_spec. simpl fst.
    destruct (spec_lt sp' sp) eqn:E.
    + cbn [lastf]. rewrite (lastf_acc (insert_spec _ _)), IH by auto.
      rewrite (lastf_acc l (match f r' with Some x => Some (sp', x) | None => None end)).
      destruct (lastf None l) as [[sp1 x1]|] eqn:L; simpl.
      * destruct (f r); simpl; auto. destruct (spec_lt sp1 sp); auto.
      * destruct (f r); simpl; auto.
        destruct (f r'); simpl; auto. now rewrite E.
    + cbn [lastf]. match goal with |- lastf ?a l = better _ _ (lastf ?b l) =>
        rewrite (lastf_acc l a), (lastf_acc l b) end.
      destruct (lastf None l) as [[sp1 x1]|] eqn:L; simpl.
      * apply lastf_In in L as (r1 & H1 & H2).
        assert (~ lex_lt sp1 sp).
        { intros HL. pose proof (sorted_hd _ _ _ HS H1) as HH. simpl in HH.
          destruct (lex_total sp' sp) as [Hx|[Hx|Hx]].
          - apply spec_lt_iff in Hx. congruence.
          - subst. auto.
          - apply HH. eapply lex_trans; eauto. }
        destruct (f r); simpl; auto. destruct (spec_lt sp1 sp) eqn:E2; auto.
        apply spec_lt_iff in E2. contradiction.
      * destruct (f r'), (f r); simpl; auto. now rewrite E.
Qed.
Lemma lastf_sort : forall l, lastf None (sort_spec l) = bestf l.
Proof.
  induction l as [|[sp r] l IH]; simpl; auto. rewrite lastf_insert by apply sort_sorted. now rewrite IH.
Qed.

Lemma bestf_spec : forall d o (rules : list (rule C)) ms, all_matches d o rules = Ok ms ->
  match bestf ms with
  | None => no_rule d o rules f
  | Some (sp, x) => exists k ru, rule_matches d o rules k ru sp /\ f (ru_spec ru) = Some x /\
      forall k' ru' sp', rule_matches d o rules k' ru' sp' -> f (ru_spec ru') <> None ->
        lex_lt sp' sp \/ sp' = sp /\ k' <= k
  end.
Proof.
  induction rules as [|ru rules IH]; simpl; intros ms E.
  - inversion E; subst. simpl. intros k ru sp [H _]. destruct k; discriminate.
  - destruct (tag_matches d o (ru_sel ru)) as [[m osp]|] eqn:T; [|discriminate]. simpl in E.
    destruct (all_matches d o rules) as [rest|] eqn:A; [|discriminate]. simpl in E.
    specialize (IH rest eq_refl).
    assert (SKIP : (forall sp, tag_matches d o (ru_sel ru) <> Ok (true, Some sp)) \/ f (ru_spec ru) = None ->
      match bestf rest with
      | None => no_rule d o (ru :: rules) f
      | Some (sp, x) => exists k ru0, rule_matches d o (ru :: rules) k ru0 sp /\ f (ru_spec ru0) = Some x /\
          forall k' ru' sp', rule_matches d o (ru :: rules) k' ru' sp' -> f (ru_spec ru') <> None ->
            lex_lt sp' sp \/ sp' = sp /\ k' <= k
      end).
    { intros HS. destruct (bestf rest) as [[sp x]|].
      - destruct IH as (k & ru0 & H1 & H2 & H3). exists (S k), ru0. split; [exact H1|]. split; auto.
        intros [|k'] ru' sp' [N1 N2] N3.
        + simpl in N1. inversion N1; subst. destruct HS; [exfalso; eapply H; eauto|congruence].
        + destruct (H3 k' ru' sp' (conj N1 N2) N3) as [|[]]; auto. right. split; auto; lia.
      - intros [|k] ru0 sp [N1 N2].
        + simpl in N1. inversion N1; subst. destruct HS; auto. exfalso. eapply H; eauto.
        + eapply IH. split; eauto. }
    destruct m, osp as [sp|]; inversion E; subst ms; clear E; try (apply SKIP; left; congruence).
    simpl. destruct (f (ru_spec ru)) as [x|] eqn:F; simpl; [|apply SKIP; auto].
    destruct (bestf rest) as [[sp' x']|].
    + destruct IH as (k & ru0 & H1 & H2 & H3). destruct (spec_lt sp' sp) eqn:L.
      * apply spec_lt_iff in L. exists 0, ru. split; [split; auto|]. split; auto.
        intros [|k'] ru' sp2 [N1 N2] N3.
        -- simpl in N1. inversion N1; subst. right. split; auto; congruence.
        -- left. destruct (H3 k' ru' sp2 (conj N1 N2) N3) as [Hx|[-> _]]; auto. eapply lex_trans; eauto.
      * exists (S k), ru0. split; [exact H1|]. split; auto.
        intros [|k'] ru' sp2 [N1 N2] N3.
        -- simpl in N1. inversion N1; subst. assert (sp2 = sp) by congruence. subst.
           destruct (lex_total sp' sp) as [Hx|[Hx|Hx]]; auto.
           ++ apply spec_lt_iff in Hx. congruence.
           ++ right. split; auto. lia.
        -- destruct (H3 k' ru' sp2 (conj N1 N2) N3) as [|[]]; auto. right. split; auto; lia.
    + exists 0, ru. split; [split; auto|]. split; auto.
      intros [|k'] ru' sp2 [N1 N2] N3.
      * simpl in N1. inversion N1; subst. right. split; auto; congruence.
      * exfalso. apply N3. eapply IH. split; eauto.
Qed.
End Casc.

Section Comb.
Context {C : Type}.
Implicit Types (l : list (spec3 * rspec C)).
Lemma combine_class : forall l acc,
  fst (combine_specs acc l) =
  match lastf rule_renderer None l with Some (_, c) => Some c | None => fst acc end.
Proof.
  induction l as [|[sp r] l IH]; simpl; intros; auto. rewrite IH. simpl.
  match goal with |- _ = match lastf _ ?a l with _ => _ end => rewrite (lastf_acc _ l a) end.
  destruct (lastf rule_renderer None l) as [[]|]; auto.
  change (rspec_class r) with (rule_renderer r).
  destruct (rule_renderer r); auto.
Qed.
Lemma combine_setting : forall key l acc,
  (forall sp c s, In (sp, RPair c (Some s)) l -> NoDup (dkeys s)) ->
  dget key (snd (combine_specs acc l)) =
  match lastf (rule_setting key) None l with Some (_, v) => Some v | None => dget key (snd acc) end.
Proof.
  induction l as [|[sp r] l IH]; simpl; intros acc H; auto.
  rewrite IH by (intros; eapply H; right; eauto). simpl.
  match goal with |- _ = match lastf _ ?a l with _ => _ end => rewrite (lastf_acc _ l a) end.
  destruct (lastf (rule_setting key) None l) as [[]|] eqn:E; simpl.
  - auto.
  - destruct r as [c|c [s|]]; simpl; auto.
    rewrite dget_dupdate by (eapply H; left; eauto). destruct (dget key s); auto.
Qed.
Lemma sort_In : forall l x, In x (sort_spec l) -> In x l.
Proof.
  induction l as [|y l IH]; simpl; intros x H; auto. apply insert_In in H as [-> |H]; auto.
Qed.
Lemma all_matches_In : forall d o (rules : list (rule C)) ms, all_matches d o rules = Ok ms ->
  forall sp r, In (sp, r) ms -> exists ru, In ru rules /\ ru_spec ru = r.
Proof.
  induction rules as [|ru rules IH]; simpl; intros ms E sp r H.
  - inversion E; subst. destruct H.
  - destruct (tag_matches d o (ru_sel ru)) as [[m osp]|]; [|discriminate]. simpl in E.
    destruct (all_matches d o rules) as [rest|]; [|discriminate]. simpl in E.
    assert (In (sp, r) rest -> exists ru0, (ru = ru0 \/ In ru0 rules) /\ ru_spec ru0 = r).
    { intros HI. destruct (IH _ eq_refl _ _ HI) as (ru0 & ? & ?). eauto. }
    destruct m, osp; inversion E; subst; auto. destruct H as [H|H]; auto. inversion H; subst. eauto.
Qed.

Lemma winner_of_best : forall X (f : rspec C -> option X) d o rules ms, all_matches d o rules = Ok ms ->
  match lastf f None (sort_spec ms) with
  | Some (_, x) => exists k, winner d o rules f k x
  | None => no_rule d o rules f
  end.
Proof.
  intros. rewrite lastf_sort. pose proof (bestf_spec f _ _ _ _ H) as B.
  destruct (bestf f ms) as [[sp x]|]; auto. destruct B as (k & ru & H1 & H2 & H3).
  exists k, ru, sp. auto.
Qed.

Lemma get_for_tag_spec : forall d o (rules : list (rule C)) r, rules_ok rules ->
  get_for_tag d o rules = Ok r ->
  match r with
  | None => no_rule d o rules rule_renderer
  | Some (c, st) =>
      (exists k, winner d o rules rule_renderer k c)
      /\ forall key, match dget key st with
                     | Some v => exists k, winner d o rules (rule_setting key) k v
                     | None => no_rule d o rules (rule_setting key)
                     end
  end.
Proof.
  intros d o rules r HK E. unfold get_for_tag in E.
  destruct (all_matches d o rules) as [ms|] eqn:A; [|discriminate]. simpl in E.
  pose proof (combine_class (sort_spec ms) (None, [])) as HC.
  assert (HS := fun key => combine_setting key (sort_spec ms) (None, [])).
  destruct (combine_specs (None, []) (sort_spec ms)) as [c st]. simpl in HC, HS. subst c.
  pose proof (winner_of_best _ rule_renderer _ _ _ _ A) as W.
  destruct (lastf rule_renderer None (sort_spec ms)) as [[sp c]|]; inversion E; subst; auto.
  split; auto. intros key. specialize (HS key).
  rewrite HS.
  2:{ intros sp0 c0 s HI. apply sort_In in HI. destruct (all_matches_In _ _ _ _ A _ _ HI) as (ru & H1 & H2).
      eapply HK; eauto. }
  pose proof (winner_of_best _ (rule_setting key) _ _ _ _ A) as W2.
  destruct (lastf (rule_setting key) None (sort_spec ms)) as [[sp0 v]|]; auto.
Qed.
End Comb.

(** ** Text and the root never match *)
Definition blank_obj (d : dom) (o : obj) : Prop :=
  match o with ORoot => True | ONode i => exists n s, node_at d i = Some n /\ n_data n = Some s end.
Lemma blank_no_match : forall d o, blank_obj d o -> forall s, selector_matches d s o = Ok false.
Proof.
  intros d o H.
  assert (E : forall nm, element_matches d o nm = false).
  { intros. destruct o; auto. destruct H as (n & s & H1 & H2). unfold element_matches, is_data.
    now rewrite H1, H2. }
  assert (D : o = ORoot \/ is_data d o = true).
  { destruct o; auto. destruct H as (n & s & H1 & H2). right. simpl. now rewrite H1, H2. }
  induction s; cbn [selector_matches].
  - now rewrite E.
  - destruct o; auto. destruct (node_at d i); auto. destruct D as [D|D]; [discriminate|]. now rewrite D.
  - destruct o; auto. destruct (node_at d i); auto. destruct D as [D|D]; [discriminate|]. rewrite D.
    destruct (n_id n); auto.
  - rewrite IHs1. destruct (is_data d o); auto.
  - now rewrite IHs.
  - destruct D as [-> |D]; simpl.
    + destruct (seqb ident (lit "first-child") || seqb ident (lit "last-child")); auto.
    + rewrite D. destruct (seqb ident (lit "first-child") || seqb ident (lit "last-child")); auto.
      destruct (parent_of d o); auto.
  - destruct D as [-> |D]; simpl.
    + destruct (seqb name (lit "nth-child") || seqb name (lit "nth-last-child")); auto.
    + rewrite D. destruct (seqb name (lit "nth-child") || seqb name (lit "nth-last-child")); auto.
      destruct (parent_of d o); auto.
  - rewrite IHs2. simpl.
    destruct (seqb comb (lit " ")); auto. destruct (parent_of d o); 
    destruct (seqb comb (lit ">")); auto; destruct (seqb comb (lit "~")); auto;
    destruct (seqb comb (lit "+")); auto.
  - auto.
Qed.

(** ** Integers in selectors *)
Lemma digits_acc : forall u p,
  digits_val 10 (Npos p) dec_digit (uint_str u) = Some (Npos (Pos.of_uint_acc u p)).
Proof.
  induction u; intros p; [reflexivity|..];
  (cbn [uint_str digits_val Pos.of_uint_acc];
   match goal with |- context [dec_digit ?c] =>
     let v := eval vm_compute in (dec_digit c) in change (dec_digit c) with v end; cbn iota;
   rewrite <- IHu; f_equal; lia).
Qed.
Lemma digits_uint : forall u, digits_val 10 0 dec_digit (uint_str u) = Some (Pos.of_uint u).
Proof.
  induction u; [reflexivity|..];
  (cbn [uint_str digits_val Pos.of_uint];
   match goal with |- context [dec_digit ?c] =>
     let v := eval vm_compute in (dec_digit c) in change (dec_digit c) with v end; cbn iota;
   first [exact IHu | apply digits_acc]).
Qed.
Lemma uint_str_digits : forall u, Forall (fun c => 48 <= c <= 57)%N (uint_str u).
Proof. induction u; simpl; constructor; auto; lia. Qed.
Lemma digit_not_space : forall c, (48 <= c <= 57)%N -> is_space c = false.
Proof.
  intros. unfold is_space. repeat rewrite orb_false_iff. repeat rewrite andb_false_iff.
  repeat rewrite N.leb_gt. repeat rewrite N.eqb_neq. lia.
Qed.
Lemma strip_uint : forall u, strip (uint_str u) = uint_str u.
Proof.
  intros. pose proof (uint_str_digits u) as H. rewrite Forall_forall in H.
  assert (A : forall s, (forall c, In c s -> is_space c = false) -> strip s = s).
  { intros s HS. unfold strip.
    assert (B : lstrip s = s).
    { unfold lstrip. destruct s as [|c s]; auto. simpl. now rewrite (HS c) by (simpl; auto). }
    rewrite B. unfold rstrip.
    assert (Cc : forall t, (forall c, In c t -> is_space c = false) -> drop_while is_space t = t).
    { intros [|c t] HT; auto. simpl. now rewrite (HT c) by (simpl; auto). }
    rewrite Cc; [apply rev_involutive|]. intros c Hc. apply HS. now apply in_rev. }
  apply A. intros c Hc. apply digit_not_space. auto.
Qed.
Lemma py_int_str : forall k, (1 <= k)%Z -> py_int (str_of_Z k) = Ok k.
Proof.
  intros k Hk. destruct k as [|p|p]; try lia. unfold py_int, str_of_Z.
  change (Z.to_int (Z.pos p)) with (Decimal.Pos (Pos.to_uint p)). cbn iota.
  rewrite strip_uint. pose proof (uint_str_digits (Pos.to_uint p)) as HD.
  pose proof (digits_uint (Pos.to_uint p)) as E. rewrite DecimalPos.Unsigned.of_to in E.
  destruct (uint_str (Pos.to_uint p)) as [|c r]; [discriminate|].
  inversion HD; subst.
  destruct c as [|q]; [lia|].
  do 7 (try match goal with |- context [match ?p with xI _ => _ | xO _ => _ | xH => _ end] => destruct p end);
  first [exfalso; lia | rewrite E; reflexivity].
Qed.
