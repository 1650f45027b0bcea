(** With good tables a page fails only where text has no room, and there it does. *)
From Verif Require SetFacts SetHang SgrFacts FormatMain FormatProps SgrProps.
From Verif Require Import WrapFacts WrapLoop WrapWidth.
From Verif Require Import BaseFacts StrFacts SelFacts CssFacts SettingsFacts DressFacts StyleRules StyleShow ShapeMain.
From Verif Require Export SafeFacts.
Open Scope Z_scope.

Section S.
Context `{U : Uni}.
Variables (g : cfg) (F : list tree).

(** ** What is given *)
Lemma styled_from : forall z cl over, styled (g_rules g) (g_default g) z cl over ->
  (exists r, in_table g r /\ names r cl) /\ forall key v, dget key over = Some v -> exists r, in_table g r /\ rule_setting key r = Some v.
Proof.
  intros z cl over [[W V]|[_ D]].
  - split.
    + destruct W as (k & ru & sp & N & _ & E & _). exists (ru_spec ru). split; [right; eauto using nth_error_In|exact E].
    + intros key v E. specialize (V key). rewrite E in V. destruct V as (k & ru & sp & N & _ & E' & _). exists (ru_spec ru). split; [right; eauto using nth_error_In|exact E'].
  - split.
    + exists (g_default g). split; [now left|]. unfold names. destruct (g_default g); destruct D as [-> _]; reflexivity.
    + intros key v E. exists (g_default g). split; [now left|]. destruct (g_default g) as [c|c [s|]]; destruct D as [_ ->]; try discriminate E. exact E.
Qed.
Lemma listed_from : forall z cl, listed_by g z cl -> exists r, in_list_table g r /\ names r cl.
Proof.
  intros z cl [(k & ru & sp & N & _ & E & _)|[_ (s & E)]].
  - exists (ru_spec ru). split; [right; eauto using nth_error_In|exact E].
  - exists (RPair (Some cl) s). split; [now left|reflexivity].
Qed.
Lemma ansi_there : forall cl tg index over s, good_class cl -> settled cl tg index over s -> rc_kind cl = KAnsi ->
  SgrSpec.effects_set s /\ forall key, In key ["normalise"; "font"; "foreground_colour"; "background_colour"]%string -> dget (lit key) s <> None.
Proof.
  intros cl tg index over s [_ G] (under & above & _ & S) K. rewrite K in G. destruct G as [G1 G2].
  assert (A : forall key, dget key (class_settings cl) <> None -> dget key s <> None).
  { intros key N. rewrite S. cbn [inherited]. destruct (dget key above); [discriminate|]. destruct (dget key over); [discriminate|]. destruct (dget key under); [discriminate|]. destruct (dget key (class_settings cl)); [discriminate|congruence]. }
  split; [intros e J; apply A; exact (G1 e J)|intros key J; apply A; exact (G2 key J)].
Qed.
Definition own_total (k : kind) : Prop := match k with KOwn o | KOwnBlock o => forall v c, exists out, ow_method o v c = Ok out | _ => True end.
Lemma good_own : forall cl, good_class cl -> own_total (rc_kind cl).
Proof. intros cl [_ G]. unfold own_total. destruct (rc_kind cl); auto. Qed.
(** Places on the page are places of the document, and those listed are links. *)
Lemma placed_all : forall listed z page, placed_in g F listed z page -> In z (all_places [] [] F).
Proof.
  intros listed z page H. induction H.
  - now apply spots_in_all.
  - now apply filter_In in H0.
  - eapply inner_in_all; eauto.
  - apply filter_In in H3 as [H3 _]. eapply inner_in_all; eauto.
Qed.
Lemma put_link : forall w z, listed_at g w z = true -> at_link z = true.
Proof. intros w [|[b [i t a kids|] c] up] H; try discriminate H. cbn [listed_at sp_here put] in H. unfold at_link. apply andb_prop in H as [H _]. exact H. Qed.
Lemma placed_link : forall z page, placed_in g F true z page -> at_link z = true.
Proof.
  intros z page H. inversion H; subst.
  - match goal with X : In _ (filter _ _) |- _ => apply filter_In in X as [_ X]; eapply put_link; exact X end.
  - match goal with X : In _ (filter _ _) |- _ => apply filter_In in X as [_ X]; eapply put_link; exact X end.
Qed.
Lemma good_tables_page : good_tables g -> good_page g F.
Proof.
  intros GT. split.
  - intros before i t a kids after up z _ [_ D]. apply (gt_default _ GT). destruct (g_default g); rewrite D; reflexivity.
  - intros before i t a kids after up cl over z _ ST. destruct (styled_from _ _ _ ST) as [(r & R & N) OV]. destruct (gt_classes _ GT _ _ R N) as [GC GR]. split; auto. split.
    + destruct ST as [[(k & ru & sp & K & K2 & E & _) _]|[_ D]].
      * eapply (gt_suits _ GT); eauto using nth_error_In.
      * apply (gt_any _ GT). unfold names. destruct (g_default g); destruct D as [-> _]; reflexivity.
    + intros _ key v E. destruct (OV key v E) as (r' & R' & E'). eauto.
  - intros z _ L ex [Q Y]. destruct z as [|[before [i t a kids|] after] up]; try discriminate L. destruct (gt_listed _ GT before i t a kids after up L) as [K|(cl & s & K)]; [contradiction|rewrite K in Y; contradiction].
  - intros z cl _ _ L. destruct (listed_from _ _ L) as (r & R & N). exact (gt_list_classes _ GT _ _ R N).
Qed.
Lemma given_good : good_page g F -> forall listed z page cl s, placed_in g F listed z page -> given g listed z cl s ->
  good_class cl /\ good_settings (rc_kind cl) s
  /\ (rc_kind cl = KAnsi -> SgrSpec.effects_set s /\ forall key, In key ["normalise"; "font"; "foreground_colour"; "background_colour"]%string -> dget (lit key) s <> None)
  /\ own_total (rc_kind cl).
Proof.
  intros GT listed z page cl s P G. pose proof (placed_all _ _ _ P) as IN. destruct z as [|[before [i t a kids|] after] up]; try contradiction. cbn [given] in G. destruct listed.
  - destruct G as [L S]. destruct (gp_list_classes _ _ GT _ _ IN (placed_link _ _ P) L) as [GC _]. split; auto. split; [eapply settled_good; eauto; discriminate|]. split; [eapply ansi_there; eauto|now apply good_own].
  - destruct G as (over & ST & S). destruct (gp_classes _ _ GT _ _ _ _ _ _ _ _ _ IN ST) as (GC & _ & OV). split; auto. split; [|split; [eapply ansi_there; eauto|now apply good_own]].
    eapply settled_good; eauto. intros key v E. destruct (shown_inline g t); [discriminate|]. eauto.
Qed.

(** ** Only where there is no room *)
Lemma narrow_cramped : forall listed z page cl s ex, given g listed z cl s -> lays_out (rc_kind cl) s z -> narrow s page ex -> cramped g listed z page ex.
Proof. intros listed z page cl s ex G L (w & a & b & C & [[W ->]|(W & AB & ->)]); [eapply cr_none|eapply cr_indent]; eauto. Qed.
Lemma list_told : forall t k i z, told_enough k (Some (link_context g i)) (Some (link_details g t z)).
Proof. intros t k i z. unfold told_enough. destruct k; auto; try (eexists; split; [reflexivity|discriminate]); split; discriminate. Qed.
Theorem breaks_cramped : good_page g F -> forall listed z page ex, breaks g F listed z page ex -> placed_in g F listed z page ->
  exists listed' z' page', placed_in g F listed' z' page' /\ cramped g listed' z' page' ex.
Proof.
  intros GT listed z page ex H. induction H; intros P; pose proof (placed_all _ _ _ P) as IN.
  - exfalso. eapply (gp_styled _ _ GT); eauto.
  - exfalso. match goal with X : styled _ _ _ _ _ |- _ => destruct (gp_classes _ _ GT _ _ _ _ _ _ _ _ _ IN X) as (GC & SU & _) end. eapply settled_settles; eauto.
  - apply IHbreaks. eapply in_place with (z := z); [exact P| | |]; [exists over; split; eassumption|eassumption|].
    match goal with X : inner_spots _ = _ |- _ => rewrite X end. apply in_or_app. right. now left.
  - apply IHbreaks. eapply in_list; [exact P|assumption| | |].
    + exists over. split; [eassumption|]. match goal with X : shown_inline g t = false |- _ => rewrite X end. eassumption.
    + eassumption.
    + fold z. match goal with X : filter _ _ = _ |- _ => rewrite X end. apply in_or_app. right. now left.
  - assert (G : given g false z cl s). { exists over. split; [eassumption|]. match goal with X : shown_inline g t = false |- _ => rewrite X end. eassumption. }
    destruct (given_good GT _ _ _ _ _ P G) as (GC & GS & AN & OW). match goal with X : styled _ _ _ _ _ |- _ => destruct (gp_classes _ _ GT _ _ _ _ _ _ _ _ _ IN X) as (_ & SU & _) end.
    assert (TE : told_enough (rc_kind cl) (if is_link_tag t then Some (link_context g (reference g F i)) else None) None).
    { unfold suits in SU. unfold told_enough. destruct (rc_kind cl); auto; try contradiction; subst t; eexists; (split; [reflexivity|]); intros _ E;
        match goal with X : shown_inline g _ = false |- _ => unfold shown_inline, placement, is_link_tag, is_a, is_img in X; cbn [link_context lc_link_placement lc_image_placement] in E; rewrite E in X; vm_compute in X; discriminate X end. }
    match goal with X : trips _ _ _ _ _ _ _ _ _ _ _ |- _ => destruct (no_trip _ _ _ _ _ _ _ _ _ _ _ GS TE AN OW X) as [NA LO] end.
    exists false, z, page. split; auto. eapply narrow_cramped; eauto.
  - assert (G : given g false z cl s). { exists over. split; [eassumption|]. match goal with X : shown_inline g t = true |- _ => rewrite X end. eassumption. }
    destruct (given_good GT _ _ _ _ _ P G) as (GC & GS & AN & OW).
    match goal with X : trips _ _ _ _ _ _ _ _ _ _ _ |- _ => destruct (no_trip _ _ _ _ _ _ _ _ _ _ _ GS (list_told _ _ _ _) AN OW X) as [NA LO] end.
    exists false, z, page. split; auto. eapply narrow_cramped; eauto.
  - exfalso. eapply (gp_listed _ _ GT); eauto.
  - exfalso. match goal with X : listed_by _ _ _ |- _ => destruct (gp_list_classes _ _ GT _ _ IN ltac:(assumption) X) as [GC NM] end. eapply settled_settles; eauto.
  - apply IHbreaks. eapply in_place with (z := z); [exact P| | |]; [split; eassumption|eassumption|].
    match goal with X : inner_spots _ = _ |- _ => rewrite X end. apply in_or_app. right. now left.
  - assert (G : given g true z cl s) by (split; assumption).
    destruct (given_good GT _ _ _ _ _ P G) as (GC & GS & AN & OW).
    match goal with X : trips _ _ _ _ _ _ _ _ _ _ _ |- _ => destruct (no_trip _ _ _ _ _ _ _ _ _ _ _ GS (list_told _ _ _ _) AN OW X) as [NA LO] end.
    exists true, z, page. split; auto. eapply narrow_cramped; eauto.
Qed.
Theorem broken_cramped : good_page g F -> forall ex, broken_page g F ex ->
  exists listed z page, placed_in g F listed z page /\ cramped g listed z page ex.
Proof.
  intros GT ex [(ys & y & rest & parts & E & _ & B)|(ys & y & rest & parts & entries & L & _ & E & _ & B)]; eapply breaks_cramped; eauto; [apply in_body|apply in_foot; auto]; rewrite E; apply in_or_app; right; now left.
Qed.

(** ** Without indents *)
Lemma given_flush : flush_tables g -> forall listed z cl s, given g listed z cl s -> flush s.
Proof.
  intros [FC FR] listed z cl s G.
  assert (SE : forall tg index over, flush (class_settings cl) -> (forall key n, In key ["initial_indent"; "subsequent_indent"]%string -> dget (lit key) over = Some (VInt n) -> n <= 0) ->
    settled cl tg index over s -> flush s).
  { intros tg index over C O (under & above & CO & S) key n J E. unfold int_set in E. rewrite S in E. cbn [inherited] in E.
    assert (N : forall v : val, In key ["initial_indent"; "subsequent_indent"]%string -> dget (lit key) [(lit "template", v)] = None /\ dget (lit key) [(lit "line_template", v)] = None)
      by (intros v X; clear - X; destruct X as [<-|[<-|[]]]; split; vm_compute; reflexivity).
    assert (AU : dget (lit key) above = None /\ dget (lit key) under = None).
    { unfold computed in CO. destruct (rc_kind cl); try (destruct CO as [-> ->]; auto); [destruct CO as (m & _ & -> & ->)|destruct CO as (m & _ & -> & ->)]; split; try reflexivity; apply N; auto. }
    destruct AU as [A1 A2]. rewrite A1, A2 in E. destruct (dget (lit key) over) as [v|] eqn:EO; [injection E as ->; eauto|]. destruct (dget (lit key) (class_settings cl)) as [v|] eqn:EC; [|discriminate]. injection E as ->. exact (C key n J EC). }
  destruct z as [|[before [i t a kids|] after] up]; try contradiction. cbn [given] in G. destruct listed.
  - destruct G as [L S]. destruct (listed_from _ _ L) as (r & R & N). eapply SE; [eauto| |exact S]. discriminate.
  - destruct G as (over & ST & S). destruct (styled_from _ _ _ ST) as [(r & R & N) OV]. eapply SE; [eauto| |exact S]. intros key n J E. destruct (shown_inline g t); [discriminate|]. destruct (OV _ _ E) as (r' & R' & E'). eauto.
Qed.
Lemma flush_tables_page : flush_tables g -> flush_page g F.
Proof. intros FT listed z page cl s _ G. eapply given_flush; eauto. Qed.
Lemma flush_value : flush_page g F -> forall listed z page ex, placed_in g F listed z page -> cramped g listed z page ex -> ex = EValue.
Proof.
  intros FT listed z page ex P H. destruct H as [|cl s w a b G LO (x & t & j & cfg & _ & _ & _ & _ & WR & _ & -> & ->) W AB]; auto. exfalso. pose proof (FT _ _ _ _ _ P G) as FL.
  destruct WR as ((n & N & E1) & (m & M & E2) & _). pose proof (FL _ _ (or_introl eq_refl) N). pose proof (FL _ _ (or_intror (or_introl eq_refl)) M).
  rewrite E1, E2, !BaseFacts.len_spaces in AB. lia.
Qed.
End S.
Close Scope Z_scope.
