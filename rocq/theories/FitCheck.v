(** Deciding that the settings of each rule suit the renderers of the elements they
    can reach, whatever the page. *)
From Verif Require ShapeCheck.
From Verif Require Import WrapFacts WrapLoop WrapWidth.
From Verif Require Import BaseFacts StrFacts SelFacts DressFacts StyleRules StyleShow.
From Verif Require Export SafeCheck.
Open Scope Z_scope.

Section S.
Context `{U : Uni}.
(** Two groups of selectors that can reach one element. *)
Definition can_meet (l m : list selector) : bool :=
  existsb (fun s => existsb (fun s' => match subject (sl_tree s), subject (sl_tree s') with Some a, Some b => seqb a b | _, _ => true end) m) l.
Lemma meet : forall l m before i t a kids after up sp sp', let z := Spot before (Tag i t a kids) after :: up in reaches l z sp -> reaches m z sp' -> can_meet l m = true.
Proof.
  intros l m before i t a kids after up sp sp' z (s & J & Y & _) (s' & J' & Y' & _). unfold can_meet. apply existsb_exists. exists s. split; auto. apply existsb_exists. exists s'. split; auto.
  destruct (subject (sl_tree s)) as [x|] eqn:E; auto. destruct (subject (sl_tree s')) as [y|] eqn:E'; auto.
  pose proof (subject_judged _ _ _ _ _ _ _ _ _ Y E) as <-. pose proof (subject_judged _ _ _ _ _ _ _ _ _ Y' E') as <-. apply seqb_refl.
Qed.
Definition spec_fits (k : kind) (r : rspec rcls) : bool := ShapeCheck.spec_values_check k r && spec_good_check k r.
Lemma spec_fitting : forall k r, spec_fits k r = true -> forall key v, rule_setting key r = Some v -> shape_of k key v /\ good_value k key v.
Proof.
  intros k r H key v E. apply andb_prop in H as [H1 H2]. destruct r as [|c [s|]]; try discriminate E. cbn [ShapeCheck.spec_values_check spec_good_check rule_setting] in *.
  split; [eapply ShapeCheck.values_checked; eauto|eapply values_good; eauto].
Qed.
Definition class_fits (cl : rcls) : bool := ShapeCheck.class_check cl && class_good_check cl.
Definition fit_check (g : cfg) : bool :=
  match rule_renderer (g_default g) with Some cl => suits_all (rc_kind cl) && class_fits cl && spec_fits (rc_kind cl) (g_default g) | None => false end
  && forallb (fun ru => match rule_renderer (ru_spec ru) with
                        | Some cl => class_fits cl && suits_check ru
                                     && forallb (fun ru' => negb (can_meet (ru_sel ru) (ru_sel ru')) || spec_fits (rc_kind cl) (ru_spec ru')) (g_rules g)
                        | None => true
                        end) (g_rules g)
  && forallb (fun r => match rule_renderer r with Some cl => class_fits cl && (match rc_kind cl with KMdHeader => false | _ => true end) | None => true end)
       ((match g_ext_a g with Some r => [r] | None => [] end) ++ map (@ru_spec rcls) (g_ext_rules g))
  && existsb (lists_tag "a") (g_ext_rules g) && existsb (lists_tag "img") (g_ext_rules g).
Lemma fit_page : forall g F, fit_check g = true -> shaped_page g F /\ good_page g F.
Proof.
  intros g F H. unfold fit_check in H. apply andb_prop in H as [H H5]. apply andb_prop in H as [H H4]. apply andb_prop in H as [H H3]. apply andb_prop in H as [H1 H2].
  rewrite forallb_forall in H2, H3. destruct (rule_renderer (g_default g)) as [dcl|] eqn:DR; [|discriminate]. apply andb_prop in H1 as [H1 D3]. apply andb_prop in H1 as [D1 D2].
  assert (ST : forall before i t a kids after up cl over, let z := Spot before (Tag i t a kids) after :: up in styled (g_rules g) (g_default g) z cl over ->
    class_fits cl = true /\ suits cl t /\ forall key v, dget key over = Some v -> shape_of (rc_kind cl) key v /\ good_value (rc_kind cl) key v).
  { intros before i t a kids after up cl over z [[(k & ru & sp & N & R & E & _) V]|[_ D]].
    - apply nth_error_In in N. specialize (H2 ru N). cbv beta in H2. rewrite E in H2. apply andb_prop in H2 as [H2 A3]. apply andb_prop in H2 as [A1 A2]. split; auto. split; [eapply suits_checked; eauto|].
      intros key v X. specialize (V key). rewrite X in V. destruct V as (k' & ru' & sp' & N' & R' & E' & _). apply nth_error_In in N'. rewrite forallb_forall in A3. specialize (A3 ru' N').
      rewrite (meet _ _ _ _ _ _ _ _ _ _ _ R R') in A3. cbn [negb orb] in A3. eapply spec_fitting; eauto.
    - assert (dcl = cl) by (destruct (g_default g); destruct D as [-> _]; cbn [rule_renderer] in DR; congruence). subst dcl. split; auto. split; [now apply suits_any|].
      intros key v X. apply (spec_fitting _ _ D3). destruct (g_default g) as [c|c [s|]]; destruct D as [_ ->]; try discriminate X. exact X. }
  assert (LT : forall z cl, listed_by g z cl -> class_fits cl = true /\ rc_kind cl <> KMdHeader).
  { intros z cl L. assert (J : exists r, In r ((match g_ext_a g with Some r => [r] | None => [] end) ++ map (@ru_spec rcls) (g_ext_rules g)) /\ rule_renderer r = Some cl).
    { destruct L as [(k & ru & sp & N & _ & E & _)|[_ (s & E)]].
      - exists (ru_spec ru). split; auto. apply in_or_app. right. apply in_map. eapply nth_error_In; eauto.
      - exists (RPair (Some cl) s). split; auto. apply in_or_app. left. rewrite E. now left. }
    destruct J as (r & J & E). specialize (H3 r J). cbv beta in H3. rewrite E in H3. apply andb_prop in H3 as [A B]. split; auto. intros K. rewrite K in B. discriminate. }
  split; split.
  - intros before i t a kids after up cl over z _ S. destruct (ST _ _ _ _ _ _ _ _ _ S) as (A & _ & B). apply andb_prop in A as [A _]. split; [now apply ShapeCheck.class_checked|]. intros _ key v E. exact (proj1 (B key v E)).
  - intros z cl _ _ L. destruct (LT _ _ L) as [A _]. apply andb_prop in A as [A _]. now apply ShapeCheck.class_checked.
  - intros before i t a kids after up z _ [_ D]. destruct (g_default g); cbn [rule_renderer] in DR; congruence.
  - intros before i t a kids after up cl over z _ S. destruct (ST _ _ _ _ _ _ _ _ _ S) as (A & B & C). apply andb_prop in A as [_ A]. split; [now apply class_good|]. split; auto. intros _ key v E. exact (proj2 (C key v E)).
  - intros z _ L ex [SI _]. destruct z as [|[before [i t a kids|] after] up]; try discriminate L. cbn [at_link] in L. apply orb_prop in L as [L|L]; apply seqb_eq in L; subst t; [eapply lists_not_silent; [exact H4|exact SI]|eapply lists_not_silent; [exact H5|exact SI]].
  - intros z cl _ _ L. destruct (LT _ _ L) as [A B]. apply andb_prop in A as [_ A]. split; [now apply class_good|exact B].
Qed.
End S.
Close Scope Z_scope.
