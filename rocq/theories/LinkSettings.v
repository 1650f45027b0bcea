(** Settings in the table of extracted links have no effect. *)
From Verif Require Import BaseFacts StrFacts SelFacts RenderFacts.
From Verif Require Export LinkSpec.
Section S.
Context `{U : Uni}.

Definition res_rel {A B} (R : A -> B -> Prop) (a : res A) (b : res B) : Prop :=
  match a, b with Ok x, Ok y => R x y | Err e, Err e' => e = e' | _, _ => False end.
Lemma res_rel_eq : forall {A} (a b : res A), res_rel eq a b -> a = b.
Proof. intros A [a|e] [b|e'] H; simpl in H; subst; auto; contradiction. Qed.
Lemma res_rel_refl : forall {A} (R : A -> A -> Prop) (a : res A), (forall x, R x x) -> res_rel R a a.
Proof. intros A R [a|e] H; simpl; auto. Qed.
Lemma bind_rel : forall {A B C D} (R : A -> B -> Prop) (S : C -> D -> Prop) a b f h,
  res_rel R a b -> (forall x y, R x y -> res_rel S (f x) (h y)) -> res_rel S (bind a f) (bind b h).
Proof. intros A B C D R S [a|e] [b|e'] f h H K; simpl in *; subst; auto; contradiction. Qed.

Definition same_rule (r r' : rule rcls) : Prop := ru_sel r = ru_sel r' /\ same_renderer (ru_spec r) (ru_spec r').
Definition match_rel (m m' : spec3 * rspec rcls) : Prop := fst m = fst m' /\ same_renderer (snd m) (snd m').
Lemma all_matches_rel : forall d o rs rs', Forall2 same_rule rs rs' ->
  res_rel (Forall2 match_rel) (all_matches d o rs) (all_matches d o rs').
Proof.
  induction 1 as [|r r' rs rs' [H1 H2] _ IH]; simpl; [constructor|]. rewrite <- H1.
  destruct (tag_matches d o (ru_sel r)) as [[m sp]|e]; simpl; auto.
  eapply bind_rel; [exact IH|]. intros x y F. destruct m, sp; simpl; auto. constructor; auto. split; auto.
Qed.
Lemma insert_rel : forall x x' l l', match_rel x x' -> Forall2 match_rel l l' -> Forall2 match_rel (insert_spec x l) (insert_spec x' l').
Proof.
  intros x x' l l' H F. induction F as [|y y' l l' [K1 K2] F IH]; simpl; [constructor; auto|].
  pose proof H as [H1 H2]. rewrite <- K1, <- H1. destruct (spec_lt (fst y) (fst x)); constructor; auto; try (split; auto). constructor; auto. split; auto.
Qed.
Lemma sort_rel : forall l l', Forall2 match_rel l l' -> Forall2 match_rel (sort_spec l) (sort_spec l').
Proof. induction 1; simpl; [constructor|]. now apply insert_rel. Qed.
Lemma combine_rel : forall l l', Forall2 match_rel l l' -> forall a a', fst a = fst a' -> fst (combine_specs a l) = fst (combine_specs a' l').
Proof.
  induction 1 as [|[k r] [k' r'] l l' [H1 H2] _ IH]; intros a a' E; simpl; auto. apply IH. simpl. simpl in H2.
  destruct r, r'; simpl in *; try contradiction; subst; now rewrite E.
Qed.
Lemma get_rel : forall d o rs rs', Forall2 same_rule rs rs' ->
  res_rel (fun x y => option_map fst x = option_map fst y) (get_for_tag d o rs) (get_for_tag d o rs').
Proof.
  intros d o rs rs' F. unfold get_for_tag. eapply bind_rel; [now apply all_matches_rel|]. intros x y G. apply sort_rel in G.
  pose proof (combine_rel _ _ G (None, []) (None, []) eq_refl) as E. destruct (combine_specs _ (sort_spec x)) as [c s], (combine_specs _ (sort_spec y)) as [c' s'].
  simpl in *. subst c'. now destruct c.
Qed.

(** Configurations that differ there only. *)
Record same_cfg (g g' : cfg) : Prop := {
  sc_box : g_box g = g_box g'; sc_format : g_format g = g_format g'; sc_link : g_link g = g_link g'; sc_image : g_image g = g_image g';
  sc_host : g_host g = g_host g'; sc_port : g_port g = g_port g'; sc_rules : g_rules g = g_rules g'; sc_default : g_default g = g_default g';
  sc_opt : g_optimise g = g_optimise g'; sc_ext : Forall2 same_rule (g_ext_rules g) (g_ext_rules g');
  sc_a : match g_ext_a g, g_ext_a g' with Some r, Some r' => same_renderer r r' | None, None => True | _, _ => False end }.
Definition same_asg (a a' : asg) : Prop :=
  a_rend a = a_rend a' /\ a_settings a = a_settings a' /\ a_lrend a = a_lrend a'
  /\ match a_lsettings a, a_lsettings a' with Some _, Some _ => True | None, None => True | _, _ => False end.
Definition same_asgs (l l' : asgs) : Prop := Forall2 (fun p q => fst p = fst q /\ same_asg (snd p) (snd q)) l l'.
Lemma asg_get_rel : forall l l', same_asgs l l' -> forall i, same_asg (asg_get i l) (asg_get i l').
Proof.
  induction 1 as [|[j a] [j' a'] l l' [H1 H2] _ IH]; intros i; simpl; [repeat split|]. simpl in H1. subst j'. destruct (Nat.eqb i j); auto.
Qed.
Lemma ext_rel : forall g g' d i, same_cfg g g' -> res_rel same_renderer (get_ext_renderer g d i) (get_ext_renderer g' d i).
Proof.
  intros g g' d i C. unfold get_ext_renderer. pose proof (get_rel d (ONode i) _ _ (sc_ext _ _ C)) as G.
  destruct (get_for_tag d (ONode i) (g_ext_rules g)) as [x|e], (get_for_tag d (ONode i) (g_ext_rules g')) as [y|e']; simpl in G; try contradiction.
  - destruct x as [[c s]|], y as [[c' s']|]; simpl in *; try discriminate; [now injection G|].
    pose proof (sc_a _ _ C) as A. destruct (g_ext_a g), (g_ext_a g'); simpl; auto; contradiction.
  - subst e'. pose proof (sc_a _ _ C) as A. destruct e; simpl; auto. destruct (g_ext_a g), (g_ext_a g'); simpl; auto; contradiction.
Qed.
Lemma assign_one_rel : forall g g' d sg sg' i, same_cfg g g' -> same_asgs sg sg' ->
  res_rel same_asg (assign_one g d sg i) (assign_one g' d sg' i).
Proof.
  intros g g' d sg sg' i C S. unfold assign_one, get_renderer. rewrite <- (sc_rules _ _ C), <- (sc_default _ _ C).
  destruct (get_for_tag d (ONode i) (g_rules g)) as [r|e]; simpl; auto. pose proof (asg_get_rel _ _ S i) as (A1 & A2 & A3 & A4).
  set (q := match r with Some (c, s) => _ | None => _ end). clearbody q.
  assert (M : same_asg (assign_main q (asg_get i sg)) (assign_main q (asg_get i sg'))).
  { destruct q; unfold same_asg; simpl; auto. }
  destruct (node_at d i) as [n|]; simpl; auto. destruct (n_tag n) as [t|]; simpl; auto. destruct (is_link t); simpl; auto.
  eapply bind_rel; [now apply ext_rel|]. intros x y R. destruct M as (M1 & M2 & M3 & M4).
  destruct x, y; simpl in R; try contradiction; subst; unfold same_asg; simpl; auto.
Qed.
Lemma assign_all_rel : forall g g' d sg sg', same_cfg g g' -> same_asgs sg sg' -> forall ids,
  res_rel same_asgs (assign_all g d sg ids) (assign_all g' d sg' ids).
Proof.
  intros g g' d sg sg' C S. induction ids as [|i ids IH]; simpl; [constructor|].
  eapply bind_rel; [now apply assign_one_rel|]. intros x y R. eapply bind_rel; [exact IH|]. intros x' y' R'. simpl. constructor; auto.
Qed.
Lemma mapM_eq : forall {A B} (f h : A -> res B) l, (forall a, f a = h a) -> mapM f l = mapM h l.
Proof. intros. apply mapM_ext. auto. Qed.
Lemma render_rel : forall d sg sg', same_asgs sg sg' -> forall f force i bx, render_node f d sg force i bx = render_node f d sg' force i bx.
Proof.
  intros d sg sg' S. induction f as [|f IH]; intros force i bx; auto. rewrite !render_node_S.
  rewrite (level_ext (render_node f d sg) (render_node f d sg')) by (intros; apply IH). clear IH.
  unfold level_render. destruct (node_at d i) as [n|]; auto. destruct (n_data n); auto. cbv zeta.
  destruct (asg_get_rel _ _ S i) as (A1 & A2 & A3 & A4). rewrite A1, A2, A3. destruct (a_lsettings (asg_get i sg)), (a_lsettings (asg_get i sg')); try contradiction; auto.
Qed.

Definition same_state (s s' : pstate) : Prop :=
  p_dom s = p_dom s' /\ p_stack s = p_stack s' /\ p_next s = p_next s' /\ p_footer s = p_footer s' /\ p_in_pre s = p_in_pre s'
  /\ p_chunks s = p_chunks s' /\ p_out s = p_out s' /\ same_asgs (p_asg s) (p_asg s').
Lemma close_rel : forall g g' s s', same_cfg g g' -> same_state s s' -> res_rel same_state (close g s) (close g' s').
Proof.
  intros g g' s s' C (E1 & E2 & E3 & E4 & E5 & E6 & E7 & E8). unfold close. cbv zeta. rewrite <- E1, <- E3, <- E4, <- E5, <- E6.
  rewrite <- (sc_box _ _ C), <- (sc_link _ _ C), <- (sc_opt _ _ C).
  eapply bind_rel; [now apply assign_all_rel|]. intros sg sg' R.
  assert (RM : forall fo l, res_rel eq (mapM (fun i => render_node (render_fuel (p_dom s)) (p_dom s) sg fo i (g_box g)) l)
                                       (mapM (fun i => render_node (render_fuel (p_dom s)) (p_dom s) sg' fo i (g_box g)) l)).
  { intros fo l. rewrite (mapM_ext _ _ l (fun i _ => render_rel (p_dom s) sg sg' R (render_fuel (p_dom s)) fo i (g_box g))).
    apply res_rel_refl. auto. }
  eapply (bind_rel eq); [apply RM|]. intros x y <-. eapply (bind_rel eq).
  - destruct (seqb (g_link g) (lit "footer")); [|reflexivity]. destruct (p_footer s) as [|k l]; [reflexivity|].
    eapply (bind_rel eq); [apply RM|]. intros ? ? <-. reflexivity.
  - intros ? ? <-. repeat split; auto.
Qed.
Lemma start_rel : forall g g' t a s s', same_cfg g g' -> same_state s s' -> res_rel same_state (handle_starttag g t a s) (handle_starttag g' t a s').
Proof.
  intros g g' t a s s' C (E1 & E2 & E3 & E4 & E5 & E6 & E7 & E8). destruct s as [d st nx ft pre ch out sg], s' as [d' st' nx' ft' pre' ch' out' sg'].
  simpl in *. subst d' st' nx' ft' pre' ch' out'.
  unfold handle_starttag. cbn [p_dom p_stack p_next p_footer p_in_pre p_chunks p_out p_asg get_top].
  assert (ML : make_link g nx t a = make_link g' nx t a).
  { unfold make_link. now rewrite (sc_format _ _ C), (sc_link _ _ C), (sc_image _ _ C), (sc_host _ _ C), (sc_port _ _ C). }
  assert (PL : placement_of g t = placement_of g' t) by (unfold placement_of; now rewrite (sc_link _ _ C), (sc_image _ _ C)).
  rewrite <- ML, <- PL. 
  eapply (bind_rel eq); [apply res_rel_refl; auto|]. intros x y <-. destruct x as [[av cls] nid].
  eapply (bind_rel eq); [apply res_rel_refl; auto|]. intros x y <-.
  eapply (bind_rel eq); [apply res_rel_refl; auto|]. intros z y <-. destruct z as [[d1 footer] next].
  simpl. repeat split; auto.
Qed.
Lemma step_rel : forall g g' o s s', same_cfg g g' -> same_state s s' -> res_rel same_state (step g o s) (step g' o s').
Proof.
  intros g g' o s s' C S. destruct o as [t a|t|x| |]; simpl.
  - now apply start_rel.
  - destruct S as (E1 & E2 & E3 & E4 & E5 & E6 & E7 & E8). unfold handle_endtag.
    replace (get_top s') with (get_top s) by (unfold get_top; now rewrite E1, E2).
    rewrite <- E1, <- E2, <- E3, <- E4, <- E5, <- E6, <- E7.
    destruct (is_void t); [repeat split; auto|]. cbv zeta. destruct (get_top s); [|repeat split; auto].
    destruct (node_at (p_dom s) n); [|repeat split; auto]. destruct (n_tag n0); [|repeat split; auto]. destruct (seqb s0 t); repeat split; auto.
  - destruct S as (E1 & E2 & E3 & E4 & E5 & E6 & E7 & E8). unfold handle_data.
    replace (get_top s') with (get_top s) by (unfold get_top; now rewrite E1, E2). rewrite <- E1, <- E2, <- E3, <- E4, <- E5, <- E6, <- E7.
    repeat split; auto.
  - now apply close_rel.
  - destruct S as (E1 & E2 & E3 & E4 & E5 & E6 & E7 & E8). unfold reset. rewrite E5. repeat split; auto. constructor.
Qed.
Lemma run_rel : forall g g' h s s', same_cfg g g' -> same_state s s' -> res_rel same_state (run g h s) (run g' h s').
Proof.
  intros g g' h. induction h as [|o h IH]; intros s s' C S; simpl; auto.
  eapply bind_rel; [now apply step_rel|]. intros x y R. now apply IH.
Qed.

Lemma dset_rel : forall k v v' t t', same_but_settings t t' -> fst v = fst v' -> same_renderer (snd v) (snd v') ->
  same_but_settings (dset k v t) (dset k v' t').
Proof.
  intros k v v' t t' F E1 E2. induction F as [|[a b] [a' b'] t t' (H1 & H2 & H3) F IH]; simpl.
  - constructor; [simpl; auto|constructor].
  - simpl in *. subst a'. destruct (seqb k a); constructor; simpl; auto.
Qed.
Lemma dupdate_rel : forall e e', same_but_settings e e' -> forall t t', same_but_settings t t' -> same_but_settings (dupdate t e) (dupdate t' e').
Proof.
  induction 1 as [|[a b] [a' b'] e e' (H1 & H2 & H3) F IH]; intros t t' K; simpl; auto. simpl in *. subst a'. apply IH. now apply dset_rel.
Qed.
Lemma sbs_refl : forall t, same_but_settings t t.
Proof. induction t as [|[a [b r]] t IH]; constructor; auto. simpl. repeat split. destruct r; simpl; auto. Qed.
Lemma rules_rel : forall t t', same_but_settings t t' -> Forall2 same_rule (rules_of t) (rules_of t').
Proof. induction 1 as [|p q t t' (H1 & H2 & H3) F IH]; simpl; constructor; auto. split; auto. Qed.
Lemma dget_rel : forall k t t', same_but_settings t t' ->
  match dget k t, dget k t' with Some (_, r), Some (_, r') => same_renderer r r' | None, None => True | _, _ => False end.
Proof.
  induction 1 as [|[a [s r]] [a' [s' r']] t t' (H1 & H2 & H3) F IH]; simpl; auto. simpl in *. subst a'. destruct (seqb k a); auto.
Qed.
Lemma same_renderer_refl : forall r, same_renderer r r.
Proof. destruct r; simpl; auto. Qed.

Theorem ext_settings_ignored : forall o t h, same_but_settings (o_ext o) t -> render_doc (with_ext o t) h = render_doc o h.
Proof.
  intros o t h S. symmetry. apply res_rel_eq. unfold render_doc.
  assert (K : res_rel same_cfg (construct o) (construct (with_ext o t))).
  { unfold construct, with_ext. cbn [o_format o_link o_host o_box o_renderers o_ext o_image o_port o_optimise].
    destruct (_ && seqb (o_link o) _)%bool; [reflexivity|]. destruct (_ && seqb (o_host o) _)%bool; [reflexivity|].
    cbv zeta. destruct (dget [] (dupdate default_table (o_renderers o))) as [[x dflt]|]; [|reflexivity].
    pose proof (dupdate_rel _ _ S _ _ (sbs_refl default_ext_table)) as D. constructor; cbn [g_box g_format g_link g_image g_host g_port g_rules g_default g_optimise g_ext_rules g_ext_a]; auto.
    - now apply rules_rel.
    - pose proof (dget_rel (lit "a") _ _ D) as G. destruct (dget _ (dupdate default_ext_table (o_ext o))) as [[? ?]|], (dget _ (dupdate default_ext_table t)) as [[? ?]|]; auto. }
  eapply bind_rel; [exact K|]. intros g g' C. eapply bind_rel.
  - apply run_rel; [exact C|]. repeat split; auto. constructor.
  - intros s s' R. simpl. apply R.
Qed.
End S.
