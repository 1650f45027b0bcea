(** Classes that behave alike can be exchanged: the relation between two
    parsers that differ in such classes is kept by every call. *)
From Verif Require Import RenderFacts OwnSpec.
Local Open Scope nat_scope.

Section S.
Context `{U : Uni}.

Lemma alike_refl : forall c, alike c c.
Proof. intros c d i x. destruct (instantiate d c i x); auto. Qed.
Lemma both_refl : forall c, both_alike c c.
Proof. intros [c|]; simpl; auto using alike_refl. Qed.
Lemma entry_refl : forall r, same_entry r r.
Proof. intros [c|c s]; simpl; auto using both_refl. Qed.
Lemma table_refl : forall t, same_table t t.
Proof. induction t; constructor; auto. repeat split; auto using entry_refl. Qed.

(** ** Tables *)
Lemma same_set : forall (k : str) v v' (t t' : table), fst v = fst v' -> same_entry (snd v) (snd v') -> same_table t t' ->
  same_table (dset k v t) (dset k v' t').
Proof.
  intros k v v' t t' E1 E2 H. induction H as [|[k1 v1] [k2 v2] t t' (A1 & A2 & A3) H IH]; cbn [dset].
  - constructor; [|constructor]. auto.
  - cbn [fst snd] in A1, A2, A3. subst k2. destruct (seqb k k1); constructor; auto.
Qed.
Lemma same_update : forall (e e' : table), same_table e e' -> forall t t', same_table t t' -> same_table (dupdate t e) (dupdate t' e').
Proof.
  intros e e' H. induction H as [|[k1 v1] [k2 v2] e e' (A1 & A2 & A3) H IH]; intros t t' T; cbn [dupdate]; auto.
  cbn [fst snd] in A1, A2, A3. subst k2. apply IH. apply same_set; auto.
Qed.
Lemma same_del : forall (k : str) (t t' : table), same_table t t' -> same_table (ddel k t) (ddel k t').
Proof.
  intros k t t' H. induction H as [|[k1 v1] [k2 v2] t t' (A1 & A2 & A3) H IH]; cbn [ddel]; [constructor|].
  cbn [fst snd] in A1, A2, A3. subst k2. destruct (seqb k k1); [assumption|constructor; auto].
Qed.
Lemma same_get : forall (k : str) (t t' : table), same_table t t' ->
  match dget k t, dget k t' with
  | Some v, Some v' => fst v = fst v' /\ same_entry (snd v) (snd v')
  | None, None => True | _, _ => False end.
Proof.
  intros k t t' H. induction H as [|[k1 v1] [k2 v2] t t' (A1 & A2 & A3) H IH]; cbn [dget]; auto.
  cbn [fst snd] in A1, A2, A3. subst k2. destruct (seqb k k1); auto.
Qed.

Definition same_rules : list (rule rcls) -> list (rule rcls) -> Prop :=
  Forall2 (fun r r' => ru_sel r = ru_sel r' /\ same_entry (ru_spec r) (ru_spec r')).
Lemma same_rules_of : forall t t', same_table t t' -> same_rules (rules_of t) (rules_of t').
Proof. intros t t' H. induction H as [|x y t t' (A1 & A2 & A3) H IH]; cbn; constructor; auto. Qed.

Record same_cfg (g g' : cfg) : Prop := {
  sc_box : g_box g = g_box g'; sc_format : g_format g = g_format g'; sc_link : g_link g = g_link g'; sc_image : g_image g = g_image g';
  sc_host : g_host g = g_host g'; sc_port : g_port g = g_port g'; sc_optimise : g_optimise g = g_optimise g';
  sc_rules : same_rules (g_rules g) (g_rules g'); sc_default : same_entry (g_default g) (g_default g');
  sc_ext : same_rules (g_ext_rules g) (g_ext_rules g');
  sc_ext_a : match g_ext_a g, g_ext_a g' with Some r, Some r' => same_entry r r' | None, None => True | _, _ => False end }.

Lemma same_construct : forall o o', same_options o o' ->
  match construct o, construct o' with Ok g, Ok g' => same_cfg g g' | Err e, Err e' => e = e' | _, _ => False end.
Proof.
  intros o o' (W & BX & T & X & A1 & A2 & A3 & A4 & A5 & A6). unfold construct. rewrite BX, A1, A2, A3, A4, A5, A6.
  destruct (seqb (o_format o') _ && seqb (o_link o') _); [reflexivity|].
  destruct (seqb (o_format o') _ && seqb (o_host o') _); [reflexivity|]. cbv zeta.
  pose proof (same_update _ _ T _ _ (table_refl default_table)) as T'. pose proof (same_update _ _ X _ _ (table_refl default_ext_table)) as X'.
  revert T' X'. generalize (dupdate default_table (o_renderers o)) (dupdate default_table (o_renderers o'))
    (dupdate default_ext_table (o_ext o)) (dupdate default_ext_table (o_ext o')). intros t t' e e' T' X'.
  pose proof (same_get [] _ _ T') as G. destruct (dget [] t) as [[l r]|], (dget [] t') as [[l' r']|]; try contradiction; [|reflexivity].
  destruct G as [_ G]. constructor; cbn; auto using same_rules_of, same_del.
  pose proof (same_get (lit "a") _ _ X') as Q. destruct (dget (lit "a") e) as [[l1 r1]|], (dget (lit "a") e') as [[l1' r1']|]; try contradiction; auto.
  apply Q.
Qed.

(** ** Looking up the class of a tag *)
Definition same_found (x y : spec3 * rspec rcls) : Prop := fst x = fst y /\ same_entry (snd x) (snd y).
Lemma same_matches : forall d o l l', same_rules l l' ->
  match all_matches d o l, all_matches d o l' with Ok m, Ok m' => Forall2 same_found m m' | Err e, Err e' => e = e' | _, _ => False end.
Proof.
  intros d o l l' H. induction H as [|[s1 r1] [s2 r2] l l' (A1 & A2) H IH]; cbn [all_matches]; [constructor|].
  cbn [ru_sel ru_spec] in *. subst s2. destruct (tag_matches d o s1) as [[m sp]|]; [|reflexivity]. cbn [bind].
  destruct (all_matches d o l), (all_matches d o l'); try contradiction; cbn [bind]; [|assumption].
  destruct m; auto. destruct sp; auto. constructor; auto. split; auto.
Qed.
Lemma same_insert : forall x x' l l', same_found x x' -> Forall2 same_found l l' -> Forall2 same_found (insert_spec x l) (insert_spec x' l').
Proof.
  intros x x' l l' X H. induction H as [|y y' l l' Y H IH]; cbn [insert_spec]; [auto|].
  rewrite (proj1 X), (proj1 Y). destruct (spec_lt (fst y') (fst x')); auto.
Qed.
Lemma same_sort : forall l l', Forall2 same_found l l' -> Forall2 same_found (sort_spec l) (sort_spec l').
Proof. intros l l' H. induction H; cbn [sort_spec]; auto using same_insert. Qed.
Lemma same_combine : forall l l', Forall2 same_found l l' -> forall c c' s, both_alike c c' ->
  both_alike (fst (combine_specs (c, s) l)) (fst (combine_specs (c', s) l')) /\ snd (combine_specs (c, s) l) = snd (combine_specs (c', s) l').
Proof.
  intros l l' H. induction H as [|[p r] [p' r'] l l' [_ Y] H IH]; intros c c' s B; cbn [combine_specs]; auto.
  cbn [snd fst] in *. destruct r as [k|k q], r' as [k'|k' q']; cbn in Y; try contradiction; cbn [rspec_class rspec_settings].
  - apply IH. destruct k, k'; cbn in Y |- *; auto; contradiction.
  - destruct Y as [Y <-]. destruct q; apply IH; destruct k, k'; cbn in Y |- *; auto; contradiction.
Qed.
Definition same_looked (x y : option (rcls * settings)) : Prop :=
  match x, y with Some (c, s), Some (c', s') => alike c c' /\ s = s' | None, None => True | _, _ => False end.
Lemma same_lookup : forall d o l l', same_rules l l' ->
  match get_for_tag d o l, get_for_tag d o l' with Ok m, Ok m' => same_looked m m' | Err e, Err e' => e = e' | _, _ => False end.
Proof.
  intros d o l l' H. unfold get_for_tag. pose proof (same_matches d o l l' H) as M.
  destruct (all_matches d o l) as [m|], (all_matches d o l') as [m'|]; try contradiction; cbn [bind]; [|assumption].
  pose proof (same_combine _ _ (same_sort _ _ M) None None [] Logic.I) as [Q1 Q2].
  destruct (combine_specs (None, []) (sort_spec m)) as [c s] eqn:E1, (combine_specs (None, []) (sort_spec m')) as [c' s'] eqn:E2.
  assert (X1 : both_alike c c') by (change (both_alike (fst (c, s)) (fst (c', s'))); rewrite <- E1, <- E2; exact Q1). assert (X2 : s = s') by (change (snd (c, s) = snd (c', s')); rewrite <- E1, <- E2; exact Q2). clear Q1 Q2.
  rename X1 into Q1. destruct c, c'; simpl in Q1; try contradiction; unfold same_looked; auto.
Qed.

(** ** Assigning *)
Definition same_asg (a a' : asg) : Prop :=
  both_alike (a_rend a) (a_rend a') /\ a_settings a = a_settings a' /\ both_alike (a_lrend a) (a_lrend a') /\ a_lsettings a = a_lsettings a'.
Definition same_asgs : asgs -> asgs -> Prop := Forall2 (fun x y => fst x = fst y /\ same_asg (snd x) (snd y)).
Lemma asg0_same : same_asg asg0 asg0.
Proof. repeat split. Qed.
Lemma same_asg_get : forall l l' i, same_asgs l l' -> same_asg (asg_get i l) (asg_get i l').
Proof.
  intros l l' i H. induction H as [|[j a] [j' a'] l l' [E A] H IH]; cbn [asg_get]; auto using asg0_same.
  cbn [fst snd] in *. subst j'. destruct (Nat.eqb i j); auto.
Qed.
Lemma same_main : forall r r' a a', same_entry r r' -> same_asg a a' -> same_asg (assign_main r a) (assign_main r' a').
Proof.
  intros [c|c s] [c'|c' s'] a a' E (A1 & A2 & A3 & A4); cbn in E; try contradiction; cbn [assign_main]; repeat split; cbn; auto; apply E.
Qed.
Lemma same_assign_link : forall r r' a a', same_entry r r' -> same_asg a a' -> same_asg (assign_link r a) (assign_link r' a').
Proof.
  intros [c|c s] [c'|c' s'] a a' E (A1 & A2 & A3 & A4); cbn in E; try contradiction; cbn [assign_link]; repeat split; cbn; auto; try apply E.
  f_equal. apply E.
Qed.

Section G.
Variables g g' : cfg.
Hypothesis G : same_cfg g g'.

Lemma same_get_renderer : forall d i,
  match get_renderer g d i, get_renderer g' d i with Ok r, Ok r' => same_entry r r' | Err e, Err e' => e = e' | _, _ => False end.
Proof.
  intros d i. unfold get_renderer. pose proof (same_lookup d (ONode i) _ _ (sc_rules _ _ G)) as L.
  destruct (get_for_tag d (ONode i) (g_rules g)) as [m|], (get_for_tag d (ONode i) (g_rules g')) as [m'|]; try contradiction; cbn [bind]; [|assumption].
  destruct m as [[c s]|], m' as [[c' s']|]; cbn in L; try contradiction; [|apply (sc_default _ _ G)].
  destruct L as [L <-]. cbn. auto.
Qed.
Lemma same_get_ext : forall d i,
  match get_ext_renderer g d i, get_ext_renderer g' d i with Ok r, Ok r' => same_entry r r' | Err e, Err e' => e = e' | _, _ => False end.
Proof.
  intros d i. unfold get_ext_renderer. pose proof (same_lookup d (ONode i) _ _ (sc_ext _ _ G)) as L. pose proof (sc_ext_a _ _ G) as X.
  destruct (get_for_tag d (ONode i) (g_ext_rules g)) as [m|e], (get_for_tag d (ONode i) (g_ext_rules g')) as [m'|e']; try contradiction; cbn [bind].
  - destruct m as [[c s]|], m' as [[c' s']|]; cbn in L; try contradiction.
    + destruct L as [L <-]. cbn. auto.
    + destruct (g_ext_a g), (g_ext_a g'); try contradiction; auto.
  - subst e'. destruct e; cbn [bind]; auto. destruct (g_ext_a g), (g_ext_a g'); try contradiction; auto.
Qed.
Lemma same_assign_one : forall d sg sg' i, same_asgs sg sg' ->
  match assign_one g d sg i, assign_one g' d sg' i with Ok a, Ok a' => same_asg a a' | Err e, Err e' => e = e' | _, _ => False end.
Proof.
  intros d sg sg' i S. unfold assign_one. pose proof (same_get_renderer d i) as R.
  destruct (get_renderer g d i) as [r|], (get_renderer g' d i) as [r'|]; try contradiction; cbn [bind]; [|assumption]. cbv zeta.
  pose proof (same_asg_get _ _ i S) as A. destruct (node_at d i) as [n|]; [|reflexivity].
  destruct (n_tag n) as [t|]; [|now apply same_main]. destruct (is_link t); [|now apply same_main].
  pose proof (same_get_ext d i) as X. destruct (get_ext_renderer g d i), (get_ext_renderer g' d i); try contradiction; cbn [bind]; [|assumption].
  apply same_assign_link; auto. now apply same_main.
Qed.
Lemma same_assign_all : forall d ids sg sg', same_asgs sg sg' ->
  match assign_all g d sg ids, assign_all g' d sg' ids with Ok a, Ok a' => same_asgs a a' | Err e, Err e' => e = e' | _, _ => False end.
Proof.
  intros d ids sg sg' S. induction ids as [|i ids IH]; cbn [assign_all]; [constructor|].
  pose proof (same_assign_one d sg sg' i S) as A. destruct (assign_one g d sg i), (assign_one g' d sg' i); try contradiction; cbn [bind]; [|assumption].
  destruct (assign_all g d sg ids), (assign_all g' d sg' ids); try contradiction; cbn [bind]; [|assumption]. constructor; auto.
Qed.
Lemma same_assigned : forall d ids sg sg', same_asgs sg sg' -> same_asgs (assigned g d sg ids) (assigned g' d sg' ids).
Proof.
  intros d ids sg sg' S. induction ids as [|i ids IH]; cbn [assigned]; [constructor|].
  pose proof (same_assign_one d sg sg' i S) as A. destruct (assign_one g d sg i), (assign_one g' d sg' i); try contradiction; [|constructor].
  constructor; auto.
Qed.

(** ** Rendering *)
Lemma same_made : forall d c c' i x (k : inst -> res str) (k' : inst -> res str), alike c c' ->
  (forall r r', i_block r = i_block r' -> i_box r = i_box r' -> (forall content, render_inst d r content = render_inst d r' content) -> k r = k' r') ->
  bind (instantiate d c i x) k = bind (instantiate d c' i x) k'.
Proof.
  intros d c c' i x k k' A K. specialize (A d i x). destruct (instantiate d c i x), (instantiate d c' i x); try contradiction; cbn [bind].
  - destruct A as (A1 & A2 & A3). auto.
  - now rewrite A.
Qed.
Lemma same_render : forall d sg sg', same_asgs sg sg' -> forall f force i bx, render_node f d sg force i bx = render_node f d sg' force i bx.
Proof.
  intros d sg sg' S. induction f as [|f IH]; intros force i bx; cbn [render_node]; [reflexivity|].
  destruct (node_at d i) as [n|]; [|reflexivity]. destruct (n_data n); [reflexivity|]. cbv zeta.
  pose proof (same_asg_get _ _ i S) as (A1 & A2 & A3 & A4).
  assert (M : forall force bx l, mapM (fun j => render_node f d sg force j bx) l = mapM (fun j => render_node f d sg' force j bx) l)
    by (intros; apply mapM_ext; auto).
  match goal with |- match ?x with _ => _ end = _ => destruct x as [lk|] end.
  - rewrite <- A4.
    assert (K : forall c c', alike c c' -> forall x, 
      (let* r := instantiate d c i x in let* bx' := if i_block r then the_box r else Ok bx in
       let* parts := mapM (fun j => render_node f d sg false j bx') (n_children n) in render_inst d r (concat parts)) =
      (let* r := instantiate d c' i x in let* bx' := if i_block r then the_box r else Ok bx in
       let* parts := mapM (fun j => render_node f d sg' false j bx') (n_children n) in render_inst d r (concat parts))).
    { intros c c' A x. apply same_made; auto. intros r r' E1 E2 E3. unfold the_box. rewrite E1, E2.
      match goal with |- bind ?x _ = _ => destruct x; cbn [bind]; [|reflexivity] end. rewrite M.
      destruct (mapM _ (n_children n)); cbn [bind]; auto. }
    match goal with |- bind (if ?b then _ else _) _ = _ => destruct b end.
    + destruct (a_rend (asg_get i sg)), (a_rend (asg_get i sg')); cbn in A1; try contradiction; cbn [bind]; auto.
    + destruct (a_lsettings (asg_get i sg)); cbn [bind]; [|reflexivity].
      destruct (a_lrend (asg_get i sg)), (a_lrend (asg_get i sg')); cbn in A3; try contradiction; cbn [bind]; auto.
  - rewrite <- A2. destruct (a_rend (asg_get i sg)) as [c|], (a_rend (asg_get i sg')) as [c'|]; cbn in A1; try contradiction; cbn [bind]; auto.
    apply same_made; auto. intros r r' E1 E2 E3. unfold the_box. rewrite E1, E2.
    match goal with |- bind ?x _ = _ => destruct x; cbn [bind]; [|reflexivity] end. rewrite !M.
    destruct (mapM _ (n_children n)); cbn [bind]; [|reflexivity]. destruct (mapM _ (n_pending n)); cbn [bind]; auto.
Qed.

(** ** Calls *)
Definition same_state (s s' : pstate) : Prop :=
  p_dom s = p_dom s' /\ p_stack s = p_stack s' /\ p_next s = p_next s' /\ p_footer s = p_footer s' /\ p_in_pre s = p_in_pre s'
  /\ p_chunks s = p_chunks s' /\ p_out s = p_out s' /\ same_asgs (p_asg s) (p_asg s').
Definition same_done (x y : pstate * option exn) : Prop := same_state (fst x) (fst y) /\ snd x = snd y.

Lemma same_close : forall s s', same_state s s' ->
  match close g s, close g' s' with Ok t, Ok t' => same_state t t' | Err e, Err e' => e = e' | _, _ => False end.
Proof.
  intros s s' (E1 & E2 & E3 & E4 & E5 & E6 & E7 & S). unfold close. rewrite <- E1, <- E3, <- E4, <- E5, <- E6, <- (sc_link _ _ G), <- (sc_box _ _ G), <- (sc_optimise _ _ G).
  cbv zeta. pose proof (same_assign_all (p_dom s) (seq 0 (length (d_nodes (p_dom s)))) _ _ S) as A.
  destruct (assign_all g _ _ _) as [sg|], (assign_all g' _ _ _) as [sg'|]; try contradiction; cbn [bind]; [|assumption].
  assert (M : forall force bx l, mapM (fun j => render_node (render_fuel (p_dom s)) (p_dom s) sg force j bx) l
    = mapM (fun j => render_node (render_fuel (p_dom s)) (p_dom s) sg' force j bx) l) by (intros; apply mapM_ext; intros; now apply same_render).
  rewrite !M. destruct (mapM _ (d_root (p_dom s))); cbn [bind]; [|reflexivity].
  destruct (seqb (g_link g) _); cbn [bind]; [|repeat split; auto].
  destruct (p_footer s) as [|i l] eqn:F; cbn [bind]; [repeat split; auto|]. rewrite M.
  destruct (mapM _ (i :: l)); cbn [bind]; [repeat split; auto|reflexivity].
Qed.
Lemma before_error_ext : forall A B (f h : A -> res B) l, (forall a, f a = h a) -> before_error f l = before_error h l.
Proof. intros A B f h l H. induction l; cbn [before_error]; auto. rewrite H, IHl. reflexivity. Qed.
Lemma same_close_x : forall s s', same_state s s' -> same_done (close_x g s) (close_x g' s').
Proof.
  intros s s' H. pose proof (same_close s s' H) as C. unfold close_x.
  destruct (close g s), (close g' s'); try contradiction; [split; auto|]. subst e0.
  destruct H as (E1 & E2 & E3 & E4 & E5 & E6 & E7 & S). rewrite <- E1, <- E3, <- E4, <- E5, <- E6, <- E7, <- (sc_box _ _ G). cbv beta zeta.
  pose proof (same_assign_all (p_dom s) (seq 0 (length (d_nodes (p_dom s)))) _ _ S) as A. split; [|reflexivity]. cbn [fst].
  destruct (assign_all g _ _ _) as [sg|], (assign_all g' _ _ _) as [sg'|]; try contradiction.
  - assert (M : forall force bx l, mapM (fun j => render_node (render_fuel (p_dom s)) (p_dom s) sg force j bx) l
    = mapM (fun j => render_node (render_fuel (p_dom s)) (p_dom s) sg' force j bx) l) by (intros; apply mapM_ext; intros; now apply same_render).
    repeat split; cbn [p_dom p_stack p_next p_footer p_in_pre p_chunks p_out p_asg]; auto. rewrite M. f_equal. f_equal.
    + apply before_error_ext. intros; now apply same_render.
    + destruct (mapM _ (d_root (p_dom s))); [|reflexivity]. f_equal. apply before_error_ext. intros; now apply same_render.
  - repeat split; cbn; auto. apply Forall2_app; auto. now apply same_assigned.
Qed.

Lemma same_top : forall s s', same_state s s' -> get_top s = get_top s'.
Proof. intros s s' (E1 & E2 & _). unfold get_top. now rewrite E1, E2. Qed.
Lemma same_start : forall t a s s', same_state s s' ->
  match handle_starttag g t a s, handle_starttag g' t a s' with Ok x, Ok y => same_state x y | Err e, Err e' => e = e' | _, _ => False end.
Proof.
  intros t a s s' H. unfold handle_starttag, make_link, placement_of. rewrite (same_top _ _ H). destruct H as (E1 & E2 & E3 & E4 & E5 & E6 & E7 & S).
  rewrite <- E1, <- E2, <- E3, <- E4, <- E5, <- E6, <- E7, <- (sc_format _ _ G), <- (sc_link _ _ G), <- (sc_image _ _ G), <- (sc_host _ _ G), <- (sc_port _ _ G). cbv zeta.
  destruct (tag_attrs a) as [[[? ?] ?]|]; cbn [bind]; [|reflexivity].
  match goal with |- context [bind ?x (fun lk : option link => _)] => destruct x; cbn [bind]; [|reflexivity] end.
  match goal with |- context [bind ?x (fun y : dom * list nat * Z => _)] => destruct x as [[[? ?] ?]|]; cbn [bind]; [|reflexivity] end.
  repeat split; auto.
Qed.
Lemma same_step : forall o s s', same_state s s' -> same_done (step_x g o s) (step_x g' o s').
Proof.
  intros o s s' H. destruct o as [t a|t|x| |]; cbn [step_x].
  - unfold start_x. pose proof (same_start t a s s' H) as Q. destruct (handle_starttag g t a s), (handle_starttag g' t a s'); try contradiction; [split; auto|].
    subst. destruct H as (E1 & E2 & E3 & E4 & E5 & E6 & E7 & S). split; auto. repeat split; cbn; auto. now rewrite E5.
  - split; auto. cbn [fst]. unfold handle_endtag. rewrite (same_top _ _ H). destruct H as (E1 & E2 & E3 & E4 & E5 & E6 & E7 & S).
    rewrite <- E1, <- E2, <- E3, <- E4, <- E5, <- E6, <- E7. cbv zeta.
    destruct (is_void t); [repeat split; auto|]. destruct (get_top s'); [|repeat split; auto]. destruct (node_at (p_dom s) n) as [m|]; [|repeat split; auto].
    destruct (n_tag m); [|repeat split; auto]. destruct (seqb s0 t); repeat split; auto.
  - split; auto. cbn [fst]. unfold handle_data. rewrite (same_top _ _ H). destruct H as (E1 & E2 & E3 & E4 & E5 & E6 & E7 & S).
    rewrite <- E1, <- E2, <- E3, <- E4, <- E5, <- E6, <- E7. repeat split; auto.
  - now apply same_close_x.
  - split; auto. destruct H as (E1 & E2 & E3 & E4 & E5 & E6 & E7 & S). repeat split; cbn; auto. constructor.
Qed.
Lemma same_run_x : forall ops s s', same_state s s' -> same_state (fst (run_x g ops s)) (fst (run_x g' ops s')) /\ snd (run_x g ops s) = snd (run_x g' ops s').
Proof.
  induction ops as [|o ops IH]; intros s s' H; cbn [run_x]; [split; auto|]. destruct (same_step o s s' H) as [A B].
  destruct (step_x g o s), (step_x g' o s'). cbn [fst snd] in A, B. subst o1. destruct (IH _ _ A) as [C D].
  destruct (run_x g ops p), (run_x g' ops p0). cbn [fst snd] in *. split; auto. now f_equal.
Qed.
Definition same_parser (h h' : parser) : Prop := h_raw h = h_raw h' /\ h_cd h = h_cd h' /\ same_state (h_p h) (h_p h').
Definition same_called (x y : parser * option exn) : Prop := same_parser (fst x) (fst y) /\ snd x = snd y.
Lemma same_deliver : forall raw t s s', same_state s s' -> same_called (deliver g raw t s) (deliver g' raw t s').
Proof.
  intros raw t. induction t as [cd r|e|o k IH]; intros s s' H; cbn [deliver]; try (repeat split; auto; apply H).
  destruct (same_step o s s' H) as [A B]. destruct (step_x g o s), (step_x g' o s'). cbn [fst snd] in A, B. subst o1.
  destruct o0; [split; auto; split; auto|]. apply IH. exact A.
Qed.
Lemma same_call : forall c h h', same_parser h h' -> same_called (do_call g c h) (do_call g' c h').
Proof.
  intros c h h' (A1 & A2 & A3). destruct c; cbn [do_call].
  - unfold feed. rewrite <- A1, <- A2. now apply same_deliver.
  - unfold finalise. rewrite <- A1, <- A2. destruct (same_deliver (h_raw h) (tokens true (h_cd h) (h_raw h)) _ _ A3) as [B C].
    destruct (deliver g _ _ _) as [k e], (deliver g' _ _ _) as [k' e']. cbn [fst snd] in *. subst e'. destruct B as (B1 & B2 & B3).
    destruct e; [split; auto; split; auto|]. destruct (same_close_x _ _ B3) as [D E]. destruct (close_x g _), (close_x g' _). cbn [fst snd] in *.
    split; auto. split; auto.
  - split; auto. repeat split; auto. cbn. now rewrite (proj1 (proj2 (proj2 (proj2 (proj2 A3))))). constructor.
Qed.
Lemma same_calls : forall l h h', same_parser h h' -> same_parser (fst (do_calls g l h)) (fst (do_calls g' l h')) /\ snd (do_calls g l h) = snd (do_calls g' l h').
Proof.
  induction l as [|c l IH]; intros h h' H; cbn [do_calls]; [split; auto|]. destruct (same_call c h h' H) as [A B].
  destruct (do_call g c h), (do_call g' c h'). cbn [fst snd] in A, B. subst. destruct (IH _ _ A) as [C D].
  destruct (do_calls g l p), (do_calls g' l p0). cbn [fst snd] in *. split; auto. now f_equal.
Qed.
End G.

Lemma state0_same : same_state pstate0 pstate0.
Proof. repeat split; auto. constructor. Qed.
Lemma used_same : forall o o' l, same_options o o' -> used o l = used o' l.
Proof.
  intros o o' l H. unfold used. pose proof (same_construct o o' H) as C. destruct (construct o) as [g|], (construct o') as [g'|]; try contradiction; [|now rewrite C].
  destruct (same_calls g g' C l parser0 parser0 (conj eq_refl (conj eq_refl state0_same))) as [(_ & _ & A) B].
  destruct (do_calls g l parser0), (do_calls g' l parser0). cbn [fst snd] in *. subst. f_equal. f_equal. apply A.
Qed.
Lemma same_feeds : forall g g', same_cfg g g' -> forall l h h', same_parser h h' -> same_called (feed_all g l h) (feed_all g' l h').
Proof.
  intros g g' G. induction l as [|x l IH]; intros h h' H; cbn [feed_all]; [split; auto|].
  destruct (same_call g g' G (CFeed x) h h' H) as [A B]. cbn [do_call] in A, B. destruct (feed g x h), (feed g' x h'). cbn [fst snd] in *. subst.
  destruct o0; [split; auto|]. auto.
Qed.
Lemma pieces_same : forall o o' l, same_options o o' -> render_pieces o l = render_pieces o' l.
Proof.
  intros o o' l H. unfold render_pieces. pose proof (same_construct o o' H) as C. destruct (construct o) as [g|], (construct o') as [g'|]; try contradiction; cbn [bind]; [|now rewrite C].
  destruct (same_feeds g g' C l parser0 parser0 (conj eq_refl (conj eq_refl state0_same))) as [A B].
  destruct (feed_all g l parser0) as [h e], (feed_all g' l parser0) as [h' e']. cbn [fst snd] in *. subst e'. destruct e; [reflexivity|].
  destruct (same_call g g' C CClose h h' A) as [D E]. cbn [do_call] in D, E. destruct (finalise g h) as [k e], (finalise g' h') as [k' e']. cbn [fst snd] in *. subst e'.
  destruct e; [reflexivity|]. f_equal. apply (proj2 (proj2 D)).
Qed.
Lemma step_same : forall g g', same_cfg g g' -> forall o s s', same_state s s' ->
  match step g o s, step g' o s' with Ok t, Ok t' => same_state t t' | Err e, Err e' => e = e' | _, _ => False end.
Proof.
  intros g g' G o s s' H. destruct o; cbn [step].
  - now apply same_start.
  - apply (proj1 (same_step g g' G (OEnd t) s s' H)).
  - apply (proj1 (same_step g g' G (OData s0) s s' H)).
  - now apply same_close.
  - apply (proj1 (same_step g g' G OReset s s' H)).
Qed.
Lemma run_same : forall g g', same_cfg g g' -> forall ops s s', same_state s s' ->
  match run g ops s, run g' ops s' with Ok t, Ok t' => same_state t t' | Err e, Err e' => e = e' | _, _ => False end.
Proof.
  intros g g' G. induction ops as [|o ops IH]; intros s s' H; cbn [run]; [assumption|].
  pose proof (step_same g g' G o s s' H) as A. destruct (step g o s), (step g' o s'); try contradiction; cbn [bind]; [now apply IH|assumption].
Qed.
Lemma doc_same : forall o o' h, same_options o o' -> render_doc o h = render_doc o' h.
Proof.
  intros o o' h H. unfold render_doc. pose proof (same_construct o o' H) as C. destruct (construct o) as [g|], (construct o') as [g'|]; try contradiction; cbn [bind]; [|now rewrite C].
  pose proof (run_same g g' C (h ++ [OClose]) _ _ state0_same) as A. destruct (run g _ _), (run g' _ _); try contradiction; cbn [bind]; [|now rewrite A].
  f_equal. apply A.
Qed.
End S.
