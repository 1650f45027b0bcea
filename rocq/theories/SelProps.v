(** Selector properties: C01-C08. *)
From Verif Require Import CssFacts Fixture.

(** C01: a selector group matches iff a member does, with the specificity of a
    matching member that no matching member exceeds; it raises only if a member
    does. *)
Theorem C01_group_best_match : forall d o group m sp,
  tag_matches d o group = Ok (m, sp) ->
  (m = true <-> exists s, In s group /\ selector_matches d (sl_tree s) o = Ok true)
  /\ match sp with
     | None => m = false
     | Some x => exists s, In s group /\ selector_matches d (sl_tree s) o = Ok true /\ specificity s = x
        /\ forall s', In s' group -> selector_matches d (sl_tree s') o = Ok true ->
             ~ lex_lt x (specificity s')
     end.
Proof.
  intros d o group m sp E. destruct (tag_matches_inv _ _ _ _ E) as [H1 H2]. simpl in *.
  split; [exact H1|]. destruct sp; auto. apply H2.
Qed.
Print Assumptions C01_group_best_match.
Theorem C01_group_total : forall d o group,
  (forall s, In s group -> exists b, selector_matches d (sl_tree s) o = Ok b) ->
  exists r, tag_matches d o group = Ok r.
Proof. exact tag_matches_total. Qed.
Print Assumptions C01_group_total.

(** C02: the renderer of an element is the winning rule's, or the default. *)
Theorem C02_renderer_cascade : forall g d i r, rules_ok (g_rules g) ->
  get_renderer g d i = Ok r ->
  (no_rule d (ONode i) (g_rules g) rule_renderer /\ r = g_default g)
  \/ (exists k c st, r = RPair (Some c) (Some st) /\ winner d (ONode i) (g_rules g) rule_renderer k c).
Proof.
  intros g d i r HK E. unfold get_renderer in E.
  destruct (get_for_tag d (ONode i) (g_rules g)) as [x|] eqn:G; [|discriminate]. simpl in E.
  pose proof (get_for_tag_spec _ _ _ _ HK G) as S. destruct x as [[c st]|]; inversion E; subst; auto.
  destruct S as [(k & W) _]. right. exists k, c, st. auto.
Qed.
Print Assumptions C02_renderer_cascade.

(** C03: every setting comes from the rule that wins for its key.  Missing: an
    element no rule names a renderer for gets no settings (refuted below). *)
Theorem C03_settings_cascade_partial : forall g d i c st, rules_ok (g_rules g) ->
  get_for_tag d (ONode i) (g_rules g) = Ok (Some (c, st)) ->
  get_renderer g d i = Ok (RPair (Some c) (Some st))
  /\ forall key, match dget key st with
                 | Some v => exists k, winner d (ONode i) (g_rules g) (rule_setting key) k v
                 | None => no_rule d (ONode i) (g_rules g) (rule_setting key)
                 end.
Proof.
  intros g d i c st HK G. split; [unfold get_renderer; now rewrite G|].
  apply (get_for_tag_spec _ _ _ _ HK G).
Qed.
Print Assumptions C03_settings_cascade_partial.

(** C04: nothing matches the document root or a text. *)
Theorem C04_text_never_matches : forall d s i n x,
  node_at d i = Some n -> n_data n = Some x -> selector_matches d s (ONode i) = Ok false.
Proof. intros. apply blank_no_match. simpl. eauto. Qed.
Print Assumptions C04_text_never_matches.
Theorem C04_root_never_matches : forall d s, selector_matches d s ORoot = Ok false.
Proof. intros. apply blank_no_match. exact I. Qed.
Print Assumptions C04_root_never_matches.

(** C05: on every tree the parser can build, matching never raises and is CSS
    matching, for all [supported] selectors in any nesting. *)
Theorem C05_css_semantics : forall `{U : Uni} g h st sl i,
  run g h pstate0 = Ok st -> element (p_dom st) i -> supported (p_dom st) sl ->
  exists b, selector_matches (p_dom st) sl (ONode i) = Ok b /\ (b = true <-> css (p_dom st) sl i).
Proof.
  intros U g h st sl i H E S. apply matches_css; auto.
  - eapply reach_wf; eauto. - eapply reach_classes; eauto. - now apply element_iff.
Qed.
Print Assumptions C05_css_semantics.

(** C06: :nth-child(k) is the k-th element child, :nth-last-child(k) the k-th
    from the end, for k >= 1.  Missing: k <= 0 (refuted below). *)
Theorem C06_nth_child_partial : forall `{U : Uni} g h st i k,
  run g h pstate0 = Ok st -> element (p_dom st) i -> (1 <= k)%Z ->
  (exists b, selector_matches (p_dom st) (SFunction (SElement None) (lit "nth-child") [str_of_Z k]) (ONode i) = Ok b
     /\ (b = true <-> nth_error (siblings (p_dom st) i) (Z.to_nat (k - 1)) = Some i))
  /\ (exists b, selector_matches (p_dom st) (SFunction (SElement None) (lit "nth-last-child") [str_of_Z k]) (ONode i) = Ok b
     /\ (b = true <-> nth_error (rev (siblings (p_dom st) i)) (Z.to_nat (k - 1)) = Some i)).
Proof.
  intros U g h st i k H E K.
  assert (UK : forall k', (1 <= k')%Z -> [str_of_Z k] = [str_of_Z k'] -> k' = k).
  { intros k' K' EQ. inversion EQ as [EQ']. pose proof (py_int_str k K) as A. rewrite EQ', (py_int_str k' K') in A.
    congruence. }
  split.
  - destruct (C05_css_semantics g h st (SFunction (SElement None) (lit "nth-child") [str_of_Z k]) i H E) as (b & H1 & H2).
    { simpl. split; auto. split; eauto. }
    exists b. split; auto. rewrite H2. simpl. split.
    + intros (_ & k0 & K1 & K2 & K3). apply UK in K2; auto. subst k0.
      destruct K3 as [[_ K3]|[K3 _]]; auto. discriminate.
    + intros HN. split; auto. exists k. auto.
  - destruct (C05_css_semantics g h st (SFunction (SElement None) (lit "nth-last-child") [str_of_Z k]) i H E) as (b & H1 & H2).
    { simpl. split; auto. split; eauto. }
    exists b. split; auto. rewrite H2. simpl. split.
    + intros (_ & k0 & K1 & K2 & K3). apply UK in K2; auto. subst k0.
      destruct K3 as [[K3 _]|[_ K3]]; auto. discriminate.
    + intros HN. split; auto. exists k. auto.
Qed.
Print Assumptions C06_nth_child_partial.

(** C07: the attribute operators are the CSS ones.  Missing: an empty value for
    ^= $= *=, valueless attributes, non-CSS white space, class with operators
    other than presence and ~= (see the refutations). *)
Theorem C07_attribute_partial : forall `{U : Uni} g h st i n a op v,
  run g h pstate0 = Ok st -> element (p_dom st) i -> node_at (p_dom st) i = Some n ->
  regular (p_dom st) a op v ->
  exists b, selector_matches (p_dom st) (SAttrib (SElement None) a op v) (ONode i) = Ok b
    /\ (b = true <-> exists av, dget a (n_attrs n) = Some av /\ css_aval av op v).
Proof.
  intros U g h st i n a op v H E HN R.
  destruct (C05_css_semantics g h st (SAttrib (SElement None) a op v) i H E) as (b & H1 & H2).
  { simpl. auto. }
  exists b. split; auto. rewrite H2. simpl. split.
  - intros (_ & n' & av & N1 & N2 & N3). replace n' with n in * by congruence. eauto.
  - intros (av & N1 & N2). split; auto. eauto.
Qed.
Print Assumptions C07_attribute_partial.

(** C08: comparison is the lexicographic order, and that is a strict total order. *)
Theorem C08_comparison : forall x y, exists r, compare_specificity (Some x) (Some y) = Ok r
  /\ (r = -1 <-> lex_lt x y)%Z /\ (r = 0 <-> x = y)%Z /\ (r = 1 <-> lex_lt y x)%Z
  /\ (r = -1 \/ r = 0 \/ r = 1)%Z.
Proof.
  intros x y. destruct (compare_cases x y) as (r & E & H). exists r. split; auto.
  destruct H as [[-> H]|[[-> H]|[-> H]]]; repeat split; intros; auto; try lia; try subst;
    exfalso; eauto using lex_irrefl, lex_asym; try (eapply lex_irrefl; eauto; fail); eapply lex_asym; eauto.
Qed.
Print Assumptions C08_comparison.
Theorem C08_operators : forall x y,
  (spec_lt x y = true <-> lex_lt x y) /\ (spec_gt x y = true <-> lex_lt y x)
  /\ (spec_eq x y = true <-> x = y) /\ (spec_le x y = true <-> lex_lt x y \/ x = y)
  /\ (spec_ge x y = true <-> lex_lt y x \/ x = y).
Proof.
  intros. split; [apply spec_lt_iff|]. split; [apply spec_gt_iff|]. split; [apply spec_eq_iff|].
  split; [apply spec_le_iff|apply spec_ge_iff].
Qed.
Print Assumptions C08_operators.
Theorem C08_total_order : (forall x, ~ lex_lt x x)
  /\ (forall x y z, lex_lt x y -> lex_lt y z -> lex_lt x z)
  /\ (forall x y, lex_lt x y \/ x = y \/ lex_lt y x).
Proof. split; [exact lex_irrefl|]. split; [exact lex_trans | exact lex_total]. Qed.
Print Assumptions C08_total_order.
(** The specificity of a selector counts its ids, its classes, attributes and
    pseudo-classes, and its element names with the pseudo-element. *)
Theorem C08_counts : forall s l, written_in (sl_tree s) l ->
  specificity s = (how_many PartId l, how_many PartFeature l,
                   how_many PartName l + (if sl_pseudo_element s then 1 else 0))%Z.
Proof.
  intros s l H.
  assert (E : sel_specificity (sl_tree s) = (how_many PartId l, how_many PartFeature l, how_many PartName l)).
  { induction H; cbn [sel_specificity];
      repeat match goal with E : sel_specificity _ = _ |- _ => rewrite E; clear E end; try reflexivity;
      unfold how_many; rewrite ?count_occ_app; cbn [count_occ];
      repeat match goal with |- context [parts_eq ?a ?b] => destruct (parts_eq a b); try discriminate; try congruence end;
      apply f_equal2; try apply f_equal2; lia. }
  unfold specificity. rewrite E. destruct (sl_pseudo_element s); apply f_equal2; auto; lia.
Qed.
Print Assumptions C08_counts.

(** ** Refutations *)
Local Existing Instance U0.

(** A settings-only rule does not reach an element with the default renderer. *)
Definition g_section : cfg :=
  Cfg (g_box g0) (g_format g0) (g_link g0) (g_image g0) (g_host g0) (g_port g0)
    [Rule [Selector (SElement (Some (lit "section"))) false]
          (RPair None (Some [(lit "template", VStr (lit "<{}>"))]))]
    (RPlain (Some InlineRenderer)) (g_ext_rules g0) (g_ext_a g0) (g_optimise g0).
Theorem C03_default_renderer_refuted :
  exists g d i k key v, rules_ok (g_rules g) /\ after [start "section"; txt "x"; stop "section"] = Ok d
    /\ element d i /\ winner d (ONode i) (g_rules g) (rule_setting key) k v
    /\ get_renderer g d i = Ok (RPlain (Some InlineRenderer)).
Proof.
  exists g_section. eexists. exists 0, 0, (lit "template"), (VStr (lit "<{}>")).
  split. { intros ru c s [<- | []] E. inversion E. subst. repeat constructor. auto. }
  split; [vm_compute; reflexivity|]. split; [eexists; eexists; split; reflexivity|].
  split; [|vm_compute; reflexivity].
  eexists. eexists. split; [split; vm_compute; reflexivity|]. split; [vm_compute; reflexivity|].
  intros k' ru' sp' [N1 N2] _. right. destruct k' as [|[|k']]; simpl in N1; inversion N1; subst; clear N1.
  split; auto. vm_compute in N2. congruence.
Qed.

(** :nth-child(0) matches the last child, and a negative argument can raise. *)
Theorem C06_nth_child_nonpositive_refuted : exists d i, after [start "p"; stop "p"; start "p"; stop "p"] = Ok d
  /\ element d i
  /\ selector_matches d (SFunction (SElement None) (lit "nth-child") [str_of_Z 0]) (ONode i) = Ok true
  /\ selector_matches d (SFunction (SElement None) (lit "nth-child") [str_of_Z (-5)]) (ONode i) = Err EIndex.
Proof.
  eexists. exists 1. split; [vm_compute; reflexivity|]. split; [eexists; eexists; split; reflexivity|].
  split; vm_compute; reflexivity.
Qed.

(** An empty value for ^= matches everything that has the attribute. *)
Theorem C07_empty_value_refuted : exists d, after [starta "p" [("id", "x")]%string] = Ok d
  /\ selector_matches d (SAttrib (SElement None) (lit "id") (lit "^=") []) (ONode 0) = Ok true
  /\ selector_matches d (SAttrib (SElement None) (lit "id") (lit "$=") []) (ONode 0) = Ok true
  /\ selector_matches d (SAttrib (SElement None) (lit "id") (lit "*=") []) (ONode 0) = Ok true
  /\ ~ css_attr (lit "^=") (lit "x") [].
Proof.
  eexists. split; [vm_compute; reflexivity|]. repeat split; try (vm_compute; reflexivity).
  intros HC. unfold css_attr in HC. repeat (destruct HC as [HC|HC]); try discriminate HC;
    destruct HC as [HC HC']; try discriminate HC. destruct HC'. auto.
Qed.
(** Testing the words of a valueless attribute raises. *)
Theorem C07_valueless_refuted : exists d, after [OStart (lit "p") [(lit "hidden", None)]] = Ok d
  /\ selector_matches d (SAttrib (SElement None) (lit "hidden") (lit "~=") (lit "x")) (ONode 0) = Err EAttr
  /\ selector_matches d (SAttrib (SElement None) (lit "hidden") (lit "*=") (lit "x")) (ONode 0) = Err EType
  /\ selector_matches d (SAttrib (SElement None) (lit "hidden") (lit "=") []) (ONode 0) = Ok false.
Proof. eexists. split; [vm_compute; reflexivity|]. repeat split; vm_compute; reflexivity. Qed.
(** The class attribute is compared after its white space was normalised, and
    no-break space separates words. *)
Theorem C07_class_value_refuted : exists d, after [starta "p" [("class", "a  b")]%string] = Ok d
  /\ selector_matches d (SAttrib (SElement None) (lit "class") (lit "=") (lit "a  b")) (ONode 0) = Ok false
  /\ selector_matches d (SAttrib (SElement None) (lit "class") (lit "=") (lit "a b")) (ONode 0) = Ok true.
Proof. eexists. split; [vm_compute; reflexivity|]. split; vm_compute; reflexivity. Qed.
Theorem C07_nbsp_refuted : exists d x, x = lit "a" ++ 160%N :: lit "b"
  /\ after [OStart (lit "p") [(lit "title", Some x)]] = Ok d
  /\ selector_matches d (SAttrib (SElement None) (lit "title") (lit "~=") (lit "a")) (ONode 0) = Ok true
  /\ ~ css_word (lit "a") x.
Proof.
  eexists. eexists. split; [reflexivity|]. split; [vm_compute; reflexivity|]. split; [vm_compute; reflexivity|].
  intros (_ & _ & l & r & E & _ & Hr). change (lit "a") with [97%N] in E. change (lit "b") with [98%N] in E.
  destruct l as [|c l].
  - simpl in E. inversion E; subst. destruct Hr as [|(c & r' & E2 & HC)]; [discriminate|].
    inversion E2; subst. discriminate.
  - simpl in E. inversion E as [[E1 E2]]. destruct l as [|c1 l]; [discriminate|]. simpl in E2. inversion E2 as [[E3 E4]].
    destruct l as [|c2 l]; [discriminate|]. simpl in E4. inversion E4 as [[E5 E6]]. destruct l; discriminate.
Qed.

(** ** Concrete cases *)
Definition hist1 : list op :=
  [start "div"; txt "x"; starta "p" [("class", "a b"); ("id", "i")]%string; stop "p"; txt "y";
   starta "p" [("title", "u v")]%string; start "b"; stop "b"; stop "p"; stop "div"].
Definition sel1 : sel :=
  SCombined (SCombined (el "div") (lit ">") (SClass (el "p") (lit "a"))) (lit "+")
    (SNegation (SFunction (SAttrib (el "p") (lit "title") (lit "~=") (lit "u")) (lit "nth-child") [str_of_Z 2])
       (SPseudo (SElement None) (lit "first-child"))).
Example C05_hyps : exists s, run g0 hist1 pstate0 = Ok s /\ element (p_dom s) 4 /\ supported (p_dom s) sel1
  /\ selector_matches (p_dom s) sel1 (ONode 4) = Ok true
  /\ selector_matches (p_dom s) sel1 (ONode 2) = Ok false.
Proof.
  eexists. split; [vm_compute; reflexivity|]. split; [eexists; eexists; split; reflexivity|].
  split; [|split; vm_compute; reflexivity].
  cbn [supported sel1 el].
  refine (conj (conj I (conj I _)) (conj (conj (conj (conj I _) (conj _ _)) (conj I _)) _)); [simpl; auto| |auto| |auto|simpl; auto].
  - split; [simpl; auto|]. split.
    + intros HH. repeat (destruct HH as [HH|HH]; [discriminate HH|]). destruct HH.
    + intros i n av _ Hn. do 6 (destruct i as [|i]; [inversion Hn; subst; vm_compute; intros HG; inversion HG; subst;
        try (intros _ c HC; repeat (destruct HC as [<- |HC]; [reflexivity|]); destruct HC)|]).
      destruct i; discriminate.
  - exists 2%Z. split; auto. lia.
Qed.
Example C01_hyps : exists d, after hist1 = Ok d /\
  tag_matches d (ONode 4) [Selector (el "p") false; Selector (SAttrib (el "p") (lit "title") (lit "exists") []) false;
     Selector (el "b") false] = Ok (true, Some (0, 1, 1)%Z).
Proof. eexists. split; vm_compute; reflexivity. Qed.
Example C02_hyps : rules_ok (g_rules g0) /\ exists d, after hist1 = Ok d
  /\ get_renderer g0 d 4 = Ok (RPair (Some ParagraphRenderer) (Some [])).
Proof.
  split; [|eexists; split; vm_compute; reflexivity].
  intros ru c s HI E. vm_compute in HI.
  repeat (destruct HI as [<- |HI]; [simpl in E; inversion E; subst; repeat constructor; simpl; tauto|]). destruct HI.
Qed.
Example C08_counts_case : exists l, written_in sel1 l /\ how_many PartName l = 3%Z /\ how_many PartFeature l = 4%Z
  /\ specificity (Selector sel1 true) = (0, 4, 4)%Z.
Proof. eexists. split; [unfold sel1, el; repeat constructor|]. repeat split; reflexivity. Qed.
