(** C39: inherited settings, overrides, isolation. *)
From Verif Require Import BaseFacts SettingsFacts.
From Verif Require Export SettingsSpec.

(** The settings an object of class [c] starts from: the most derived
    definition of each key, when no two of the classes have equal dictionaries. *)
Theorem C39_inherit_partial : forall c k, Forall keyed (rc_mro c) -> differing (rc_mro c) ->
  dget k (class_settings c) = inherited k (rc_mro c).
Proof. intros c k H D. rewrite class_get by assumption. now apply kept_differing. Qed.
(** In general classes that repeat the dictionary of a base are left out. *)
Theorem C39_inherit_exact_partial : forall c k l, Forall keyed (rc_mro c) -> left_of (rc_mro c) l ->
  dget k (class_settings c) = inherited k l.
Proof. intros c k l K L. apply left_kept in L. subst l. now apply class_get. Qed.
Theorem C39_left : forall mro, exists l, left_of mro l /\ forall l', left_of mro l' -> l' = l.
Proof. intros mro. exists (kept mro). split; [now apply left_kept|]. intros l' L. now apply left_kept in L. Qed.
(** All built-in classes. *)
Theorem C39_builtin : forall c k, In c builtin -> dget k (class_settings c) = inherited k (rc_mro c).
Proof.
  intros c k I. apply C39_inherit_partial.
  - assert (F : Forall (fun c => Forall keyed (rc_mro c)) builtin).
    { repeat (constructor; [repeat (constructor; [apply keyed_dec; vm_compute; reflexivity|]); constructor|]). constructor. }
    exact (proj1 (Forall_forall _ _) F c I).
  - assert (F : Forall (fun c => differing (rc_mro c)) builtin).
    { repeat (constructor; [repeat (constructor; [repeat (constructor; [first [left; reflexivity | right; rewrite <- settings_is; vm_compute; discriminate]|]); constructor|]); constructor|]). constructor. }
    exact (proj1 (Forall_forall _ _) F c I).
Qed.

Section P.
Context `{U : Uni}.
(** The rule table wins over the classes; numbered items and Markdown headings
    compute one setting of their own. *)
Theorem C39_override : forall d c i x r k, instantiate d c i x = Ok r -> (forall l, c_settings x = Some l -> keyed l) ->
  (rc_kind c = KOrdered -> k <> lit "line_template") -> (rc_kind c = KMdHeader -> k <> lit "template") ->
  dget k (i_settings r) = overridden k (c_settings x) (dget k (class_settings c)).
Proof.
  intros d c i x r k H K N1 N2. unfold instantiate in H. cbv zeta in H. inv_bind H. inv_bind H.
  assert (S0 : dget k x0 = dget k (class_settings c)).
  { destruct (rc_kind c); try (apply (f_equal (fun z => match z with Ok z => z | Err _ => x0 end)) in E; now subst x0).
    inv_bind E. inv_bind E. inv_bind E. inv_bind E. inv_bind E. inv_bind E. inv_bind E. inv_bind E. injection E as <-.
    rewrite dget_dset. rewrite (proj2 (seqb_neq _ _)) by (apply N1; reflexivity). reflexivity. }
  assert (S1 : dget k x1 = dget k (adjust x0 x)).
  { destruct (rc_kind c); try (apply (f_equal (fun z => match z with Ok z => z | Err _ => x1 end)) in E0; now subst x1).
    inv_bind E0. injection E0 as <-. rewrite dget_dset. rewrite (proj2 (seqb_neq _ _)) by (apply N2; reflexivity). reflexivity. }
  assert (R : i_settings r = x1).
  { destruct (is_block (rc_kind c)); [inv_bind H; inv_bind H; inv_bind H|]; injection H as <-; reflexivity. }
  rewrite R, S1, adjust_get by exact K. now rewrite S0.
Qed.

(** ** Isolation, with dictionaries as objects *)

(** Creating an object: what it gets, and that nothing else changes. *)
Theorem C39_new_isolated : forall ops mro local, let w := srun ops in let w' := sstep w (SNew mro local) in
  proper_run world0 (ops ++ [SNew mro local]) ->
  (forall c, class_view w' c = class_view w c)
  /\ (forall i, i < length (w_insts w) -> inst_view w' i = inst_view w i)
  /\ (exists ss, map (class_view w) mro = map Some ss
      /\ inst_view w' (length (w_insts w)) = Some (adjust (class_settings (Rcls KRenderer ss))
           (Ctx (option_map (dict_at (w_dicts w)) local) None None None))).
Proof.
  intros ops mro local w w' P.
  assert (PP : proper_run world0 ops /\ proper w (SNew mro local)).
  { unfold w, srun. revert P. generalize world0. induction ops as [|o ops IH]; intros w0 P; cbn [app proper_run fold_left] in *; [tauto|].
    destruct P as [P1 P2]. apply IH in P2. tauto. }
  destruct PP as [PR [P1 P2]]. assert (SN : sane w) by (apply run_sane; auto; apply sane0).
  destruct (new_spec w mro local SN P1 P2) as (A1 & A2 & A3 & A4 & A5). cbv zeta in *. change (new_instance mro local w) with w' in *.
  assert (CL : forall c a, nth_error (w_classes w) c = Some a -> a < length (w_dicts w)).
  { intros c a E. apply nth_error_In in E. exact (class_dict_lt _ _ SN E). }
  split; [|split].
  - intros c. unfold class_view. rewrite A1. destruct (nth_error (w_classes w) c) as [a|] eqn:E; auto. cbn [option_map]. f_equal. apply A4. eauto.
  - intros i L. rewrite !inst_view_eq, A2, nth_error_app1 by exact L. destruct (nth_error (w_insts w) i) as [[a b]|] eqn:E; auto. cbn [option_map].
    apply nth_error_In in E. pose proof (proj1 (Forall_forall _ _) (sn_inst _ SN) _ E) as LT. cbn in LT. rewrite A4 by exact LT. reflexivity.
  - exists (map (fun c => dict_at (w_dicts w) (class_dict w c)) mro). split.
    + rewrite map_map. apply map_ext_in. intros c I. pose proof (proj1 (Forall_forall _ _) P1 c I) as LT. cbn in LT. unfold class_view, class_dict.
      rewrite (nth_error_nth' _ 0 LT). reflexivity.
    + rewrite inst_view_eq, A2, nth_error_app2, Nat.sub_diag by lia. cbn [nth_error option_map]. rewrite A5. unfold adjust. cbn [c_settings].
      destruct local; reflexivity.
Qed.
(** Setting one of an object's settings shows there (unless the attribute was
    replaced by a plain dict) and nowhere else. *)
Theorem C39_write_isolated : forall ops i k v, let w := srun ops in let w' := sstep w (SWrite i k v) in proper_run world0 ops ->
  (forall c, class_view w' c = class_view w c)
  /\ (forall j, j <> i -> inst_view w' j = inst_view w j)
  /\ (forall a, nth_error (w_insts w) i = Some (a, true) -> inst_view w' i = option_map (dset k v) (inst_view w i))
  /\ (forall a, nth_error (w_insts w) i = Some (a, false) -> inst_view w' i = inst_view w i).
Proof.
  intros ops i k v w w' P. assert (SN : sane w) by (apply run_sane; auto; apply sane0).
  pose proof (sn_class _ SN) as H1. pose proof (sn_inst _ SN) as H2. pose proof (sn_nodup _ SN) as H3.
  assert (CL : forall c a, nth_error (w_classes w) c = Some a -> a < length (w_dicts w)).
  { intros c a E. apply nth_error_In in E. exact (class_dict_lt _ _ SN E). }
  assert (IL : forall j a b, nth_error (w_insts w) j = Some (a, b) -> a < length (w_dicts w)).
  { intros j a b E. apply nth_error_In in E. exact (proj1 (Forall_forall _ _) H2 _ E). }
  unfold w', sstep, write_setting, get_settings. destruct (nth_error (w_insts w) i) as [[a [|]]|] eqn:E.
  - assert (OUT : forall c, nth_error (w_classes w) c <> Some a).
    { intros c X. apply nth_error_In in X. apply nth_error_In in E. apply (in_map fst) in E. cbn in E.
      apply in_split in X as (l1 & l2 & X). rewrite X in H3. rewrite <- app_assoc in H3. cbn [app] in H3. apply NoDup_remove_2 in H3. apply H3. rewrite !in_app_iff. auto. }
    assert (OTH : forall j b, j <> i -> nth_error (w_insts w) j <> Some (a, b)).
    { intros j b NE X. apply (map_nth_error fst) in X. apply (map_nth_error fst) in E. cbn in X, E.
      apply nodup_right in H3. apply NE. eapply (proj1 (NoDup_nth_error _) H3); [|congruence].
      apply nth_error_Some. congruence. }
    split; [|split; [|split]].
    + intros c. unfold class_view. cbn [w_dicts w_classes]. destruct (nth_error (w_classes w) c) as [b|] eqn:EC; auto. cbn [option_map]. f_equal.
      unfold dict_at. apply set_nth_other. intros ->. exact (OUT c EC).
    + intros j NE. rewrite !inst_view_eq. cbn [w_dicts w_insts]. destruct (nth_error (w_insts w) j) as [[b n]|] eqn:EJ; auto. cbn [option_map].
      assert (D : dict_at (set_nth (w_dicts w) a (dset k v (dict_at (w_dicts w) a))) b = dict_at (w_dicts w) b).
      { unfold dict_at. apply set_nth_other. intros ->. exact (OTH j n NE EJ). }
      now rewrite D.
    + intros a' X. injection X as <-. rewrite !inst_view_eq. cbn [w_dicts w_insts]. rewrite E. cbn [option_map]. f_equal. unfold dict_at at 1.
      apply set_nth_same. eauto.
    + intros a' X. discriminate.
  - assert (D : forall b, b < length (w_dicts w) -> forall x, dict_at (set_nth (w_dicts w ++ x) (length (w_dicts w)) (dset k v (dict_at (w_dicts w ++ x) (length (w_dicts w))))) b = dict_at (w_dicts w) b).
    { intros b L x. unfold dict_at. rewrite set_nth_other by lia. now apply app_nth1. }
    cbn [w_dicts w_classes w_insts]. split; [|split; [|split]].
    + intros c. unfold class_view. cbn [w_dicts w_classes]. destruct (nth_error (w_classes w) c) as [b|] eqn:EC; auto. cbn [option_map]. rewrite D; eauto.
    + intros j NE. rewrite !inst_view_eq. cbn [w_dicts w_insts]. destruct (nth_error (w_insts w) j) as [[b n]|] eqn:EJ; auto. cbn [option_map]. rewrite D; eauto.
    + intros a' X. discriminate.
    + intros a' X. rewrite !inst_view_eq. cbn [w_dicts w_insts]. rewrite E. cbn [option_map]. rewrite D; eauto.
  - repeat split; auto; intros; discriminate.
Qed.
(** Defining a class changes no settings of another. *)
Theorem C39_define_isolated : forall ops body, let w := srun ops in let w' := sstep w (SDefine body) in proper_run world0 ops ->
  (forall c, c < length (w_classes w) -> class_view w' c = class_view w c)
  /\ (forall i, inst_view w' i = inst_view w i)
  /\ exists s, class_view w' (length (w_classes w)) = Some s
     /\ forall k, match body with Some (b, _) => keyed b -> dget k s = dget k b | None => dget k s = None end.
Proof.
  intros ops body w w' P. assert (SN : sane w) by (apply run_sane; auto; apply sane0).
  assert (CL : forall c a, nth_error (w_classes w) c = Some a -> a < length (w_dicts w)).
  { intros c a E. apply nth_error_In in E. exact (class_dict_lt _ _ SN E). }
  assert (IL : forall j a b, nth_error (w_insts w) j = Some (a, b) -> a < length (w_dicts w)).
  { intros j a b E. apply nth_error_In in E. exact (proj1 (Forall_forall _ _) (sn_inst _ SN) _ E). }
  assert (G : exists x y, w' = World (w_dicts w ++ x) (w_classes w ++ [y]) (w_insts w)
     /\ forall k, match body with Some (b, _) => keyed b -> dget k (dict_at (w_dicts w ++ x) y) = dget k b | None => dget k (dict_at (w_dicts w ++ x) y) = None end).
  { unfold w', sstep, define_class. destruct body as [[b [|]]|]; (eexists; eexists; split; [reflexivity|]); intros k.
    - intros K. unfold dict_at. rewrite app_nth2, Nat.sub_diag by lia. reflexivity.
    - intros K. unfold dict_at. rewrite app_nth2 by lia. replace (S (length (w_dicts w)) - length (w_dicts w)) with 1%nat by lia. cbn [nth].
      rewrite dget_dupdate by exact K. destruct (dget k b); reflexivity.
    - unfold dict_at. rewrite app_nth2, Nat.sub_diag by lia. reflexivity. }
  destruct G as (x & y & -> & GY). split; [|split].
  - intros c L. unfold class_view. cbn [w_dicts w_classes]. rewrite nth_error_app1 by exact L. destruct (nth_error (w_classes w) c) as [a|] eqn:E; auto.
    cbn [option_map]. f_equal. unfold dict_at. apply app_nth1. eauto.
  - intros i. rewrite !inst_view_eq. cbn [w_dicts w_insts]. destruct (nth_error (w_insts w) i) as [[a b]|] eqn:E; auto. cbn [option_map].
    assert (D : dict_at (w_dicts w ++ x) a = dict_at (w_dicts w) a) by (unfold dict_at; apply app_nth1; eauto). now rewrite D.
  - exists (dict_at (w_dicts w ++ x) y). split; auto. unfold class_view. cbn [w_dicts w_classes]. rewrite nth_error_app2, Nat.sub_diag by lia. reflexivity.
Qed.
End P.

(** ** Cases that meet the hypotheses, and refutation *)
Definition one (z : Z) : settings := [(lit "x", VInt z)].
Example inherit_case : Forall keyed [one 2; []; one 1] /\ differing [one 2; []; one 1].
Proof.
  split; [repeat (constructor; [apply keyed_dec; vm_compute; reflexivity|]); constructor|].
  repeat (constructor; [repeat (constructor; [first [left; reflexivity | right; rewrite <- settings_is; vm_compute; discriminate]|]); constructor|]). constructor.
Qed.
(** A class that sets a value back to that of its grandparent does not get it. *)
Theorem C39_equal_refuted : exists c, Forall keyed (rc_mro c) /\ rc_mro c = [one 1; one 2; one 1]
  /\ inherited (lit "x") (rc_mro c) = Some (VInt 1) /\ dget (lit "x") (class_settings c) = Some (VInt 2).
Proof.
  exists (Rcls KRenderer [one 1; one 2; one 1]). split; [repeat (constructor; [apply keyed_dec; vm_compute; reflexivity|]); constructor|].
  split; [reflexivity|]. split; vm_compute; reflexivity.
Qed.
Example program_case : proper_run world0 [SDefine (Some (one 1, false)); SDefine (Some (one 2, true)); SNew [1; 0]%nat None; SWrite 0 (lit "x") (VInt 3); SNew [0]%nat (Some 1%nat)].
Proof. cbn. repeat split; try (repeat constructor; fail); intros b X; try discriminate. injection X as <-. repeat constructor. Qed.

Print Assumptions C39_inherit_partial.
Print Assumptions C39_inherit_exact_partial.
Print Assumptions C39_left.
Print Assumptions C39_builtin.
Print Assumptions C39_override.
Print Assumptions C39_new_isolated.
Print Assumptions C39_write_isolated.
Print Assumptions C39_define_isolated.
Print Assumptions C39_equal_refuted.
