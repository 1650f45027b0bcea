(** Inherited settings. *)
From Verif Require Import BaseFacts.
From Verif Require Export SettingsSpec.

(** ** Equal values *)
Lemma numeric_is : forall v z, numeric v z <-> as_int v = Some z.
Proof.
  intros v z. split; [intros H; destruct H; reflexivity|]. destruct v as [|b|y|s|l|l|d]; cbn [as_int]; try discriminate.
  - destruct b; intros H; injection H as <-; constructor.
  - intros H; injection H as <-; constructor.
Qed.
Lemma equal_is : forall a b, val_eqb a b = true <-> equal_values a b.
Proof.
  assert (NUM : forall a b, (match as_int a, as_int b with Some x, Some y => (x =? y)%Z | _, _ => false end) = true <-> exists z, numeric a z /\ numeric b z).
  { intros a b. split.
    - destruct (as_int a) as [x|] eqn:EA; [|discriminate]. destruct (as_int b) as [y|] eqn:EB; [|discriminate]. intros H. apply Z.eqb_eq in H. subst y. exists x. split; now apply numeric_is.
    - intros (z & H1 & H2). apply numeric_is in H1, H2. rewrite H1, H2. apply Z.eqb_refl. }
  assert (LST : forall (l : list val) (P : forall a, In a l -> forall b, val_eqb a b = true <-> equal_values a b) m,
    (fix go (l m : list val) : bool := match l, m with [], [] => true | x :: l', y :: m' => val_eqb x y && go l' m' | _, _ => false end)%bool l m = true <-> Forall2 equal_values l m).
  { induction l as [|x l IH]; intros P [|y m].
    - split; auto.
    - split; [discriminate|]. intros F. inversion F.
    - split; [discriminate|]. intros F. inversion F.
    - rewrite Bool.andb_true_iff, (P x (or_introl eq_refl)), IH by (intros a I0; apply P; now right). split; [intros [H1 H2]; now constructor|]. intros F. inversion F; subst. auto. }
  assert (BASE : forall a b, (forall x y, numeric x y -> x <> a) -> (forall z, ~ (numeric a z /\ numeric b z))) by (intros a b H z [H1 _]; exact (H a z H1 eq_refl)).
  fix IH 1. intros a b. destruct a as [|x|x|s|l|l|d].
  - destruct b; cbn [val_eqb as_int]; split; try discriminate; try (intros _; constructor); intros F; inversion F; subst; try match goal with H : numeric VNone _ |- _ => inversion H end.
  - cbn [val_eqb]. destruct b; rewrite NUM; (split; [intros (q & H1 & H2); eapply ev_number; eauto|]); intros F; inversion F; subst; eauto.
  - cbn [val_eqb]. destruct b; rewrite NUM; (split; [intros (q & H1 & H2); eapply ev_number; eauto|]); intros F; inversion F; subst; eauto.
  - destruct b as [|y|y|u|m|m|e]; cbn [val_eqb as_int]; split; try discriminate; try (intros F; inversion F; subst; try match goal with H : numeric (VStr _) _ |- _ => inversion H end; apply seqb_refl).
    + intros H. apply seqb_eq in H. subst u. constructor.
  - destruct b as [|y|y|u|m|m|e]; cbn [val_eqb as_int]; try (split; [discriminate|]; intros F; inversion F; subst; match goal with H : numeric (VList _) _ |- _ => inversion H end).
    rewrite LST. 2:{ clear - IH. induction l as [|x l G]; intros a [].  - subst a. exact (IH x). - now apply G. }
    split; [apply ev_list|]. intros F. inversion F; subst; [match goal with H : numeric (VList _) _ |- _ => inversion H end|assumption].
  - destruct b as [|y|y|u|m|m|e]; cbn [val_eqb as_int]; try (split; [discriminate|]; intros F; inversion F; subst; match goal with H : numeric (VTuple _) _ |- _ => inversion H end).
    rewrite LST. 2:{ clear - IH. induction l as [|x l G]; intros a [].  - subst a. exact (IH x). - now apply G. }
    split; [apply ev_tuple|]. intros F. inversion F; subst; [match goal with H : numeric (VTuple _) _ |- _ => inversion H end|assumption].
  - destruct b as [|y|y|u|m|m|e]; cbn [val_eqb as_int]; try (split; [discriminate|]; intros F; inversion F; subst; match goal with H : numeric (VDict _) _ |- _ => inversion H end).
    assert (G : (fix go (d : list (str * val)) : bool := match d with [] => true | (k, v) :: d' => match dget k e with Some w => val_eqb v w && go d' | None => false end end)%bool d = true
      <-> Forall (fun kv => exists w, dget (fst kv) e = Some w /\ equal_values (snd kv) w) d).
    { clear - IH. induction d as [|[k v] d G]; [split; auto|]. split.
      - destruct (dget k e) as [w|] eqn:E; [|discriminate]. intros H. apply andb_prop in H as [H1 H2]. constructor; [|now apply G]. exists w. split; [exact E|]. now apply (IH v).
      - intros F. inversion F as [|? ? (w & E & H) F2]; subst. cbn [fst snd] in *. rewrite E. apply andb_true_intro. split; [now apply (IH v)|now apply G]. }
    rewrite Bool.andb_true_iff, G, Nat.eqb_eq. split; [intros [H1 H2]; now constructor|]. intros F. inversion F; subst; [match goal with H : numeric (VDict _) _ |- _ => inversion H end|auto].
Qed.
Lemma settings_is : forall a b, settings_eqb a b = true <-> equal_settings a b.
Proof. intros a b. apply equal_is. Qed.
(** What the model's test leaves. *)
Fixpoint kept (mro : list settings) : list settings :=
  match mro with
  | [] => []
  | s :: r => if existsb (settings_eqb s) (kept r) then kept r else s :: kept r
  end.
Lemma left_kept : forall mro l, left_of mro l <-> l = kept mro.
Proof.
  assert (H : forall mro, left_of mro (kept mro)).
  { induction mro as [|s r IH]; [constructor|]. cbn [kept]. destruct (existsb (settings_eqb s) (kept r)) eqn:E.
    - apply existsb_exists in E as (x & X1 & X2). apply settings_is in X2. eapply lo_repeat; eauto.
    - apply lo_other; auto. intros x I0 Q. apply settings_is in Q. assert (existsb (settings_eqb s) (kept r) = true) by (apply existsb_exists; eauto). congruence. }
  intros mro l. split; [|intros ->; apply H]. intros L. induction L as [|s r l x L IH I0 Q|s r l L IH N]; cbn [kept]; auto; subst l.
  - replace (existsb (settings_eqb s) (kept r)) with true; auto. symmetry. apply existsb_exists. exists x. split; auto. now apply settings_is.
  - destruct (existsb (settings_eqb s) (kept r)) eqn:E; auto. apply existsb_exists in E as (x & X1 & X2). apply settings_is in X2. now elim (N x X1).
Qed.

Lemma all_bases_app : forall l acc m, all_bases acc (l ++ m) = all_bases (all_bases acc l) m.
Proof. induction l as [|s l IH]; intros; cbn [app all_bases]; auto. Qed.
Lemma existsb_rev : forall {A} (f : A -> bool) l, existsb f (rev l) = existsb f l.
Proof.
  induction l as [|a l IH]; auto. cbn [rev]. rewrite existsb_app, IH. cbn [existsb]. rewrite Bool.orb_false_r. apply Bool.orb_comm.
Qed.
Lemma bases_kept : forall mro, all_bases [] (rev mro) = rev (kept mro).
Proof.
  induction mro as [|s r IH]; auto. cbn [rev kept]. rewrite all_bases_app, IH. cbn [all_bases]. rewrite existsb_rev.
  destruct (existsb (settings_eqb s) (kept r)); reflexivity.
Qed.
Lemma fold_update : forall l k, Forall keyed l -> forall d,
  dget k (fold_left dupdate (rev l) d) = match inherited k l with Some v => Some v | None => dget k d end.
Proof.
  induction l as [|s l IH]; intros k H d; auto. inversion H; subst. cbn [rev inherited]. rewrite fold_left_app. cbn [fold_left].
  rewrite dget_dupdate by assumption. destruct (dget k s); auto.
Qed.
Lemma kept_sub : forall mro s, In s (kept mro) -> In s mro.
Proof. induction mro as [|a r IH]; intros s H; auto. cbn [kept] in H. destruct (existsb _ _); [right; auto|]. destruct H; [left|right]; auto. Qed.
Lemma kept_differing : forall mro, differing mro -> forall k, inherited k (kept mro) = inherited k mro.
Proof.
  induction mro as [|s r IH]; intros D k; auto. inversion D; subst. cbn [kept]. specialize (IH H2 k).
  destruct (existsb (settings_eqb s) (kept r)) eqn:E; cbn [inherited]; rewrite IH; auto.
  apply existsb_exists in E as (x & X1 & X2). apply kept_sub in X1. destruct (proj1 (Forall_forall _ _) H1 x X1) as [-> |F]; [reflexivity|]. apply settings_is in X2. contradiction.
Qed.
Lemma class_get : forall c k, Forall keyed (rc_mro c) -> dget k (class_settings c) = inherited k (kept (rc_mro c)).
Proof.
  intros c k H. unfold class_settings. rewrite bases_kept, fold_update; [now destruct (inherited _ _)|].
  apply Forall_forall. intros s I. apply kept_sub in I. exact (proj1 (Forall_forall _ _) H s I).
Qed.
Lemma adjust_get : forall s c k, (forall l, c_settings c = Some l -> keyed l) ->
  dget k (adjust s c) = overridden k (c_settings c) (dget k s).
Proof.
  intros s c k H. unfold adjust, overridden. destruct (c_settings c) as [l|]; auto. now rewrite dget_dupdate by (apply H; auto).
Qed.

(** ** Objects *)
Lemma set_nth_length : forall {A} (l : list A) i x, length (set_nth l i x) = length l.
Proof. induction l; intros [|i] x; cbn [set_nth length]; auto. Qed.
Lemma set_nth_same : forall {A} (l : list A) i x d, i < length l -> nth i (set_nth l i x) d = x.
Proof. induction l as [|a l IH]; intros [|i] x d H; cbn [length] in H; try lia; auto. cbn [set_nth nth]. apply IH. lia. Qed.
Lemma set_nth_other : forall {A} (l : list A) i j x d, i <> j -> nth j (set_nth l i x) d = nth j l d.
Proof. induction l as [|a l IH]; intros [|i] [|j] x d H; cbn [set_nth nth]; auto; try lia. Qed.
Lemma nth_error_set : forall {A} (l : list A) i j x, nth_error (set_nth l i x) j = if Nat.eqb i j then (if Nat.ltb j (length l) then Some x else None) else nth_error l j.
Proof.
  induction l as [|a l IH]; intros [|i] [|j] x; cbn [set_nth nth_error Nat.eqb length]; auto.
  - destruct (Nat.eqb i j); auto.
  - apply IH.
Qed.

(** Only the object at [a] is updated. *)
Lemma update_other : forall l a e b, a <> b -> dict_at (update_at l a e) b = dict_at l b.
Proof. intros. unfold update_at, dict_at. now apply set_nth_other. Qed.
Lemma update_same : forall l a e, a < length l -> dict_at (update_at l a e) a = dupdate (dict_at l a) e.
Proof. intros. unfold update_at, dict_at at 1. now apply set_nth_same. Qed.
Lemma update_length : forall l a e, length (update_at l a e) = length l.
Proof. intros. apply set_nth_length. Qed.
Lemma fold_updates : forall refs l a, a < length l -> Forall (fun b => b < a) refs ->
  let l' := fold_left (fun l b => update_at l a (dict_at l b)) refs l in
  length l' = length l /\ (forall b, b <> a -> dict_at l' b = dict_at l b)
  /\ dict_at l' a = fold_left dupdate (map (dict_at l) refs) (dict_at l a).
Proof.
  induction refs as [|r refs IH]; intros l a LT F; cbn [fold_left map]; [auto|]. inversion F; subst.
  destruct (IH (update_at l a (dict_at l r)) a) as (A1 & A2 & A3); auto; [now rewrite update_length|].
  split; [now rewrite A1, update_length|]. split.
  - intros b NE. rewrite A2 by exact NE. apply update_other. auto.
  - rewrite A3, update_same by exact LT. f_equal. apply map_ext_in. intros b I. apply update_other.
    pose proof (proj1 (Forall_forall _ _) H2 b I) as L. cbv beta in L. lia.
Qed.
Lemma base_refs_vals : forall l rmro acc, map (dict_at l) (base_refs l acc rmro) = all_bases (map (dict_at l) acc) (map (dict_at l) rmro).
Proof.
  intros l. induction rmro as [|a r IH]; intros acc; cbn [base_refs map all_bases]; auto. rewrite IH. f_equal.
  assert (E : existsb (fun b => settings_eqb (dict_at l a) (dict_at l b)) acc = existsb (settings_eqb (dict_at l a)) (map (dict_at l) acc)).
  { induction acc as [|b acc IHa]; cbn [existsb map]; auto. now rewrite IHa. }
  rewrite <- E. destruct (existsb _ acc); auto. now rewrite map_app.
Qed.
Lemma base_refs_in : forall l rmro acc b, In b (base_refs l acc rmro) -> In b acc \/ In b rmro.
Proof.
  intros l. induction rmro as [|a r IH]; intros acc b H; cbn [base_refs] in H; auto. apply IH in H as [H|H]; [|right; now right].
  destruct (existsb _ _) in H; [auto|]. apply in_app_or in H as [H|[<-|[]]]; auto. right; now left.
Qed.

(** Distinct owners of the dictionaries in use. *)
Record sane (w : world) : Prop := {
  sn_class : Forall (fun a => a < length (w_dicts w)) (w_classes w);
  sn_inst : Forall (fun x => fst x < length (w_dicts w)) (w_insts w);
  sn_nodup : NoDup (w_classes w ++ map fst (w_insts w)) }.
Lemma nodup_snoc : forall {A} (l : list A) x, NoDup l -> ~ In x l -> NoDup (l ++ [x]).
Proof. intros A l x H N. apply NoDup_rev in H. rewrite <- (rev_involutive (l ++ [x])). apply NoDup_rev. rewrite rev_app_distr. cbn. constructor; auto. now rewrite <- in_rev. Qed.
Lemma fresh_notin : forall (l : list nat) n, Forall (fun a => a < n) l -> ~ In n l.
Proof. intros l n H I. pose proof (proj1 (Forall_forall _ _) H n I). cbn in *. lia. Qed.
Lemma nodup_insert : forall {A} (l m : list A) x, NoDup (l ++ m) -> ~ In x l -> ~ In x m -> NoDup ((l ++ [x]) ++ m).
Proof.
  intros A l m x H N1 N2. rewrite <- app_assoc. apply NoDup_Add with (a := x) (l := l ++ m). apply Add_app. split; auto. rewrite in_app_iff. tauto.
Qed.
Lemma forall_fst : forall (l : list (nat * bool)) n, Forall (fun x => fst x < n) l -> Forall (fun a => a < n) (map fst l).
Proof. intros. now apply Forall_map. Qed.
Lemma forall_le : forall {A} (f : A -> nat) l n m, Forall (fun x => f x < n) l -> n <= m -> Forall (fun x => f x < m) l.
Proof. intros A f l n m H L. eapply Forall_impl; [|exact H]. cbn. intros. lia. Qed.
Lemma define_sane : forall b w, sane w -> sane (define_class b w).
Proof.
  intros b w [H1 H2 H3]. pose proof (fresh_notin _ _ H1) as N1. pose proof (fresh_notin _ _ (forall_fst _ _ H2)) as N2.
  assert (N3 : ~ In (S (length (w_dicts w))) (w_classes w)) by (apply fresh_notin; apply (forall_le (fun a => a)) with (n := length (w_dicts w)); auto).
  assert (N4 : ~ In (S (length (w_dicts w))) (map fst (w_insts w))).
  { apply fresh_notin. apply forall_fst. apply (forall_le fst) with (n := length (w_dicts w)); auto. }
  destruct b as [[s [|]]|]; constructor; cbn [define_class w_dicts w_classes w_insts]; rewrite ?app_length; cbn [length];
    try (apply Forall_app; split; [apply (forall_le (fun a => a)) with (n := length (w_dicts w)); auto; lia|constructor; [lia|constructor]]);
    try (apply (forall_le fst) with (n := length (w_dicts w)); auto; lia); now apply nodup_insert.
Qed.
Lemma insts_snoc_sane : forall w l a b, sane w -> a = length (w_dicts w) -> length l = S a -> sane (World l (w_classes w) (w_insts w ++ [(a, b)])).
Proof.
  intros w l a b [H1 H2 H3] -> HL. constructor; cbn [w_dicts w_classes w_insts]; rewrite ?HL.
  - apply (forall_le (fun a => a)) with (n := length (w_dicts w)); auto.
  - apply Forall_app; split; [apply (forall_le fst) with (n := length (w_dicts w)); auto|constructor; cbn; auto].
  - rewrite map_app. cbn [map fst]. rewrite app_assoc. apply nodup_snoc; auto. rewrite in_app_iff. intros [I|I].
    + now apply (fresh_notin _ _ H1). + now apply (fresh_notin _ _ (forall_fst _ _ H2)).
Qed.
Lemma class_dict_lt : forall w c, sane w -> In c (w_classes w) -> c < length (w_dicts w).
Proof. intros w c [H _ _] I. exact (proj1 (Forall_forall _ _) H c I). Qed.

(** What a new instance is made of. *)
Lemma new_spec : forall w mro local, sane w -> Forall (fun c => c < length (w_classes w)) mro ->
  (forall b, local = Some b -> b < length (w_dicts w)) ->
  let w' := new_instance mro local w in
  let a := length (w_dicts w) in
  w_classes w' = w_classes w /\ w_insts w' = w_insts w ++ [(a, true)] /\ length (w_dicts w') = S a
  /\ (forall b, b < a -> dict_at (w_dicts w') b = dict_at (w_dicts w) b)
  /\ dict_at (w_dicts w') a =
       (let s := class_settings (Rcls KRenderer (map (fun c => dict_at (w_dicts w) (class_dict w c)) mro)) in
        match local with Some b => dupdate s (dict_at (w_dicts w) b) | None => s end).
Proof.
  intros w mro local SN HM HL w' a. unfold new_instance in w'. fold a in w'.
  set (refs := base_refs (w_dicts w) [] (map (class_dict w) (rev mro))) in *.
  assert (RL : Forall (fun b => b < a) refs).
  { apply Forall_forall. intros b I. apply base_refs_in in I as [[]|I]. apply in_map_iff in I as (c & <- & I). apply in_rev in I.
    pose proof (proj1 (Forall_forall _ _) HM c I) as L. cbn in L. apply class_dict_lt; auto. apply nth_In. exact L. }
  assert (L0 : a < length (w_dicts w ++ [[]])) by (rewrite app_length; cbn; unfold a; lia).
  destruct (fold_updates refs _ a L0 RL) as (F1 & F2 & F3).
  assert (OLD : forall b, b < a -> dict_at (w_dicts w ++ [[]]) b = dict_at (w_dicts w) b) by (intros b L; unfold dict_at; now apply app_nth1).
  assert (NEW : dict_at (w_dicts w ++ [[]]) a = []) by (unfold dict_at; rewrite app_nth2 by (unfold a; lia); unfold a; now rewrite Nat.sub_diag).
  assert (CS : fold_left dupdate (map (dict_at (w_dicts w ++ [[]])) refs) (dict_at (w_dicts w ++ [[]]) a)
    = class_settings (Rcls KRenderer (map (fun c => dict_at (w_dicts w) (class_dict w c)) mro))).
  { rewrite NEW. unfold class_settings. cbn [rc_mro].
    rewrite (map_ext_in _ (dict_at (w_dicts w)) refs) by (intros b I; apply OLD; exact (proj1 (Forall_forall _ _) RL b I)).
    unfold refs. rewrite base_refs_vals. cbn [map]. rewrite <- map_rev, map_map. reflexivity. }
  cbv zeta in F1, F2, F3. rewrite CS in F3. unfold w'. clear w'. cbn [w_dicts w_classes w_insts]. split; [reflexivity|]. split; [reflexivity|].
  set (l1 := fold_left _ refs _) in *. clearbody l1. rewrite app_length in F1, L0. cbn [length] in F1.
  assert (LA : a < length l1) by (rewrite F1; unfold a; lia).
  destruct local as [b|].
  - pose proof (HL b eq_refl) as LB. split; [rewrite update_length, F1; unfold a; lia|]. split.
    + intros c L. rewrite update_other by lia. rewrite F2 by lia. auto.
    + rewrite update_same by exact LA. rewrite F3. f_equal. rewrite F2 by (unfold a; lia). auto.
  - split; [rewrite F1; unfold a; lia|]. split; auto. intros c L. rewrite F2 by lia. auto.
Qed.
Lemma step_sane : forall w o, sane w -> proper w o -> sane (sstep w o).
Proof.
  intros w o SN P. destruct o as [b|mro local|i k v|i s n]; cbn [sstep].
  - now apply define_sane.
  - destruct P as [P1 P2]. destruct (new_spec w mro local SN P1 P2) as (A1 & A2 & A3 & _). cbv zeta in *.
    destruct (new_instance mro local w) as [l c ins] eqn:E. cbn [w_dicts w_classes w_insts] in *. subst c ins. now apply insts_snoc_sane.
  - unfold write_setting, get_settings. destruct (nth_error (w_insts w) i) as [[a [|]]|]; auto; destruct SN as [H1 H2 H3];
      constructor; cbn [w_dicts w_classes w_insts]; rewrite ?set_nth_length, ?app_length; cbn [length]; auto.
    + apply (forall_le (fun a => a)) with (n := length (w_dicts w)); auto. lia.
    + apply (forall_le fst) with (n := length (w_dicts w)); auto. lia.
  - unfold assign_settings. destruct (nth_error (w_insts w) i) as [[a b]|] eqn:E; auto. destruct SN as [H1 H2 H3].
    apply nth_error_split in E as (l1 & l2 & E & EL).
    assert (SE : set_nth (w_insts w) i (length (w_dicts w), n) = l1 ++ (length (w_dicts w), n) :: l2).
    { rewrite E. subst i. clear. induction l1; cbn [length app set_nth]; auto. now rewrite IHl1. }
    constructor; cbn [w_dicts w_classes w_insts]; rewrite ?app_length; cbn [length].
    + apply (forall_le (fun a => a)) with (n := length (w_dicts w)); auto. lia.
    + rewrite SE. rewrite E in H2. apply Forall_app in H2 as [Q1 Q2]. inversion Q2; subst. apply Forall_app. split; [|constructor; [cbn; lia|]].
      * apply (forall_le fst) with (n := length (w_dicts w)); auto. lia. * apply (forall_le fst) with (n := length (w_dicts w)); auto. lia.
    + rewrite SE. rewrite E in H2, H3. rewrite map_app in *. cbn [map fst] in *. rewrite app_assoc in *. apply NoDup_remove in H3 as [H3 H4].
      apply NoDup_Add with (a := length (w_dicts w)) (l := (w_classes w ++ map fst l1) ++ map fst l2); [apply Add_app|]. split; auto.
      apply Forall_app in H2 as [Q1 Q2]. inversion Q2 as [|z zs Z1 Z2]; subst. rewrite !in_app_iff. intros [[I|I]|I].
      * now apply (fresh_notin _ _ H1). * now apply (fresh_notin _ _ (forall_fst _ _ Q1)). * now apply (fresh_notin _ _ (forall_fst _ _ Z2)).
Qed.
Lemma run_sane : forall ops w, sane w -> proper_run w ops -> sane (fold_left sstep ops w).
Proof. induction ops as [|o ops IH]; intros w SN P; cbn [fold_left]; auto. destruct P. apply IH; auto. now apply step_sane. Qed.
Lemma sane0 : sane world0.
Proof. constructor; constructor. Qed.

(** Views only depend on the owned dictionaries. *)
Lemma inst_view_eq : forall w i, inst_view w i = option_map (fun '(a, b) => if b : bool then dict_at (w_dicts w) a else dupdate [] (dict_at (w_dicts w) a)) (nth_error (w_insts w) i).
Proof.
  intros w i. unfold inst_view, get_settings. destruct (nth_error (w_insts w) i) as [[a [|]]|]; auto. cbn [option_map]. f_equal. cbn [w_dicts].
  unfold dict_at at 1. rewrite app_nth2, Nat.sub_diag by lia. reflexivity.
Qed.

(** Deciding [keyed]. *)
Fixpoint keyedb (s : settings) : bool :=
  match s with [] => true | (k, _) :: r => match dget k r with Some _ => false | None => keyedb r end end.
Lemma keyed_dec : forall s, keyedb s = true -> keyed s.
Proof.
  induction s as [|[k v] s IH]; intros H; [constructor|]. cbn [keyedb] in H. destruct (dget k s) eqn:E; [discriminate|].
  constructor; [|apply IH; exact H]. intros I. apply (dget_In_keys s k) in I. auto.
Qed.
Lemma nodup_right : forall {A} (l m : list A), NoDup (l ++ m) -> NoDup m.
Proof. induction l as [|a l IH]; intros m H; auto. inversion H; subst. auto. Qed.
