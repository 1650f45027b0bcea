(** C40: namedict is one map with two access syntaxes. *)
From Verif Require Import BaseFacts NamedictSpec SettingsSpec Fixture.

(** Any sequence of item operations (any key) and attribute operations (names
    dict does not define) on a namedict made from any dict gives, at every step,
    what the same sequence gives on a single map; and the final content is that
    map. *)
Theorem C40_one_map : forall (A : Type) (d : dict A) (ops : list (nd_op A)),
  NoDup (map fst d) -> Forall attr_ok ops ->
  let (s, outs) := nd_run (nd_of d) ops in
  let (m, outs') := map_run (fun k => dget k d) ops in
  outs = outs' /\ forall k, dget k (nd_map s) = m k.
Proof.
  intros A d ops HD HO.
  assert (G : forall ops (s : namedict A) (m : map1), Forall attr_ok ops -> nd_inst s = [] ->
              NoDup (map fst (nd_map s)) -> (forall k, dget k (nd_map s) = m k) ->
              let (s', outs) := nd_run s ops in let (m', outs') := map_run m ops in
              outs = outs' /\ forall k, dget k (nd_map s') = m' k).
  { clear. induction ops as [|o ops IH]; intros s m HO HI HD HM; [simpl; auto|].
    inversion HO as [|? ? Ho HO']; subst. cbn [nd_run map_run].
    assert (R : forall k, ~ In k type_attrs -> reserved k = false).
    { intros k K. unfold reserved. destruct (smem k type_attrs) eqn:E; auto. apply smem_In in E. contradiction. }
    assert (S1 : let (s1, x) := nd_step s o in let (m1, y) := map_step m o in
                 x = y /\ nd_inst s1 = [] /\ NoDup (map fst (nd_map s1)) /\ forall k, dget k (nd_map s1) = m1 k).
    { assert (SET : forall k v, nd_inst (nd_setitem s k v) = [] /\ NoDup (map fst (nd_map (nd_setitem s k v)))
                    /\ forall k', dget k' (nd_map (nd_setitem s k v)) = put m k (Some v) k').
      { intros k v; cbn [nd_setitem nd_inst nd_map]. split; [exact HI|]. split; [now apply (dset_NoDup (nd_map s))|].
        intros k'. rewrite dget_dset. unfold put. rewrite HM, seqb_sym. reflexivity. }
      assert (DEL : forall k, NoDup (map fst (ddel k (nd_map s))) /\ forall k', dget k' (ddel k (nd_map s)) = put m k None k').
      { intros k. split.
        - clear - HD. induction (nd_map s) as [|[k' v] r IHr]; simpl; auto. inversion HD; subst.
          destruct (seqb k k'); auto. simpl. constructor; [|auto]. intros I. apply H1. clear - I.
          induction r as [|[k2 v2] r IHr]; simpl in *; auto. destruct (seqb k k2); simpl in *; auto. destruct I; auto.
        - intros k'. unfold put. destruct (seqb k k') eqn:E.
          + apply seqb_eq in E as <-. now apply dget_ddel_same.
          + apply seqb_neq in E. rewrite dget_ddel_other by auto. apply HM. }
      destruct o as [k|k v|k|k|k v|k]; cbn [nd_step map_step attr_ok] in *.
      - unfold nd_getitem. rewrite HM. destruct (m k); auto.
      - split; [reflexivity|]. apply (SET k v).
      - unfold nd_delitem, dhas. rewrite HM. destruct (m k); auto. cbn [nd_inst nd_map]. destruct (DEL k). auto.
      - unfold nd_getattr. rewrite HI. cbn [dget]. rewrite (R k Ho), HM. destruct (m k); auto.
      - split; [reflexivity|]. unfold nd_setattr, nd_hasattr, nd_getattr, dhas. rewrite HI. cbn [dget].
        rewrite (R k Ho). destruct (dget k (nd_map s)); cbn [andb negb]; apply (SET k v).
      - unfold nd_delattr, nd_hasattr, nd_getattr, nd_delitem, dhas. rewrite HI. cbn [dget]. rewrite (R k Ho), HM.
        destruct (m k); cbn [andb negb]; auto. cbn [nd_inst nd_map]. destruct (DEL k). auto. }
    destruct (nd_step s o) as [s1 x]. destruct (map_step m o) as [m1 y]. destruct S1 as (<- & I1 & N1 & M1).
    specialize (IH s1 m1 HO' I1 N1 M1). destruct (nd_run s1 ops) as [s2 xs]. destruct (map_run m1 ops) as [m2 ys].
    destruct IH as [<- M2]. auto. }
  apply (G ops (nd_of d) (fun k => dget k d)); auto.
Qed.
Print Assumptions C40_one_map.
Example C40_case :
  Forall (@attr_ok Z) [OSetAttr (lit "bold") 1%Z; OGetItem (lit "bold"); ODelItem (lit "keys"); ODelAttr (lit "bold"); OGetAttr (lit "bold")]
  /\ snd (nd_run (nd_of [(lit "keys", 7%Z)])
     [OSetAttr (lit "bold") 1%Z; OGetItem (lit "bold"); ODelItem (lit "keys"); ODelAttr (lit "bold"); OGetAttr (lit "bold")])
  = [RNone; RVal 1%Z; RNone; RNone; RErr EAttr].
Proof.
  split; [|reflexivity].
  repeat constructor; cbn [attr_ok]; intros H; apply smem_In in H; vm_compute in H; discriminate.
Qed.

(** For a name dict defines, an attribute write does not reach the map: the
    restriction on names is needed. *)
Theorem C40_reserved_names_differ : exists (ops : list (nd_op Z)),
  snd (nd_run (nd_of []) ops) <> snd (map_run (fun _ => None) ops).
Proof. exists [OSetAttr (lit "items") 1%Z; OGetItem (lit "items")]. vm_compute. discriminate. Qed.
Print Assumptions C40_reserved_names_differ.

(** C40, all names: any sequence of operations whatever. *)
Theorem C40_all_names : forall (A : Type) (d : dict A) (ops : list (nd_op A)), NoDup (map fst d) ->
  let (s, outs) := nd_run (nd_of d) ops in
  let '(m, a, outs') := both_run (fun k => dget k d) (fun _ => None) ops in
  outs = outs' /\ (forall k, dget k (nd_map s) = m k) /\ forall k, dget k (nd_inst s) = a k.
Proof.
  intros A d ops HD.
  assert (DEL : forall (d : dict A) k, NoDup (map fst d) -> NoDup (map fst (ddel k d)) /\ forall k', dget k' (ddel k d) = put (fun k => dget k d) k None k').
  { clear. intros d k HD. split.
    - induction d as [|[k' v] r IHr]; simpl; auto. inversion HD; subst. destruct (seqb k k'); auto. simpl. constructor; [|auto]. intros I. apply H1. clear - I.
      induction r as [|[k2 v2] r IHr]; simpl in *; auto. destruct (seqb k k2); simpl in *; auto. destruct I; auto.
    - intros k'. unfold put. destruct (seqb k k') eqn:E; [apply seqb_eq in E as <-; now apply dget_ddel_same|]. apply seqb_neq in E. now rewrite dget_ddel_other by auto. }
  assert (SET : forall (d : dict A) k v, NoDup (map fst d) -> NoDup (map fst (dset k v d)) /\ forall k', dget k' (dset k v d) = put (fun k => dget k d) k (Some v) k').
  { clear. intros d k v HD. split; [now apply dset_NoDup|]. intros k'. rewrite dget_dset. unfold put. now rewrite seqb_sym. }
  assert (PUT : forall (f g : map1) k (v : option A), (forall x, f x = g x) -> forall x, put f k v x = put g k v x) by (intros f g k v H x; unfold put; now rewrite H).
  assert (G : forall ops (s : namedict A) (m a : map1), NoDup (map fst (nd_map s)) -> NoDup (map fst (nd_inst s)) ->
              (forall k, dget k (nd_map s) = m k) -> (forall k, dget k (nd_inst s) = a k) -> (forall k, a k <> None -> reserved k = true) ->
              let (s', outs) := nd_run s ops in let '(m', a', outs') := both_run m a ops in
              outs = outs' /\ (forall k, dget k (nd_map s') = m' k) /\ forall k, dget k (nd_inst s') = a' k).
  { clear ops d HD. induction ops as [|o ops' IH]; intros s m a N1 N2 HM HA HR; [simpl; auto|]. cbn [nd_run both_run].
    assert (S1 : let (s1, x) := nd_step s o in let '(m1, a1, y) := both_step m a o in
                 x = y /\ NoDup (map fst (nd_map s1)) /\ NoDup (map fst (nd_inst s1)) /\ (forall k, dget k (nd_map s1) = m1 k) /\ (forall k, dget k (nd_inst s1) = a1 k) /\ (forall k, a1 k <> None -> reserved k = true)).
    { assert (SM : forall k v, NoDup (map fst (dset k v (nd_map s))) /\ forall k', dget k' (dset k v (nd_map s)) = put m k (Some v) k').
      { intros k v. destruct (SET (nd_map s) k v N1) as [Q1 Q2]. split; [exact Q1|]. intros k'. rewrite Q2. now apply PUT. }
      assert (DM : forall k, NoDup (map fst (ddel k (nd_map s))) /\ forall k', dget k' (ddel k (nd_map s)) = put m k None k').
      { intros k. destruct (DEL (nd_map s) k N1) as [Q1 Q2]. split; [exact Q1|]. intros k'. rewrite Q2. now apply PUT. }
      assert (RR : forall k, reserved k = smem k type_attrs) by reflexivity.
      destruct o as [k|k v|k|k|k v|k]; cbn [nd_step both_step] in *.
      - unfold nd_getitem. rewrite HM. destruct (m k); repeat split; auto.
      - cbn [nd_setitem nd_map nd_inst]. destruct (SM k v). repeat split; auto.
      - unfold nd_delitem, dhas. rewrite HM. destruct (m k); cbn [nd_map nd_inst]; [|repeat split; auto]. destruct (DM k). repeat split; auto.
      - unfold nd_getattr. rewrite HA, <- RR. specialize (HR k) as HRk. destruct (a k) as [v|]; [rewrite (HRk ltac:(discriminate)); repeat split; auto|]. destruct (reserved k); [repeat split; auto|]. rewrite HM. destruct (m k); repeat split; auto.
      - unfold nd_setattr, nd_hasattr, nd_getattr, dhas, nd_setitem. rewrite HA, HM, <- RR. destruct (SM k v) as [Q1 Q2]. specialize (HR k) as HRk.
        destruct (m k) as [w|].
        + rewrite Bool.andb_false_r. cbn [nd_map nd_inst]. repeat split; auto.
        + destruct (SET (nd_inst s) k v N2) as [Q3 Q4].
          assert (SI : forall k', dget k' (dset k v (nd_inst s)) = put a k (Some v) k') by (intros k'; rewrite Q4; now apply PUT).
          assert (RS : reserved k = true -> forall k', put a k (Some v) k' <> None -> reserved k' = true) by (intros RK k'; unfold put; destruct (seqb k k') eqn:E; [apply seqb_eq in E as <-; auto|apply HR]).
          destruct (a k) as [x|]; [rewrite (HRk ltac:(discriminate))|destruct (reserved k) eqn:RK]; cbn [andb negb nd_map nd_inst]; repeat split; auto. apply RS. apply HRk. discriminate.
      - unfold nd_delattr, nd_hasattr, nd_getattr, nd_delitem, dhas. rewrite HA, HM. destruct (DM k) as [Q1 Q2]. specialize (HR k) as HRk. destruct (m k) as [w|].
        + rewrite Bool.andb_false_r. cbn [nd_map nd_inst]. repeat split; auto.
        + destruct (DEL (nd_inst s) k N2) as [Q3 Q4].
          assert (SI : forall k', dget k' (ddel k (nd_inst s)) = put a k None k') by (intros k'; rewrite Q4; now apply PUT).
          assert (RS : forall k', put a k None k' <> None -> reserved k' = true) by (intros k'; unfold put; destruct (seqb k k'); [congruence|apply HR]).
          destruct (a k) as [x|]; cbn [andb negb nd_map nd_inst]; [repeat split; auto|]. destruct (reserved k); cbn [andb negb]; repeat split; auto. }
    destruct (nd_step s o) as [s1 x]. destruct (both_step m a o) as [[m1 a1] y]. destruct S1 as (<- & N1' & N2' & M1 & A1 & R1).
    specialize (IH s1 m1 a1 N1' N2' M1 A1 R1). destruct (nd_run s1 ops') as [s2 xs]. destruct (both_run m1 a1 ops') as [[m2 a2] ys].
    destruct IH as (<- & M2 & A2). auto. }
  apply (G ops (nd_of d) (fun k => dget k d) (fun _ => None)); auto; try constructor; congruence.
Qed.
Print Assumptions C40_all_names.
(** An attribute that shadows a method, then a key of that name. *)
Example C40_names_case : snd (both_run (fun _ => None) (fun _ => None)
    [OSetAttr (lit "items") 1%Z; OGetItem (lit "items"); OGetAttr (lit "items"); OSetItem (lit "items") 2%Z; OSetAttr (lit "items") 3%Z; OGetItem (lit "items");
     OGetAttr (lit "items"); ODelAttr (lit "items"); ODelAttr (lit "items"); OGetAttr (lit "items"); ODelAttr (lit "items")])
  = [RNone; RErr EKey; RVal 1%Z; RNone; RNone; RVal 3%Z; RVal 1%Z; RNone; RNone; RType (lit "items"); RErr EAttr].
Proof. vm_compute. reflexivity. Qed.

(** C40, the names concerned: those of dict's methods, and others that begin and end
    with two underscores. *)
Theorem C40_reserved : forall k, In k type_attrs ->
  In k (map lit ["clear"; "copy"; "fromkeys"; "get"; "items"; "keys"; "pop"; "popitem"; "setdefault"; "update"; "values"]%string)
  \/ exists m, k = lit "__" ++ m ++ lit "__".
Proof.
  assert (A : forallb (fun k => smem k (map lit ["clear"; "copy"; "fromkeys"; "get"; "items"; "keys"; "pop"; "popitem"; "setdefault"; "update"; "values"]%string)
      || seqb k (lit "__" ++ rev (skipn 2 (rev (skipn 2 k))) ++ lit "__")) type_attrs = true) by (vm_compute; reflexivity).
  rewrite forallb_forall in A. intros k J. specialize (A k J). apply Bool.orb_prop in A as [A|A]; [left; now apply smem_In|right]. apply seqb_eq in A. eauto.
Qed.
Print Assumptions C40_reserved.
Theorem C40_methods : forall k, In k (map lit ["clear"; "copy"; "fromkeys"; "get"; "items"; "keys"; "pop"; "popitem"; "setdefault"; "update"; "values"]%string) -> In k type_attrs.
Proof.
  assert (A : forallb (fun k => smem k type_attrs) (map lit ["clear"; "copy"; "fromkeys"; "get"; "items"; "keys"; "pop"; "popitem"; "setdefault"; "update"; "values"]%string) = true) by (vm_compute; reflexivity).
  rewrite forallb_forall in A. intros k J. now apply smem_In, A.
Qed.
Print Assumptions C40_methods.
(** No setting of a built-in renderer has such a name: each is one entry, whichever
    syntax reads it. *)
Theorem C40_settings : forall cl key v, In cl builtin -> dget key (class_settings cl) = Some v -> ~ In key type_attrs.
Proof.
  assert (A : forallb (fun cl => forallb (fun p => negb (smem (fst p) type_attrs)) (class_settings cl)) builtin = true) by (vm_compute; reflexivity).
  rewrite forallb_forall in A. intros cl key v J E. specialize (A cl J). rewrite forallb_forall in A.
  assert (X : In (key, v) (class_settings cl)).
  { clear A J. revert E. generalize (class_settings cl). intros s. induction s as [|[k w] s IH]; cbn [dget]; intros H; [discriminate H|]. destruct (seqb key k) eqn:Q; [apply seqb_eq in Q as ->; injection H as ->; now left|right; auto]. }
  specialize (A _ X). cbn [fst] in A. intros K. apply smem_In in K. rewrite K in A. discriminate.
Qed.
Print Assumptions C40_settings.
