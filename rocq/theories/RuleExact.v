(** Exactly which renderer and settings the library's own rule table
    (_parser.py:383-442) gives an element at a given position. *)
From Verif Require Import BaseFacts StrFacts SelFacts TreeFacts.
From Verif Require Export RuleFacts PageSpec.

(** The tags around a node, innermost first. *)
Inductive ancestry (d : dom) : pref -> list str -> Prop :=
| anc_root : ancestry d PRoot []
| anc_node : forall j m t rest, node_at d j = Some m -> n_tag m = Some t -> n_data m = None ->
    ancestry d (n_parent m) rest -> ancestry d (PNode j) (t :: rest).
(** Element [i] stands at position [p]. *)
Record stands (d : dom) (i : nat) (n : node) (p : pos) : Prop := {
  st_up : ancestry d (n_parent n) (ps_up p);
  st_first : match tag_children d (n_parent n) with x :: _ => Nat.eqb x i | [] => false end = ps_first p;
  st_last : match rev (tag_children d (n_parent n)) with x :: _ => Nat.eqb x i | [] => false end = ps_last p;
  st_index : nat_index i (children_of d (n_parent n)) = Some (ps_index p) }.

(** The settings its rules add. *)
Definition rule_settings (t : str) (p : pos) : settings :=
  if seqb t (lit "p") then
    if inside "blockquote" p then
      match ps_first p, ps_last p with
      | true, true => margin_setting [0; 0; 0; 0]%Z
      | true, false => margin_setting [0; 0; 1; 0]%Z
      | false, true => margin_setting [1; 0; 0; 0]%Z
      | false, false => []
      end
    else []
  else if seqb t (lit "li") then
    if ps_first p then margin_setting [if sublist p then 1%Z else 0%Z; 0; 0; 0]%Z else []
  else if seqb t (lit "dt") then if ps_first p then margin_setting [0; 0; 0; 0]%Z else []
  else [].

Section R.
Variable d : dom.
Variable i : nat.
Variable n : node.
Variable t : str.
Variable p : pos.
Hypothesis HN : node_at d i = Some n.
Hypothesis HT : n_tag n = Some t.
Hypothesis HD : n_data n = None.
Hypothesis HS : stands d i n p.

Lemma parent_is : parent_of d (ONode i) = Some (n_parent n).
Proof. unfold parent_of. rewrite HN. pose proof (st_up _ _ _ _ HS) as A. destruct (n_parent n); auto. inversion A. Qed.
Lemma around_match : forall e, element_matches d (obj_of (n_parent n)) (Some (lit e)) = inside e p.
Proof.
  intros e. pose proof (st_up _ _ _ _ HS) as A. unfold inside. inversion A as [E1 E2|j m x rest N1 N2 N3 A2 E1 E2]; cbn [obj_of]; [reflexivity|].
  unfold element_matches, is_data. rewrite N1, N2, N3. reflexivity.
Qed.
Lemma index_last : forall (l : list nat), l <> [] -> py_index l (-1) = match rev l with x :: _ => Ok x | [] => Err EIndex end.
Proof.
  intros l NE. destruct (exists_last NE) as (l' & x & ->). rewrite rev_app_distr. cbn [rev app]. unfold py_index.
  rewrite app_length. cbn [length]. change (-1 <? 0)%Z with true. cbv iota. set (k := Z.of_nat (length l' + 1)).
  assert (K : (1 <= k)%Z) by (unfold k; lia). rewrite (proj2 (Z.ltb_ge _ _)) by lia. rewrite (proj2 (Z.leb_gt _ _)) by lia. cbn [orb].
  replace (Z.to_nat (-1 + k)) with (length l') by (unfold k; lia). rewrite nth_error_app2 by lia. now rewrite Nat.sub_diag.
Qed.
Lemma index_first : forall (x : nat) l, py_index (x :: l) 0 = Ok x.
Proof. intros. unfold py_index. cbn [Z.ltb Z.compare length]. rewrite (proj2 (Z.leb_gt _ _)) by lia. reflexivity. Qed.
Lemma first_match : forall s b, selector_matches d s (ONode i) = Ok b ->
  selector_matches d (SPseudo s (lit "first-child")) (ONode i) = Ok (ps_first p && b)%bool.
Proof.
  intros s b H. cbn [selector_matches]. change (seqb (lit "first-child") (lit "first-child")) with true. cbn [orb].
  rewrite parent_is, (is_data_false d i n HN HD). pose proof (st_first _ _ _ _ HS) as F.
  destruct (tag_children d (n_parent n)) as [|x r]; [rewrite <- F; reflexivity|].
  rewrite index_first. cbn [bind obj_is]. rewrite F. destruct (ps_first p); [exact H|reflexivity].
Qed.
Lemma last_match : forall s b, selector_matches d s (ONode i) = Ok b ->
  selector_matches d (SPseudo s (lit "last-child")) (ONode i) = Ok (ps_last p && b)%bool.
Proof.
  intros s b H. cbn [selector_matches]. change (seqb (lit "last-child") (lit "first-child")) with false.
  change (seqb (lit "last-child") (lit "last-child")) with true. cbn [orb].
  rewrite parent_is, (is_data_false d i n HN HD). pose proof (st_last _ _ _ _ HS) as F.
  destruct (tag_children d (n_parent n)) as [|x r] eqn:E; [cbn [rev] in F; rewrite <- F; reflexivity|].
  rewrite index_last by discriminate. destruct (rev (x :: r)) as [|y r'] eqn:E2; [apply (f_equal (@rev nat)) in E2; rewrite rev_involutive in E2; discriminate|].
  cbn [bind obj_is]. rewrite F. destruct (ps_last p); [exact H|reflexivity].
Qed.
Lemma inside_match : forall e s b, selector_matches d s (ONode i) = Ok b ->
  selector_matches d (chi (el e) s) (ONode i) = Ok (b && inside e p)%bool.
Proof.
  intros e s b H. unfold chi. cbn [selector_matches].
  change (seqb (lit ">") (lit " ")) with false. change (seqb (lit ">") (lit ">")) with true. cbv iota.
  rewrite parent_is, H. cbn [bind]. destruct b; [|reflexivity]. unfold el. cbn [selector_matches andb]. now rewrite around_match.
Qed.
Lemma inside2_match : forall e f s b, selector_matches d s (ONode i) = Ok b ->
  selector_matches d (chi (chi (el e) (el f)) s) (ONode i)
    = Ok (b && match ps_up p with x :: y :: _ => seqb x (lit f) && seqb y (lit e) | _ => false end)%bool.
Proof.
  intros e f s b H. unfold chi at 1. cbn [selector_matches].
  change (seqb (lit ">") (lit " ")) with false. change (seqb (lit ">") (lit ">")) with true. cbv iota.
  rewrite parent_is, H. cbn [bind]. destruct b; [|reflexivity]. cbn [andb]. unfold chi, el. cbn [selector_matches].
  change (seqb (lit ">") (lit " ")) with false. change (seqb (lit ">") (lit ">")) with true. cbv iota.
  pose proof around_match as AM. pose proof (st_up _ _ _ _ HS) as A.
  inversion A as [E1 E2|j m x rest N1 N2 N3 A2 E1 E2]; cbn [obj_of parent_of]; [reflexivity|]. rewrite N1.
  assert (P : match n_parent m with PNone => None | q => Some q end = Some (n_parent m)) by (destruct (n_parent m); auto; inversion A2).
  rewrite P. cbn [bind]. unfold element_matches at 1, is_data. rewrite N1, N2, N3.
  destruct (seqb x (lit f)); [|destruct rest; reflexivity].
  cbn [andb]. inversion A2 as [E3 E4|j' m' x' rest' M1 M2 M3 A3 E3 E4]; cbn [obj_of]; [reflexivity|].
  unfold element_matches, is_data. rewrite M1, M2, M3. reflexivity.
Qed.
Lemma default_get_exact : get_for_tag d (ONode i) default_rules
    = Ok (match class_for t (inside "ol" p) with Some c => Some (c, rule_settings t p) | None => None end).
Proof.
  pose proof (elem_match d i n t HN HT HD) as EM.
  pose proof (inside_match "ol" _ _ (EM "li"%string)) as OL.
  pose proof (inside_match "blockquote" _ _ (first_match _ _ (EM "p"%string))) as B1.
  pose proof (inside_match "blockquote" _ _ (last_match _ _ (EM "p"%string))) as B2.
  pose proof (inside_match "blockquote" _ _ (first_match _ _ (last_match _ _ (EM "p"%string)))) as B3.
  pose proof (first_match _ _ (EM "li"%string)) as LF.
  pose proof (inside2_match "li" "ol" _ _ LF) as L1.
  pose proof (inside2_match "li" "ul" _ _ LF) as L2.
  pose proof (first_match _ _ (EM "dt"%string)) as DF.
  apply group1 in B1, B2, B3, LF, DF, OL.
  pose proof (group2 d i _ _ _ _ L1 L2 eq_refl) as L. clear L1 L2.
  assert (AM : forall (sels : list selector) (b : bool) (sp : spec3) (spec : rspec rcls) (rs : list (rule rcls)) (ms : list (spec3 * rspec rcls)), tag_matches d (ONode i) sels = Ok (b, if b then Some sp else None) ->
     all_matches d (ONode i) rs = Ok ms ->
     all_matches d (ONode i) (Rule sels spec :: rs) = Ok ((if b then [(sp, spec)] else []) ++ ms)).
  { intros sels b sp spec rs ms H1 H2. cbn [all_matches ru_sel ru_spec]. rewrite H1. cbn [bind]. rewrite H2. cbn [bind].
    destruct b; reflexivity. }
  eassert (E : all_matches d (ONode i) default_rules = Ok _).
  { change default_rules with (rules_of (tl default_table)).
    cbv [rules_of tl default_table map fst snd row margin_only].
    repeat first [ eapply (AM _ _ _ _ _ _ (tag_matches_el d i n t HN HT HD _)) | eapply (AM _ _ _ _ _ _ B1) | eapply (AM _ _ _ _ _ _ B2)
      | eapply (AM _ _ _ _ _ _ B3) | eapply (AM _ _ _ _ _ _ LF) | eapply (AM _ _ _ _ _ _ DF) | eapply (AM _ _ _ _ _ _ OL)
      | eapply (AM _ _ _ _ _ _ L) | reflexivity ]. }
  unfold get_for_tag. rewrite E. clear E AM B1 B2 B3 LF DF OL L EM HS. cbn [bind].
  assert (SB : sublist p = (match ps_up p with x :: y :: _ => (seqb x (lit "ol") && seqb y (lit "li")) | _ => false end
      || match ps_up p with x :: y :: _ => (seqb x (lit "ul") && seqb y (lit "li")) | _ => false end)%bool).
  { unfold sublist. destruct (ps_up p) as [|x [|y r]]; auto. destruct (seqb x (lit "ol")), (seqb x (lit "ul")), (seqb y (lit "li")); reflexivity. }
  unfold class_for, rule_settings. rewrite SB. clear SB.
  generalize (match ps_up p with x :: y :: _ => (seqb x (lit "ol") && seqb y (lit "li"))%bool | _ => false end) as s1.
  generalize (match ps_up p with x :: y :: _ => (seqb x (lit "ul") && seqb y (lit "li"))%bool | _ => false end) as s2.
  generalize (inside "ol" p) as ol. generalize (inside "blockquote" p) as bq. generalize (ps_first p) as f. generalize (ps_last p) as l.
  clear HT HN HD n. intros l f bq ol s2 s1.
  destruct (seqb_spec t (lit "p")) as [->|Np].
  { destruct f, l, bq; vm_compute; reflexivity. }
  destruct (seqb_spec t (lit "li")) as [->|Nl].
  { destruct f, l, ol, s1, s2; vm_compute; reflexivity. }
  destruct (seqb_spec t (lit "dt")) as [->|Nd].
  { destruct f, l; vm_compute; reflexivity. }
  rewrite !andb_false_r. cbn [andb orb].
  unfold plain_classes. cbn [class_of].
  rewrite !(proj2 (seqb_neq _ _) Np), !(proj2 (seqb_neq _ _) Nl), !(proj2 (seqb_neq _ _) Nd).
  repeat match goal with |- context [seqb t (lit ?k)] => destruct (seqb_spec t (lit k)) as [->|?]; [vm_compute; reflexivity|] end.
  reflexivity.
Qed.
End R.
