(** Growing documents: places keep what is before and around them, so rules that
    ask for nothing that comes later last. *)
From Verif Require Import WrapFacts WrapLoop WrapWidth.
From Verif Require Import BaseFacts StrFacts SelFacts TreeFacts HistoryFacts DomFacts.
From Verif Require Import PageSpec PageRead StyleMain JudgeMain.
From Verif Require Export SessionSpec.

Section L.
Context `{U : Uni}.

(** ** Places in a longer document *)
Definition alike (x y : tree) : Prop :=
  match x, y with
  | Tag i t a _, Tag j u b _ => i = j /\ t = u /\ a = b
  | Text i s, Text j r => i = j /\ s = r
  | _, _ => False
  end.
Lemma alike_refl : forall x, alike x x.
Proof. intros [i t a k|i s]; cbn; auto. Qed.
Lemma alike_trans : forall x y w, alike x y -> alike y w -> alike x w.
Proof. intros [i t a k|i s] [j u b k2|j r] [l w c k3|l q]; cbn; intuition congruence. Qed.
Definition longer (x y : spot) : Prop := sp_before x = sp_before y /\ alike (sp_here x) (sp_here y).
Definition later_site (z z' : site) : Prop := Forall2 longer z z'.
Lemma later_refl : forall z, later_site z z.
Proof. induction z; constructor; auto. split; auto using alike_refl. Qed.
Lemma later_trans : forall x y, later_site x y -> forall w, later_site y w -> later_site x w.
Proof.
  intros x y H. induction H as [|a b x y [E1 E2] _ IH]; intros w K; inversion K as [|? c ? w' [F1 F2] K']; subst; constructor; [|apply IH; exact K'].
  split; [congruence|eapply alike_trans; eauto].
Qed.
Lemma later_node : forall z z', later_site z z' -> node_of z = node_of z'.
Proof. intros z z' H. destruct H as [|x y z z' [_ H] _]; auto. cbn [node_of]. f_equal. destruct (sp_here x), (sp_here y); cbn in *; intuition. Qed.

Lemma all_places_split : forall l r up before, all_places up before (l ++ r) =
  (fix go b l := match l with [] => [] | k :: q => places up b k (q ++ r) ++ go (b ++ [k]) q end) before l ++ all_places up (before ++ l) r.
Proof.
  induction l as [|k l IH]; intros r up before; cbn [app all_places]; [now rewrite app_nil_r|]. rewrite IH, <- app_assoc, <- app_assoc. reflexivity.
Qed.
(** The same nodes around, other siblings after them. *)
Lemma places_after : forall t up up' before after after', later_site up up' -> forall z, In z (places up before t after) ->
  exists z', In z' (places up' before t after') /\ later_site z z'.
Proof.
  induction t as [i tg a kids IH|i x] using tree_ind2; intros up up' before after after' H z J.
  2:{ destruct J as [<-|[]]. eexists. split; [left; reflexivity|]. constructor; auto. split; auto using alike_refl. }
  rewrite places_Tag in J |- *. assert (Q : later_site (Spot before (Tag i tg a kids) after :: up) (Spot before (Tag i tg a kids) after' :: up')) by (constructor; auto; split; auto using alike_refl).
  destruct J as [<-|J]; [eexists; split; [left; reflexivity|exact Q]|].
  revert J Q. generalize (Spot before (Tag i tg a kids) after :: up) as y, (Spot before (Tag i tg a kids) after' :: up') as y'. generalize (@nil tree) as b. clear -IH.
  intros b y y' J Q. enough (G : exists z', In z' (all_places y' b kids) /\ later_site z z') by (destruct G as (z' & G1 & G2); exists z'; split; auto; now right).
  revert b J. induction IH as [|k kids E _ IH2]; intros b J; cbn [all_places] in *; [contradiction|]. apply in_app_or in J as [J|J].
  - destruct (E y y' b kids kids Q z J) as (z' & G1 & G2). exists z'. split; auto. apply in_or_app. now left.
  - destruct (IH2 _ J) as (z' & G1 & G2). exists z'. split; auto. apply in_or_app. now right.
Qed.
Lemma run_after : forall up up' r r', later_site up up' -> forall l before z,
  In z ((fix go b l := match l with [] => [] | k :: q => places up b k (q ++ r) ++ go (b ++ [k]) q end) before l) ->
  exists z', In z' ((fix go b l := match l with [] => [] | k :: q => places up' b k (q ++ r') ++ go (b ++ [k]) q end) before l) /\ later_site z z'.
Proof.
  intros up up' r r' H. induction l as [|k l IH]; intros before z J; [contradiction|]. apply in_app_or in J as [J|J].
  - destruct (places_after k up up' before (l ++ r) (l ++ r') H z J) as (z' & G1 & G2). exists z'. split; auto. apply in_or_app. now left.
  - destruct (IH _ _ J) as (z' & G1 & G2). exists z'. split; auto. apply in_or_app. now right.
Qed.
Lemma places_grow : forall k x F up up' before z, later_site up up' -> In z (all_places up before F) ->
  exists z', In z' (all_places up' before (add_at k x F)) /\ later_site z z'.
Proof.
  induction k as [|k IH]; intros x F up up' before z H J; cbn [add_at].
  - rewrite all_places_split. rewrite <- (app_nil_r F), all_places_split in J. cbn [all_places] in J. rewrite app_nil_r in J.
    destruct (run_after up up' [] [x] H F before z J) as (z' & G1 & G2). exists z'. split; auto. apply in_or_app. now left.
  - assert (SAME : exists z', In z' (all_places up' before F) /\ later_site z z').
    { rewrite <- (app_nil_r F), all_places_split in J. cbn [all_places] in J. rewrite app_nil_r in J.
      destruct (run_after up up' [] [] H F before z J) as (z' & G1 & G2). exists z'. split; auto. rewrite <- (app_nil_r F), all_places_split. apply in_or_app. now left. }
    destruct (rev F) as [|[i t a kids|i s] r] eqn:E; try exact SAME.
    assert (EF : F = rev r ++ [Tag i t a kids]) by (rewrite <- (rev_involutive F), E; reflexivity). rewrite EF, all_places_split in J. rewrite all_places_split.
    apply in_app_or in J as [J|J].
    + destruct (run_after up up' [Tag i t a kids] [Tag i t a (add_at k x kids)] H (rev r) before z J) as (z' & G1 & G2). exists z'. split; auto. apply in_or_app. now left.
    + cbn [all_places] in J |- *. rewrite app_nil_r in J |- *. rewrite places_Tag in J |- *.
      assert (Q : later_site (Spot (before ++ rev r) (Tag i t a kids) [] :: up) (Spot (before ++ rev r) (Tag i t a (add_at k x kids)) [] :: up')) by (constructor; auto; split; cbn; auto).
      destruct J as [<-|J]; [eexists; split; [apply in_or_app; right; left; reflexivity|exact Q]|].
      destruct (IH x kids _ _ [] z Q J) as (z' & G1 & G2). exists z'. split; auto. apply in_or_app. right. now right.
Qed.
Lemma grown_place : forall F F', grown F F' -> forall z, In z (all_places [] [] F) -> exists z', In z' (all_places [] [] F') /\ later_site z z'.
Proof.
  intros F F' H. induction H as [F|F F' k x H IH K]; intros z J; [exists z; auto using later_refl|].
  destruct (IH z J) as (z1 & G1 & G2). destruct (places_grow k x F' [] [] [] z1 (later_refl []) G1) as (z' & G3 & G4). exists z'. split; auto. eapply later_trans; eauto.
Qed.
Lemma node_here : forall z i, node_of z = Some i <-> z <> [] /\ here_id z = i.
Proof. intros [|x z] i; cbn [node_of here_id]; [split; [discriminate|intros [H _]; congruence]|]. split; [intros H; injection H as <-; split; [discriminate|reflexivity]|intros [_ <-]; reflexivity]. Qed.
Lemma NoDup_map_one : forall A B (f : A -> B) l x y, NoDup (map f l) -> In x l -> In y l -> f x = f y -> x = y.
Proof.
  intros A B f l x y. induction l as [|a l IH]; intros ND X Y E; [contradiction|]. inversion ND as [|? ? NI ND']; subst. destruct X as [->|X], Y as [->|Y]; auto.
  - elim NI. rewrite E. now apply in_map.
  - elim NI. rewrite <- E. now apply in_map.
Qed.
Lemma place_one : forall F z z', NoDup (flat_map preorder F) -> In z (all_places [] [] F) -> In z' (all_places [] [] F) -> node_of z = node_of z' -> z = z'.
Proof.
  intros F z z' ND J K E. apply (NoDup_map_one _ _ here_id (all_places [] [] F)); auto; [now rewrite all_places_ids|].
  destruct (node_of z) as [i|] eqn:Z; [apply node_here in Z as [_ <-]; symmetry in E; apply node_here in E as [_ E]; auto|].
  destruct z as [|? ?]; [elim (no_empty_place F [] [] J)|discriminate].
Qed.
Lemma grown_same : forall F F' z z', grown F F' -> NoDup (flat_map preorder F') -> In z (all_places [] [] F) -> In z' (all_places [] [] F') ->
  node_of z = node_of z' -> later_site z z'.
Proof.
  intros F F' z z' G ND J K E. destruct (grown_place F F' G z J) as (z1 & G1 & G2). rewrite <- (place_one F' z1 z' ND G1 K); auto.
  rewrite <- (later_node _ _ G2). exact E.
Qed.
Lemma grown_trans : forall F2 F3, grown F2 F3 -> forall F1, grown F1 F2 -> grown F1 F3.
Proof. intros F2 F3 H. induction H; intros F1 K; auto. constructor; auto. Qed.

(** ** Selectors that look back only *)
Lemma first_later : forall (J J' : site -> verdict -> Prop) l l', Forall2 (fun z z' => forall v, J z v -> J' z' v) l l' -> forall v, first_of J l v -> first_of J' l' v.
Proof.
  intros J J' l l' H. induction H as [|z z' l l' E _ IH]; intros v K; inversion K; subst; [constructor|apply fo_here; auto|apply fo_next; auto].
Qed.
Lemma around_later : forall up up', later_site up up' -> Forall2 later_site (around up) (around up').
Proof. intros up up' H. induction H; cbn [around]; constructor; auto. now constructor. Qed.
Lemma spots_later : forall up up' r r', later_site up up' -> forall l before, Forall2 later_site (firstn (length l) (spots up before (l ++ r))) (firstn (length l) (spots up' before (l ++ r'))).
Proof.
  intros up up' r r' H. induction l as [|k l IH]; intros before; cbn [length firstn app spots]; constructor; auto. constructor; auto. split; auto using alike_refl.
Qed.
Lemma later_sym : forall z z', later_site z z' -> later_site z' z.
Proof.
  intros z z' H. induction H as [|x y z z' [E1 E2] _ IH]; constructor; auto. split; auto. destruct (sp_here x), (sp_here y); cbn in *; intuition congruence.
Qed.
Lemma Forall2_sub : forall A B (P Q : A -> B -> Prop) l l', (forall a b, P a b -> Q a b) -> Forall2 P l l' -> Forall2 Q l l'.
Proof. intros A B P Q l l' H K. induction K; constructor; auto. Qed.
Lemma judged_later : forall s, looks_back s = true -> forall z z', later_site z z' -> forall v, judged s z v -> judged s z' v.
Proof.
  induction s as [nm|s IH cn|s IH x|s1 IH1 s2 IH2|s IH k op y|s IH p|s IH f args|s1 IH1 cb s2 IH2|]; cbn [looks_back]; intros S z z' H v J;
  (pose proof H as H0; destruct H as [|[b t c] [b' t' c'] up up' [E1 E2] H]; [exact J|cbn [sp_before sp_here] in E1, E2; subst b'; destruct t as [i tg a kids|i x0], t' as [i' tg' a' kids'|i' x0']; cbn [alike] in E2; try contradiction; [destruct E2 as (<- & <- & <-)|exact J]]).
  - exact J.
  - cbn [judged] in *. destruct J as [[A J]|J]; [left; split; auto; eapply IH; eauto|right; exact J].
  - cbn [judged] in *. destruct J as [[A J]|J]; [left; split; auto; eapply IH; eauto|right; exact J].
  - apply andb_prop in S as [S1 S2]. cbn [judged] in *. destruct J as [[A (w & J & E)]|[A J]].
    + left. split; [eapply IH1; eauto|]. exists w. split; auto. eapply IH2; eauto.
    + right. split; auto. eapply IH1; eauto.
  - cbn [judged] in *. destruct J as [[A J]|[A J]]; [left; split; auto; eapply IH; eauto|right; split; auto; eapply IH; eauto].
  - apply andb_prop in S as [S1 S2]. apply negb_true_iff in S2. destruct (seqb_spec p (lit "last-child")) as [->|NP]; [discriminate|].
    cbn [judged] in *. destruct J as [[[[P A]|[P A]] J]|[A J]]; [left; split; [left; auto|eapply IH; eauto]|congruence|].
    right. split; auto. intros [[P Q]|[P Q]]; [|congruence]. apply A. left. auto.
  - discriminate.
  - apply andb_prop in S as [S1 S2]. cbn [judged] in *. destruct J as [[A J]|[A J]]; [left; split; auto|right; split; auto].
    destruct J as [[B J]|[B J]]; [left; split; [eapply IH2; eauto|]|right; split; auto; eapply IH2; eauto].
    destruct J as [[C J]|[[C J]|[[C J]|[C J]]]]; [left|right; left|right; right; left|right; right; right]; split; auto.
    + eapply first_later; [|exact J]. eapply Forall2_sub; [|apply around_later; exact H]. intros q q' Q. exact (IH1 S1 q q' Q).
    + eapply IH1; eauto.
    + unfold earlier in *. eapply first_later; [|exact J]. eapply Forall2_sub; [|apply spots_later; exact H]. intros q q' Q. exact (IH1 S1 q q' Q).
    + destruct J as [J|(l & j & m & Q1 & Q2 & Q3 & J)]; [left; exact J|right]. exists l, j, m. repeat (split; auto). eapply IH1; [exact S1| |exact J]. constructor; auto. split; auto using alike_refl.
  - exact J.
Qed.
Definition rules_back (rules : list (rule rcls)) : bool :=
  forallb (fun ru => match rule_renderer (ru_spec ru) with None => true | Some _ => forallb (fun s => looks_back (sl_tree s)) (ru_sel ru) end) rules.
Lemma reaches_some : forall group z, (forall s, In s group -> looks_back (sl_tree s) = true) -> forall z', later_site z z' -> forall sp, reaches group z sp -> reaches group z' sp.
Proof.
  intros group z S z' H sp (s & A & B & C & D). exists s. split; auto. split; [eapply judged_later; eauto|]. split; auto.
  intros s' J K. apply D; auto. eapply judged_later; [auto|apply later_sym; exact H|exact K].
Qed.
Theorem back_last : forall rules, rules_back rules = true -> rules_last rules.
Proof.
  intros rules B F F' z z' G ND J K E S k ru sp N R. destruct (rule_renderer (ru_spec ru)) as [c|] eqn:RR; [|reflexivity]. rewrite <- RR.
  apply (S k ru sp N). unfold rules_back in B. rewrite forallb_forall in B. specialize (B ru (nth_error_In _ _ N)). rewrite RR in B. rewrite forallb_forall in B.
  eapply reaches_some; [exact B|eapply grown_same; eauto|exact R].
Qed.
Lemma back_rules : forall t, back_table t = true -> rules_back (rules_of t) = true.
Proof.
  intros t H. unfold rules_back. apply forallb_forall. intros ru J. unfold rules_of in J. apply in_map_iff in J as (row & <- & J). cbn [ru_spec ru_sel].
  unfold back_table in H. rewrite forallb_forall in H. specialize (H _ J). cbv beta in H. destruct (rule_renderer _); [exact H|reflexivity].
Qed.
Lemma construct_back : forall o g, construct o = Ok g -> back_table (o_renderers o) = true -> back_table (o_ext o) = true -> rules_back (g_rules g) = true /\ rules_back (g_ext_rules g) = true.
Proof.
  intros o g H C1 C2. unfold construct in H.
  destruct (_ && seqb (o_link o) _)%bool; [discriminate|]. destruct (_ && seqb (o_host o) _)%bool; [discriminate|].
  set (t := dupdate default_table (o_renderers o)) in *. set (e := dupdate default_ext_table (o_ext o)) in *.
  destruct (dget [] t) as [[sels dflt]|] eqn:D; [|discriminate]. injection H as <-. cbn [g_rules g_ext_rules].
  split; apply back_rules; apply forallb_forall; intros [k row] J; [apply In_ddel in J|]; apply In_dupdate in J as [J|J].
  - exact (proj1 (forallb_forall _ _) (eq_refl : back_table default_table = true) _ J).
  - exact (proj1 (forallb_forall _ _) C1 _ J).
  - exact (proj1 (forallb_forall _ _) (eq_refl : back_table default_ext_table = true) _ J).
  - exact (proj1 (forallb_forall _ _) C2 _ J).
Qed.
End L.
