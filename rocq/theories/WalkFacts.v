(** The walk over the tree is the pass over the arena, when it is not too deep. *)
From Verif Require Import BaseFacts StrFacts TreeFacts HistoryFacts DomFacts LinkTree RenderFacts DocFacts PageSpec PageRead Feed.
From Verif Require Export Walk WalkSpec.

Section W.
Context `{U : Uni}.
Variables (g : cfg) (d : dom).
Fixpoint pass (ids : list nat) (sg : asgs) : asgs * ending :=
  match ids with
  | [] => (sg, Done)
  | i :: r => match assign_one g d sg i with Err e => (sg, Raises e) | Ok a => pass r ((i, a) :: sg) end
  end.
Lemma pass_app : forall a b sg, pass (a ++ b) sg = match pass a sg with (sg', Done) => pass b sg' | x => x end.
Proof. induction a as [|i a IH]; intros b sg; cbn [pass app]; [reflexivity|]. destruct (assign_one g d sg i); auto. Qed.
Lemma pass_deep : forall ids sg sg', pass ids sg <> (sg', TooDeep).
Proof. induction ids as [|i r IH]; intros sg sg'; cbn [pass]; [discriminate|]. destruct (assign_one g d sg i); [apply IH|discriminate]. Qed.
Lemma nesting_cons : forall t F, nesting (t :: F) = Nat.max (levels t) (nesting F). Proof. reflexivity. Qed.
Lemma stores_kids : forall p i tg a kids, stores d p (Tag i tg a kids) -> Forall (stores d (PNode i)) kids
  /\ exists n, node_at d i = Some n /\ n_children n = map tid kids.
Proof.
  intros p i tg a kids H. cbn [stores] in H. destruct H as ((n & HN & _ & _ & _ & HC & _) & H). split; [|eauto].
  clear HC. revert H. induction kids as [|k kids IH]; intros H; constructor; [exact (proj1 H)|]. exact (IH (proj2 H)).
Qed.
Lemma kids_of : forall p t, stores d p t -> exists kids, (match node_at d (tid t) with Some n => n_children n | None => [] end) = map tid kids
  /\ (exists q, Forall (stores d q) kids) /\ preorder t = tid t :: flat_map preorder kids /\ levels t = S (nesting kids).
Proof.
  intros p [i tg a kids|i s] H.
  - destruct (stores_kids _ _ _ _ _ H) as (K & n & HN & HC). exists kids. cbn [tid]. rewrite HN. split; [exact HC|]. split; [eauto|]. split; reflexivity.
  - cbn [stores] in H. destruct H as (n & HN & _ & _ & _ & HC). exists []. cbn [tid]. rewrite HN. split; [exact HC|]. split; [exists p; constructor|]. split; reflexivity.
Qed.
Lemma walk : forall f F p sg, Forall (stores d p) F ->
  match assign_tags f g d (map tid F) sg with
  | (_, TooDeep) => f <= nesting F
  | (sg', Raises e) => pass (flat_map preorder F) sg = (sg', Raises e)
  | (sg', Done) => nesting F < f /\ pass (flat_map preorder F) sg = (sg', Done)
  end.
Proof.
  induction f as [|f IH]; intros F p sg H; cbn [assign_tags]; [lia|]. revert sg. induction H as [|t F T H IHF]; intros sg; cbn [map].
  - split; [cbn; lia|reflexivity].
  - destruct (kids_of p t T) as (kids & EK & (q & K) & EP & EL). cbn [flat_map]. rewrite EP. cbn [app pass].
    destruct (assign_one g d sg (tid t)) as [a|e]; [|reflexivity]. rewrite EK. specialize (IH kids q ((tid t, a) :: sg) K). rewrite pass_app, nesting_cons, EL.
    destruct (assign_tags f g d (map tid kids) ((tid t, a) :: sg)) as [sg' [|e|]].
    + destruct IH as [IH1 IH2]. rewrite IH2. specialize (IHF sg').
      match goal with |- match ?x with _ => _ end => destruct x as [sg'' [|e|]] end; [|exact IHF|lia]. destruct IHF as [A B]. split; [lia|exact B].
    + now rewrite IH.
    + lia.
Qed.
(** ** The pass *)
Lemma one_ext : forall sg sg' i, asg_get i sg = asg_get i sg' -> assign_one g d sg i = assign_one g d sg' i.
Proof. intros sg sg' i E. unfold assign_one. now rewrite E. Qed.
Lemma all_ext : forall ids sg sg', (forall i, In i ids -> asg_get i sg = asg_get i sg') -> assign_all g d sg ids = assign_all g d sg' ids /\ assigned g d sg ids = assigned g d sg' ids.
Proof.
  induction ids as [|i r IH]; intros sg sg' E; cbn [assign_all assigned]; [auto|]. rewrite (one_ext sg sg' i) by (apply E; now left). destruct (IH sg sg') as [E1 E2]; [intros j J; apply E; now right|]. rewrite E1, E2. auto.
Qed.
Lemma pass_all : forall ids sg, NoDup ids -> pass ids sg = match assign_all g d sg ids with
  | Ok l => (rev l ++ sg, Done)
  | Err e => (rev (assigned g d sg ids) ++ sg, Raises e)
  end.
Proof.
  induction ids as [|i r IH]; intros sg ND; cbn [pass assign_all assigned]; [reflexivity|]. inversion ND as [|? ? N1 N2]; subst. destruct (assign_one g d sg i) as [a|e]; [|reflexivity]. cbn [bind].
  rewrite (IH _ N2). destruct (all_ext r ((i, a) :: sg) sg) as [-> ->]; [intros j J; cbn [asg_get]; destruct (Nat.eqb_spec j i) as [->|]; [contradiction|reflexivity]|].
  destruct (assign_all g d sg r) as [l|e]; cbn [bind rev]; rewrite <- app_assoc; reflexivity.
Qed.
Lemma all_keys : forall ids sg l, assign_all g d sg ids = Ok l -> map fst l = ids.
Proof. induction ids as [|i r IH]; intros sg l H; cbn [assign_all] in H; [now injection H as <-|]. inv_bind H. inv_bind H. injection H as <-. cbn [map fst]. f_equal. eauto. Qed.
Lemma get_app : forall i (l x : asgs), asg_get i (l ++ x) = if existsb (fun y => Nat.eqb i (fst y)) l then asg_get i l else asg_get i x.
Proof. intros i l x. induction l as [|[j a] l IH]; cbn [app asg_get existsb fst]; [reflexivity|]. destruct (Nat.eqb i j); [reflexivity|exact IH]. Qed.
Lemma get_rev : forall l i, NoDup (map fst l) -> asg_get i (rev l) = asg_get i l.
Proof.
  induction l as [|[j a] l IH]; intros i ND; [reflexivity|]. cbn [map fst] in ND. inversion ND as [|? ? N1 N2]; subst. cbn [rev]. rewrite get_app, (IH i N2). cbn [asg_get].
  assert (E : existsb (fun y => Nat.eqb i (fst y)) (rev l) = existsb (fun y => Nat.eqb i (fst y)) l).
  { apply eq_true_iff_eq. rewrite !existsb_exists. split; intros (y & J & K); exists y; (split; [|exact K]); [now apply in_rev|now apply -> in_rev]. }
  rewrite E. destruct (Nat.eqb_spec i j) as [->|N].
  - destruct (existsb _ l) eqn:X; [|reflexivity]. exfalso. apply existsb_exists in X as (y & J & K). apply Nat.eqb_eq in K. apply N1. rewrite K. now apply in_map.
  - destruct (existsb _ l) eqn:X; [reflexivity|]. clear -X. induction l as [|[k b] l IH]; [reflexivity|]. cbn [existsb fst] in X. apply orb_false_iff in X as [X1 X2]. cbn [asg_get]. rewrite X1. auto.
Qed.
Lemma assigned_keys : forall ids sg, NoDup ids -> NoDup (map fst (assigned g d sg ids)).
Proof.
  intros ids sg. assert (S1 : forall ids j, In j (map fst (assigned g d sg ids)) -> In j ids) by (clear; induction ids as [|i r IH]; intros j J; cbn [assigned] in J; [destruct J|]; destruct (assign_one g d sg i); [|destruct J]; destruct J as [<-|J]; [now left|right; auto]).
  induction ids as [|i r IH]; intros ND; cbn [assigned]; [constructor|]. inversion ND as [|? ? N1 N2]; subst. destruct (assign_one g d sg i); [|constructor]. cbn [map fst]. constructor; [|auto]. intros J. apply N1. eauto.
Qed.
Lemma get_front : forall i l x, NoDup (map fst l) -> asg_get i (rev l ++ x) = asg_get i (l ++ x).
Proof.
  intros i l x ND. rewrite !get_app, (get_rev l i ND).
  assert (E : existsb (fun y => Nat.eqb i (fst y)) (rev l) = existsb (fun y => Nat.eqb i (fst y)) l); [|now rewrite E].
  apply eq_true_iff_eq. rewrite !existsb_exists. split; intros (y & J & K); exists y; (split; [|exact K]); [now apply in_rev|now apply -> in_rev].
Qed.
Lemma get_all : forall i l x, In i (map fst l) -> asg_get i (l ++ x) = asg_get i l.
Proof. intros i l x H. rewrite get_app. assert (E : existsb (fun y => Nat.eqb i (fst y)) l = true); [|now rewrite E]. apply existsb_exists. apply in_map_iff in H as (y & <- & J). exists y. split; [exact J|apply Nat.eqb_refl]. Qed.

(** ** Rendering *)
Lemma render_ext : forall sg sg', (forall i n, node_at d i = Some n -> asg_get i sg = asg_get i sg') ->
  forall f force i bx, render_node f d sg force i bx = render_node f d sg' force i bx.
Proof.
  intros sg sg' E. induction f as [|f IH]; intros force i bx; [reflexivity|]. rewrite !render_node_S. transitivity (level_render (render_node f d sg') d sg force i bx); [apply level_ext; auto|].
  unfold level_render. destruct (node_at d i) as [n|] eqn:HN; [|reflexivity]. now rewrite (E _ _ HN).
Qed.
Hypothesis PE : forall i n, node_at d i = Some n -> incl (n_pending n) (n_children n).
Lemma frames_enough : forall sg f f' p t force bx, stores d p t -> levels t <= f -> levels t <= f' ->
  render_node f d sg force (tid t) bx = render_node f' d sg force (tid t) bx.
Proof.
  intros sg. induction f as [|f IH]; intros f' p t force bx T L L'; destruct (kids_of p t T) as (kids & EK & (q & K) & _ & EL); [lia|]. destruct f' as [|f']; [lia|]. rewrite !render_node_S. apply level_ext.
  intros n HN j HJ b bx'. rewrite HN in EK. assert (J : In j (map tid kids)) by (rewrite <- EK; destruct HJ as [HJ|HJ]; [exact HJ|exact (PE _ _ HN _ HJ)]).
  apply in_map_iff in J as (k & <- & J). rewrite Forall_forall in K. assert (LK : levels k <= nesting kids). { clear -J. induction kids as [|x l IH]; [destruct J|]. rewrite nesting_cons. destruct J as [->|J]; [lia|]. specialize (IH J). lia. }
  apply (IH f' q k b bx' (K k J)); lia.
Qed.
Lemma in_forest : forall n F p i, nesting F <= n -> Forall (stores d p) F -> In i (flat_map preorder F) -> exists q t, stores d q t /\ tid t = i /\ levels t <= nesting F.
Proof.
  induction n as [|n IH]; intros F p i L H J; apply in_flat_map in J as (t & J1 & J2); rewrite Forall_forall in H; pose proof (H t J1) as T; destruct (kids_of p t T) as (kids & _ & (q & K) & EP & EL);
    (assert (LK : levels t <= nesting F) by (clear -J1; induction F as [|x l IH']; [destruct J1|]; rewrite nesting_cons; destruct J1 as [->|J1]; [lia|]; specialize (IH' J1); lia)); [lia|].
  rewrite EP in J2. destruct J2 as [<-|J2]; [eauto|]. destruct (IH kids q i) as (q' & t' & A & B & C); auto; [lia|]. exists q', t'. split; [exact A|]. split; [exact B|]. lia.
Qed.
End W.
