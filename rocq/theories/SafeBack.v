(** On a page that is shown every place is shown, so none of them is cramped. *)
From Verif Require SetFacts FormatProps PageText.
From Verif Require Import WrapFacts WrapLoop WrapWidth.
From Verif Require Import BaseFacts StrFacts SelFacts CssFacts SettingsFacts DressFacts StyleRules StyleShow.
From Verif Require Export SafeFacts.
Open Scope Z_scope.

Section S.
Context `{U : Uni}.

(** ** One class, one set of settings, one room *)
Lemma computed_fun : forall cl tg index u a u' a', computed cl tg index u a -> computed cl tg index u' a' -> u = u' /\ a = a'.
Proof.
  intros cl tg index u a u' a' H H'. unfold computed in *. destruct (rc_kind cl); try (destruct H as [-> ->], H' as [-> ->]; auto; fail).
  - destruct H as (m & (c & n & v & r & -> & D & ->) & -> & ->), H' as (m' & (c' & n' & v' & r' & E & D' & ->) & -> & ->). injection E as <- <- <-.
    apply digit_read in D, D'. rewrite D in D'. injection D' as <-. auto.
  - destruct H as (x & (t & st & sp & T & I1 & I2 & L) & -> & ->), H' as (x' & (t' & st' & sp' & T' & I1' & I2' & L') & -> & ->).
    unfold template_set, int_set in *. rewrite T in T'. injection T' as <-. rewrite I1 in I1'. injection I1' as <-. rewrite I2 in I2'. injection I2' as <-.
    rewrite (proj1 (FormatProps.C84_one _ _ t) _ _ L L'). auto.
Qed.
Lemma settled_fun : forall cl tg index over over' s s', (forall key, dget key over = dget key over') ->
  settled cl tg index over s -> settled cl tg index over' s' -> forall key, dget key s = dget key s'.
Proof.
  intros cl tg index over over' s s' E (u & a & C & S) (u' & a' & C' & S') key. destruct (computed_fun _ _ _ _ _ _ _ C C') as [<- <-]. rewrite S, S'. cbn [inherited]. now rewrite E.
Qed.
Lemma styled_fun : forall rules dflt z cl over cl' over', styled rules dflt z cl over -> styled rules dflt z cl' over' ->
  cl = cl' /\ forall key, dget key over = dget key over'.
Proof.
  intros rules dflt z cl over cl' over' [[W V]|[Q D]] [[W' V']|[Q' D']].
  - split; [eapply wins_fun; eauto|]. intros key. specialize (V key). specialize (V' key). destruct (dget key over) as [v|], (dget key over') as [v'|]; auto.
    + f_equal. eapply wins_fun; eauto.
    + elim (wins_not_silent _ _ _ _ _ V V').
    + elim (wins_not_silent _ _ _ _ _ V' V).
  - elim (wins_not_silent _ _ _ _ _ W Q').
  - elim (wins_not_silent _ _ _ _ _ W' Q).
  - destruct dflt; destruct D as [E ->], D' as [E' ->]; rewrite E in E'; injection E' as <-; auto.
Qed.
Lemma listed_fun : forall g z cl cl', listed_by g z cl -> listed_by g z cl' -> cl = cl'.
Proof.
  intros g z cl cl' [W|[Q (s & D)]] [W'|[Q' (s' & D')]].
  - eapply wins_fun; eauto.
  - elim (wins_not_silent _ _ _ _ _ W Q').
  - elim (wins_not_silent _ _ _ _ _ W' Q).
  - congruence.
Qed.
Lemma given_fun : forall g listed z cl s cl' s', given g listed z cl s -> given g listed z cl' s' -> cl = cl' /\ forall key, dget key s = dget key s'.
Proof.
  intros g listed z cl s cl' s' G G'. destruct z as [|[before [i t a kids|] after] up]; try contradiction. cbn [given] in *. destruct listed.
  - destruct G as [L S], G' as [L' S']. pose proof (listed_fun _ _ _ _ L L') as <-. split; auto. eapply settled_fun; [|exact S|exact S']. reflexivity.
  - destruct G as (o & ST & S), G' as (o' & ST' & S'). destruct (styled_fun _ _ _ _ _ _ _ ST ST') as [<- E]. split; auto. eapply settled_fun; [|exact S|exact S']. destruct (shown_inline g t); auto.
Qed.
Lemma sides_fun : forall s k x x', sides_set s k x -> sides_set s k x' -> x = x'.
Proof. intros s k x x' H H'. apply sides_read in H, H'. congruence. Qed.
Lemma wears_fun : forall s x x', wears s x -> wears s x' -> x = x'.
Proof.
  intros s [m p b] [m' p' b'] (H1 & H2 & H3) (H1' & H2' & H3'). cbn [dr_margin dr_padding dr_border] in *. rewrite (sides_fun _ _ _ _ H1 H1'), (sides_fun _ _ _ _ H2 H2'). f_equal.
  destruct b as [t r bo l], b' as [t' r' bo' l']. destruct H3 as (rest & H3), H3' as (rest' & H3'). cbn [bo_top bo_right bo_bottom bo_left] in *. destruct H3 as [H3|H3], H3' as [H3'|H3']; rewrite H3 in H3'; congruence.
Qed.
Lemma room_fun : forall k s page inner inner', room_in k s page inner -> room_in k s page inner' -> inner = inner'.
Proof.
  intros k s page inner inner' H H'. unfold room_in in *. destruct (takes_block k); [|congruence]. destruct H as (x & label & W & _ & L & ->), H' as (x' & label' & W' & _ & L' & ->).
  rewrite (wears_fun _ _ _ W W'). destruct (takes_label k); [|congruence]. destruct L as (t & T & ->), L' as (t' & T' & ->). unfold template_set in *. rewrite T in T'. injection T' as <-. reflexivity.
Qed.

(** ** Every place is shown *)
Lemma forall2_in : forall A B (R : A -> B -> Prop) l m, Forall2 R l m -> forall x, In x l -> exists y, R x y.
Proof. intros A B R l m H. induction H; intros z []; [subst; eauto|auto]. Qed.
Variables (g : cfg) (F : list tree).
(** What a shown element is made of. *)
Lemma shows_given : forall listed z page out cl s, shows g F listed z page out -> given g listed z cl s ->
  (exists inner parts, room_in (rc_kind cl) s page inner /\ Forall2 (fun y o => shows g F false y inner o) (inner_spots z) parts
     /\ (listed = false -> at_link z && seqb (placement g (match z with Spot _ (Tag _ t _ _) _ :: _ => t | _ => [] end)) (lit "inline") = false ->
         exists entries, Forall2 (fun y o => shows g F true y inner o) (filter (listed_at g "after_block") (inner_spots z)) entries))
  /\ match z with
     | Spot before (Tag i t a kids) after :: up => exists pre l e c, picture t a kids pre s page l e c (rc_kind cl) out
     | _ => False
     end.
Proof.
  intros listed z page out cl s H G. destruct H; [contradiction| | |].
  - assert (G' : given g false z cl0 s0) by (exists over; split; [assumption|]; match goal with X : shown_inline g t = false |- _ => rewrite X end; assumption).
    destruct (given_fun _ _ _ _ _ _ _ G' G) as [-> E]. split.
    + exists inner, parts. split; [eapply x_room; [exact E|eassumption]|]. split; [assumption|]. intros _ _. exists entries. assumption.
    + do 4 eexists. eapply x_picture; [exact E|eassumption].
  - assert (G' : given g false z cl0 s0) by (exists over; split; [assumption|]; match goal with X : shown_inline g t = true |- _ => rewrite X end; assumption).
    destruct (given_fun _ _ _ _ _ _ _ G' G) as [-> E]. split.
    + exists inner, parts. split; [eapply x_room; [exact E|eassumption]|]. split; [assumption|]. intros _ Q. exfalso. match goal with X : shown_inline g t = true |- _ => unfold shown_inline, is_link_tag, is_a, is_img in X; cbn in Q; congruence end.
    + do 4 eexists. eapply x_picture; [exact E|eassumption].
  - assert (G' : given g true z cl0 s0) by (split; assumption).
    destruct (given_fun _ _ _ _ _ _ _ G' G) as [-> E]. split.
    + exists inner, parts. split; [eapply x_room; [exact E|eassumption]|]. split; [assumption|]. discriminate.
    + do 4 eexists. eapply x_picture; [exact E|eassumption].
Qed.
Theorem placed_shown : forall out, styled_page g F out -> forall listed z page, placed_in g F listed z page -> exists o, shows g F listed z page o.
Proof.
  intros out (parts & entries & SP & SE & _) listed z page H. induction H.
  - exact (forall2_in _ _ _ _ _ SP z H).
  - match goal with X : g_link g = _ |- _ => rewrite X, seqb_refl in SE end. exact (forall2_in _ _ _ _ _ SE z H0).
  - destruct IHplaced_in as (o & SH). destruct (shows_given _ _ _ _ _ _ SH H0) as [(inner' & ps & R & FA & _) _]. rewrite (room_fun _ _ _ _ _ H1 R). exact (forall2_in _ _ _ _ _ FA y H2).
  - destruct IHplaced_in as (o & SH). destruct (shows_given _ _ _ _ _ _ SH H1) as [(inner' & ps & R & _ & LS) _]. rewrite (room_fun _ _ _ _ _ H2 R).
    destruct (LS eq_refl) as (es & FA); [exact H0|]. exact (forall2_in _ _ _ _ _ FA y H3).
Qed.

(** ** No room, no page *)
Lemma no_columns : forall cfg w text j y, w <= 0 -> lit j <> lit "none" -> SetSpec.set_text cfg w text (lit j) y -> False.
Proof.
  intros cfg w text j y W N H. remember (lit j) as jj. destruct H as [|ls (P & _)|ls ls' (P & _)|ls ls' (P & _)|ls ls' (P & _)]; cbn [SetSpec.widened_to w_width] in *; [contradiction| | | |]; lia.
Qed.
Lemma none_only : forall j, In j ["none"; "full"; "center"; "left"; "right"]%string -> j <> "none"%string -> lit j <> lit "none".
Proof. intros j J N E. destruct J as [<-|[<-|[<-|[<-|[<-|[]]]]]]; try contradiction; vm_compute in E; discriminate. Qed.
Theorem shown_not_cramped : forall out, styled_page g F out -> forall listed z page, placed_in g F listed z page -> ~ cramped g listed z page EValue.
Proof.
  intros out SP listed z page P C. remember EValue as ex. destruct C as [cl s w a b G LO CF W|]; [|discriminate]. destruct (placed_shown _ SP _ _ _ P) as (o & SH).
  destruct (shows_given _ _ _ _ _ _ SH G) as [_ PI]. destruct z as [|[before [i t at_ kids|] after] up]; try contradiction. destruct PI as (pre & l & e & c & PI).
  destruct CF as (x & lt & j & cfg & WE & LT & [J JI] & JN & WR & -> & _ & _). pose proof (none_only _ JI JN) as NN.
  assert (SAME : forall x' t' j' cfg' text y, wears s x' -> template_set s "line_template" t' -> justification_set s j' ->
    SetSpec.set_text cfg' (text_room page x' (label_columns t')) text (lit j') y -> False).
  { intros x' t' j' cfg' text y WE' LT' [J' _] ST. rewrite (wears_fun _ _ _ WE' WE) in ST. unfold template_set in LT, LT'. rewrite LT in LT'. injection LT' as <-. unfold str_set in J, J'. rewrite J in J'. injection J' as EJ. rewrite <- EJ in ST. exact (no_columns _ _ _ _ _ W NN ST). }
  remember (rc_kind cl) as k. destruct PI; cbn [lays_out] in LO; try contradiction.
  - destruct H as [->| ->]; exact LO.
  - destruct H6 as (parts & FA & _). destruct (split_on 10%N (cased caps c)) as [|p ps] eqn:E; [exact (PageText.split_on_not_nil _ _ E)|]. inversion FA; subst. eapply SAME; eauto.
  - destruct LO as (skip & (v & V & T) & E), H0 as (v' & V' & T'). assert (X : skip = true) by congruence. rewrite X, H1 in E. discriminate E.
  - eapply SAME; eauto.
Qed.
End S.
Close Scope Z_scope.
