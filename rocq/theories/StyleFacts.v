(** Selectors and rules over places in a document. *)
From Verif Require Import WrapFacts WrapLoop WrapWidth.
From Verif Require Import BaseFacts StrFacts SelFacts CssFacts TreeFacts DomFacts SettingsFacts PageBase.
From Verif Require Export StyleSpec.

(** ** Places and nodes *)
Definition home (z : site) : pref := match z with [] => PRoot | x :: _ => PNode (tid (sp_here x)) end.
Definition level (x : spot) : list tree := sp_before x ++ sp_here x :: sp_after x.
Section A.
Variables (d : dom) (F : list tree).
Fixpoint at_site (z : site) : Prop :=
  match z with
  | [] => True
  | x :: up => Forall (stores d (home up)) (level x) /\ children_of d (home up) = map tid (level x)
      /\ incl (flat_map all_attributes (level x)) (flat_map all_attributes F)
      /\ match up with [] => True | y :: _ => PageSpec.element (sp_here y) = true end
      /\ at_site up
  end.
Hypothesis WF : wf_dom d.

Lemma here_in : forall x, In (sp_here x) (level x).
Proof. intros x. unfold level. apply in_or_app. right. now left. Qed.
Lemma site_stores : forall x up, at_site (x :: up) -> stores d (home up) (sp_here x).
Proof. intros x up (H & _). eapply Forall_forall in H; [exact H|apply here_in]. Qed.
Lemma stores_node : forall q t, stores d q t -> exists n, node_at d (tid t) = Some n.
Proof. intros q [i t a ks|i s] H; [apply stores_Tag in H as [(n & H & _) _]|destruct H as (n & H & _)]; eauto. Qed.
(** The places of siblings. *)
Lemma site_sibling : forall b t c b' t' c' up, b ++ t :: c = b' ++ t' :: c' -> at_site (Spot b t c :: up) -> at_site (Spot b' t' c' :: up).
Proof.
  intros b t c b' t' c' up E H. cbn [at_site] in *. unfold level in *. cbn [sp_before sp_here sp_after] in *. rewrite <- E.
  destruct H as (H1 & H2 & H3 & H5 & H6). repeat split; auto.
Qed.
Lemma spots_at : forall up, at_site up -> match up with [] => True | y :: _ => PageSpec.element (sp_here y) = true end ->
  forall kids before, Forall (stores d (home up)) (before ++ kids) -> children_of d (home up) = map tid (before ++ kids) ->
  incl (flat_map all_attributes (before ++ kids)) (flat_map all_attributes F) ->
  Forall at_site (spots up before kids).
Proof.
  intros up HU EU. induction kids as [|t r IH]; intros before H1 H2 H3; cbn [spots]; constructor.
  - cbn [at_site]. unfold level. cbn [sp_before sp_here sp_after]. repeat split; auto.
  - apply IH; rewrite <- app_assoc; auto.
Qed.
Lemma inner_at : forall z, at_site z -> Forall at_site (inner_spots z).
Proof.
  intros [|x up] H; [constructor|]. pose proof (site_stores _ _ H) as S. unfold inner_spots. destruct (sp_here x) as [i t a kids|i s] eqn:E; cbn [kids_of]; [|constructor].
  apply stores_Tag in S as [(n & N1 & N2 & N3 & N4 & N5 & _) HK]. apply spots_at; cbn [app home]; rewrite ?E; auto.
  - cbn [children_of tid]. now rewrite N1.
  - destruct H as (_ & _ & H & _). intros y Y. apply H. apply in_flat_map. exists (sp_here x). split; [apply here_in|]. rewrite E. cbn [all_attributes]. now right.
Qed.

(** ** Elements *)
Lemma site_siblings : forall b t c up, PageSpec.element t = true -> at_site (Spot b t c :: up) ->
  siblings d (tid t) = map tid (filter PageSpec.element b) ++ tid t :: map tid (filter PageSpec.element c).
Proof.
  intros b t c up E H. pose proof (site_stores _ _ H) as S. destruct H as (H1 & H2 & _). unfold level in *. cbn [sp_before sp_here sp_after] in *.
  destruct t as [i tg a kids|]; [|discriminate]. apply stores_Tag in S as [(n & N1 & N2 & N3 & N4 & N5 & _) HK].
  assert (P : parent_of d (ONode i) = Some (home up)) by (unfold parent_of; rewrite N1, N4; destruct up; reflexivity).
  cbn [tid]. rewrite (siblings_tag_children d i _ P). unfold tag_children. rewrite H2, (stored_tags d (home up)) by exact H1.
  rewrite filter_app. cbn [filter]. rewrite E, map_app. reflexivity.
Qed.
Lemma site_nodup : forall b t c up, PageSpec.element t = true -> at_site (Spot b t c :: up) ->
  NoDup (map tid (filter PageSpec.element b) ++ tid t :: map tid (filter PageSpec.element c)).
Proof.
  intros b t c up E H. rewrite <- (site_siblings _ _ _ _ E H). pose proof (site_stores _ _ H) as S. cbn [sp_here] in S.
  destruct t as [i tg a kids|]; [|discriminate]. apply stores_Tag in S as [(n & N1 & N2 & N3 & N4 & N5 & _) HK].
  assert (P : parent_of d (ONode i) = Some (home up)) by (unfold parent_of; rewrite N1, N4; destruct up; reflexivity).
  cbn [tid]. rewrite (siblings_tag_children d i _ P). apply tag_children_NoDup; auto.
Qed.
Lemma split_here : forall {A} (x : A) b c l r, NoDup (b ++ x :: c) -> b ++ x :: c = l ++ x :: r -> b = l /\ c = r.
Proof.
  intros A x. induction b as [|y b IH]; intros c [|z l] r ND E; cbn [app] in *.
  - injection E as ->. auto.
  - injection E as -> ->. inversion ND; subst. elim H1. apply in_or_app. right. now left.
  - injection E as -> <-. inversion ND; subst. elim H1. apply in_or_app. right. now left.
  - injection E as -> E. inversion ND; subst. destruct (IH c l r H2 E) as [-> ->]. auto.
Qed.
(** The element before, among the elements. *)
Lemma filter_split : forall {A} (f : A -> bool) l x y1 y2, filter f l = y1 ++ x :: y2 ->
  exists a b, l = a ++ x :: b /\ filter f a = y1 /\ filter f b = y2 /\ f x = true.
Proof.
  intros A f. induction l as [|z l IH]; intros x y1 y2 E; cbn [filter] in E; [destruct y1; discriminate|].
  destruct (f z) eqn:FZ.
  - destruct y1 as [|w y1]; cbn [app] in E; injection E as -> E.
    + exists [], l. auto.
    + destruct (IH _ _ _ E) as (a & b & -> & H1 & H2 & H3). exists (w :: a), b. cbn [filter app]. rewrite FZ, H1. auto.
  - destruct (IH _ _ _ E) as (a & b & -> & H1 & H2 & H3). exists (z :: a), b. cbn [filter app]. rewrite FZ. auto.
Qed.
Lemma map_split : forall {A B} (f : A -> B) l y y1 y2, map f l = y1 ++ y :: y2 -> exists x x1 x2, l = x1 ++ x :: x2 /\ map f x1 = y1 /\ f x = y /\ map f x2 = y2.
Proof.
  intros A B f. induction l as [|z l IH]; intros y [|w y1] y2 E; cbn [map app] in E; try discriminate; injection E as E1 E2.
  - exists z, [], l. auto.
  - destruct (IH _ _ _ E2) as (x & x1 & x2 & -> & H1 & H2 & H3). exists x, (z :: x1), x2. cbn [map app]. rewrite H1, E1. auto.
Qed.
Lemma elements_zero : forall l, elements l = 0%Z <-> filter PageSpec.element l = [].
Proof. intros l. unfold elements. destruct (filter PageSpec.element l); cbn [length]; split; intros H; auto; [lia|discriminate]. Qed.
Lemma site_text : forall s b i x c up, ~ css_at s (Spot b (Text i x) c :: up).
Proof. intros s b i x c up H. destruct s; exact H. Qed.
Lemma site_root : forall s, ~ css_at s [].
Proof. intros s H. destruct s; exact H. Qed.

Lemma parent_site : forall b t c up j, PageSpec.element t = true -> at_site (Spot b t c :: up) -> parent_element d j (tid t) -> exists x u, up = x :: u /\ tid (sp_here x) = j.
Proof.
  intros b t c up j E H (n & N1 & N2). pose proof (site_stores _ _ H) as S. cbn [sp_here] in S. destruct t as [i tg a kids|]; [|discriminate].
  apply stores_Tag in S as [(n' & M1 & _ & _ & M2 & _) _]. cbn [tid] in N1. rewrite N1 in M1. injection M1 as <-. rewrite N2 in M2.
  destruct up as [|x u]; [discriminate|]. injection M2 as ->. eauto.
Qed.
Lemma site_parent : forall b t c x u, PageSpec.element t = true -> at_site (Spot b t c :: x :: u) -> parent_element d (tid (sp_here x)) (tid t).
Proof.
  intros b t c x u E H. pose proof (site_stores _ _ H) as S. cbn [sp_here] in S. destruct t as [i tg a kids|]; [|discriminate].
  apply stores_Tag in S as [(n' & M1 & _ & _ & M2 & _) _]. exists n'. auto.
Qed.
Lemma at_up : forall x up, at_site (x :: up) -> at_site up.
Proof. intros x up H. cbn [at_site] in H. tauto. Qed.
Lemma up_element : forall x y u, at_site (x :: y :: u) -> PageSpec.element (sp_here y) = true.
Proof. intros x y u H. cbn [at_site] in H. tauto. Qed.

Lemma css_ancestors : forall P Q, (forall x u, at_site (x :: u) -> PageSpec.element (sp_here x) = true -> (P (tid (sp_here x)) <-> Q (x :: u))) -> ~ Q [] ->
  forall up b t c, PageSpec.element t = true -> at_site (Spot b t c :: up) ->
  (exists j, ancestor d j (tid t) /\ P j) <-> (exists l y, up = l ++ y /\ Q y).
Proof.
  intros P Q HPQ NQ. induction up as [|x u IH]; intros b t c E H.
  - split.
    + intros (j & A & _). exfalso. apply ancestor_inv in A as [A|(k & _ & A)]; destruct (parent_site _ _ _ _ _ E H A) as (? & ? & ? & _); discriminate.
    + intros (l & y & E1 & HQ). destruct l; [|discriminate]. cbn in E1. subst y. contradiction.
  - assert (EX := up_element _ _ _ H). assert (HX := at_up _ _ H). destruct x as [b' t' c']. cbn [sp_here] in *. specialize (IH b' t' c' EX HX). split.
    + intros (j & A & HP). apply ancestor_inv in A as [A|(k & A1 & A2)].
      * destruct (parent_site _ _ _ _ _ E H A) as (x' & u' & X1 & X2). injection X1 as <- <-. exists [], (Spot b' t' c' :: u). split; auto. apply (HPQ _ _ HX EX). cbn [sp_here] in *. now rewrite X2.
      * destruct (parent_site _ _ _ _ _ E H A2) as (x' & u' & X1 & X2). injection X1 as <- <-. cbn [sp_here] in X2. subst k.
        destruct (proj1 IH) as (l & y & -> & HQ); [eauto|]. exists (Spot b' t' c' :: l), y. auto.
    + intros (l & y & E1 & HQ). destruct l as [|z l].
      * cbn in E1. subst y. exists (tid t'). split; [|now apply (HPQ _ _ HX EX)]. apply ancestor_one. apply (site_parent _ _ _ _ _ E H).
      * cbn in E1. injection E1 as <- ->. destruct (proj2 IH) as (j & A & HP); [eauto|]. exists j. split; auto. eapply ancestor_up; [exact A|]. apply (site_parent _ _ _ _ _ E H).
Qed.

Lemma attributes_in : forall b i tg a kids c up, at_site (Spot b (Tag i tg a kids) c :: up) -> In a (flat_map all_attributes F).
Proof.
  intros b i tg a kids c up (_ & _ & H & _). apply H. unfold level. cbn [sp_before sp_here sp_after]. rewrite flat_map_app. apply in_or_app. right. cbn [flat_map all_attributes]. now left.
Qed.
Lemma str_of_Z_inj : forall k k', (1 <= k)%Z -> (1 <= k')%Z -> str_of_Z k = str_of_Z k' -> k = k'.
Proof. intros k k' H H' E. pose proof (py_int_str k H) as A. rewrite E, (py_int_str k' H') in A. congruence. Qed.
Lemma css_attr_words : forall l x v op, In op [lit "exists"; lit "~="] -> (op = lit "~=" -> plain_space x) -> split_ws x = l ->
  (css_aval (AvList l) op v <-> css_attr op x v).
Proof.
  intros l x v op HO HP <-. cbn [css_aval]. destruct HO as [<-|[<-|[]]].
  - split; intros _; [apply css_attr_exists|now left].
  - rewrite css_word_iff by (now apply HP). split.
    + intros [E|[_ HW]]; [discriminate|]. right; right; left. split; [reflexivity|exact HW].
    + intros HC. unfold css_attr in HC. repeat (destruct HC as [HC|HC]); try (discriminate HC); try (destruct HC as [HC _]; discriminate HC). now right.
Qed.

Lemma css_site : forall s, covered F s -> forall b t c up, PageSpec.element t = true -> at_site (Spot b t c :: up) ->
  (css d s (tid t) <-> css_at s (Spot b t c :: up)).
Proof.
  induction s as [nm|s IH cn|s IH x|s1 IH1 s2 IH2|s IH k op v|s IH p|s IH f args|s1 IH1 cb s2 IH2|]; intros HC b t c up E H;
  cbn [covered] in HC; pose proof (site_stores _ _ H) as S; cbn [sp_here] in S;
  destruct t as [i tg a kids|]; try discriminate;
  pose proof (site_siblings _ _ _ _ E H) as SB; pose proof (site_nodup _ _ _ _ E H) as ND;
  pose proof (attributes_in _ _ _ _ _ _ _ H) as AI;
  apply stores_Tag in S as [(n & N1 & N2 & N3 & N4 & N5 & (C1 & C2 & C3 & C4) & N7) HK]; cbn [css css_at tid] in *.
  - destruct nm as [nm|].
    + split; [intros (n' & M1 & M2); congruence|intros <-; eauto].
    + split; auto. intros _. exists n, tg. auto.
  - destruct HC as [HC HW]. rewrite <- (IH HC b (Tag i tg a kids) c up E H). split; intros [H1 H2]; split; auto.
    + destruct H2 as (n' & M1 & M2). rewrite N1 in M1. injection M1 as <-. rewrite C3 in M2. destruct (attr "class" a) as [x|] eqn:EA; [|contradiction].
      exists x. split; auto. apply css_word_iff; auto. apply (HW a); auto.
    + destruct H2 as (x & EA & W). exists n. split; auto. rewrite C3, EA. apply css_word_iff; auto. apply (HW a); auto.
  - rewrite <- (IH HC b (Tag i tg a kids) c up E H). split; intros [H1 H2]; split; auto.
    + destruct H2 as (n' & M1 & M2). congruence.
    + exists n. split; congruence.
  - destruct HC as [HC1 HC2]. rewrite <- (IH1 HC1 b (Tag i tg a kids) c up E H), <- (IH2 HC2 b (Tag i tg a kids) c up E H). cbn [tid]. tauto.
  - destruct HC as [HC (R1 & R2 & R3)]. rewrite <- (IH HC b (Tag i tg a kids) c up E H). specialize (R3 a AI).
    assert (EQ : (exists n0 av, node_at d i = Some n0 /\ dget k (n_attrs n0) = Some av /\ css_aval av op v) <-> (exists x, dlast k a = Some x /\ css_attr op (attr_value x) v)).
    { destruct (str_eq_dec k (lit "class")) as [->|NK].
      - destruct (dlast (lit "class") a) as [[x|]|] eqn:DL.
        + destruct R3 as [R4 R5]. assert (W : css_aval (AvList (split_ws x)) op v <-> css_attr op x v).
          { apply css_attr_words; auto. destruct (R5 eq_refl) as [->| ->]; cbn [In]; auto. }
          split.
          * intros (n0 & av & M1 & M2 & M3). rewrite N1 in M1. injection M1 as <-. rewrite C2 in M2. injection M2 as <-. exists (Some x). split; auto. cbn [attr_value]. apply W; auto.
          * intros (y & Y1 & Y2). injection Y1 as <-. exists n, (AvList (split_ws x)). split; auto. split; [now rewrite C2|]. apply W; auto.
        + split.
          * intros (n0 & av & M1 & M2 & M3). rewrite N1 in M1. injection M1 as <-. rewrite C2 in M2. injection M2 as <-. exists None. auto.
          * intros (y & Y1 & Y2). injection Y1 as <-. exists n, AvNone. auto.
        + split; [intros (n0 & av & M1 & M2 & M3)|intros (y & Y1 & Y2); discriminate]. rewrite N1 in M1. injection M1 as <-. rewrite C2 in M2. discriminate.
      - specialize (C1 k NK). destruct (dlast k a) as [[x|]|] eqn:DL.
        + split.
          * intros (n0 & av & M1 & M2 & M3). rewrite N1 in M1. injection M1 as <-. rewrite C1 in M2. injection M2 as <-. exists (Some x). auto.
          * intros (y & Y1 & Y2). injection Y1 as <-. exists n, (AvStr x). auto.
        + split.
          * intros (n0 & av & M1 & M2 & M3). rewrite N1 in M1. injection M1 as <-. rewrite C1 in M2. injection M2 as <-. exists None. auto.
          * intros (y & Y1 & Y2). injection Y1 as <-. exists n, AvNone. auto.
        + split; [intros (n0 & av & M1 & M2 & M3)|intros (y & Y1 & Y2); discriminate]. rewrite N1 in M1. injection M1 as <-. rewrite C1 in M2. discriminate. }
    cbn [tid]. rewrite EQ. tauto.
  - destruct HC as [HC HP]. rewrite <- (IH HC b (Tag i tg a kids) c up E H), !elements_zero, SB. cbn [tid].
    assert (E1 : (exists r, map tid (filter PageSpec.element b) ++ i :: map tid (filter PageSpec.element c) = i :: r) <-> filter PageSpec.element b = []).
    { split.
      - intros (r & ER). destruct (split_here i _ _ [] r ND ER) as [X _]. destruct (filter PageSpec.element b); [reflexivity|discriminate].
      - intros ->. cbn [map app]. eauto. }
    assert (E2 : (exists l, map tid (filter PageSpec.element b) ++ i :: map tid (filter PageSpec.element c) = l ++ [i]) <-> filter PageSpec.element c = []).
    { split.
      - intros (l & ER). destruct (split_here i _ _ l [] ND ER) as [_ X]. destruct (filter PageSpec.element c); [reflexivity|discriminate].
      - intros ->. cbn [map app]. eauto. }
    rewrite E1, E2. tauto.
  - destruct HC as (HC & HP & k & K1 & ->). rewrite <- (IH HC b (Tag i tg a kids) c up E H), SB. cbn [tid]. unfold elements.
    set (lb := map tid (filter PageSpec.element b)) in *. set (lc := map tid (filter PageSpec.element c)) in *.
    assert (LB : length (filter PageSpec.element b) = length lb) by (unfold lb; now rewrite map_length).
    assert (LC : length (filter PageSpec.element c) = length lc) by (unfold lc; now rewrite map_length). rewrite LB, LC.
    assert (NF : forall m, nth_error (lb ++ i :: lc) m = Some i <-> m = length lb).
    { intros m. split; [|intros ->; apply nth_error_mid]. intros X. eapply NoDup_nth_unique; [exact ND|exact X|apply nth_error_mid]. }
    assert (NL : forall m, nth_error (rev (lb ++ i :: lc)) m = Some i <-> m = length lc).
    { intros m. rewrite rev_app_distr. cbn [rev]. rewrite <- app_assoc. cbn [app]. rewrite <- (rev_length lc). split; [|intros ->; apply nth_error_mid].
      intros X. eapply NoDup_nth_unique; [|exact X|apply nth_error_mid]. apply NoDup_rev in ND. rewrite rev_app_distr in ND. cbn [rev] in ND. rewrite <- app_assoc in ND. exact ND. }
    split; intros [H1 (k' & K2 & EK & H2)]; (split; [exact H1|]); injection EK as EK; apply str_of_Z_inj in EK; auto; subst k'; exists k; (split; [lia|]); (split; [reflexivity|]).
    + rewrite NF, NL in H2. destruct H2 as [[-> H2]|[-> H2]]; [left|right]; split; auto; lia.
    + rewrite NF, NL. destruct H2 as [[-> H2]|[-> H2]]; [left|right]; split; auto; lia.
  - destruct HC as (HC1 & HC2 & HO). rewrite <- (IH2 HC2 b (Tag i tg a kids) c up E H). cbn [tid].
    assert (A1 : (exists j, ancestor d j i /\ css d s1 j) <-> (exists l y, up = l ++ y /\ css_at s1 y)).
    { apply (css_ancestors (css d s1) (css_at s1)) with (b := b) (t := Tag i tg a kids) (c := c); auto; [|apply site_root].
      intros [b' t' c'] u HX EX. cbn [sp_here] in *. apply (IH1 HC1); auto. }
    assert (A2 : (exists j, parent_element d j i /\ css d s1 j) <-> css_at s1 up).
    { split.
      - intros (j & PJ & CJ). destruct (parent_site _ _ _ _ _ E H PJ) as ([b' t' c'] & u & -> & <-). cbn [sp_here] in *. apply (IH1 HC1); auto; [exact (up_element _ _ _ H)|exact (at_up _ _ H)].
      - intros HU. destruct up as [|[b' t' c'] u]; [elim (site_root _ HU)|]. exists (tid t'). split; [apply (site_parent _ _ _ _ _ E H)|].
        apply (IH1 HC1 b' t' c' u); auto; [exact (up_element _ _ _ H)|exact (at_up _ _ H)]. }
    assert (SIB : forall l j m, b = l ++ j :: m -> at_site (Spot l j (m ++ Tag i tg a kids :: c) :: up)).
    { intros l j m ->. eapply site_sibling; [|exact H]. rewrite <- app_assoc. reflexivity. }
    assert (A3 : (exists j l m r, siblings d i = l ++ j :: m ++ i :: r /\ css d s1 j)
      <-> (exists l j m, b = l ++ j :: m /\ css_at s1 (Spot l j (m ++ Tag i tg a kids :: c) :: up))).
    { split.
      - intros (j & l & m & r & EQ & CJ). rewrite SB in EQ. change (l ++ j :: m ++ i :: r) with (l ++ (j :: m) ++ i :: r) in EQ. rewrite app_assoc in EQ.
        destruct (split_here i _ _ (l ++ j :: m) r ND EQ) as [X _]. apply map_split in X as (x & x1 & x2 & X & _ & <- & _).
        apply filter_split in X as (b1 & b2 & -> & _ & _ & EJ). exists b1, x, b2. split; auto. apply (IH1 HC1); auto.
      - intros (l & j & m & EB & CJ). assert (EJ : PageSpec.element j = true) by (destruct j; [reflexivity|elim (site_text _ _ _ _ _ _ CJ)]).
        exists (tid j), (map tid (filter PageSpec.element l)), (map tid (filter PageSpec.element m)), (map tid (filter PageSpec.element c)). split.
        + rewrite SB, EB. rewrite filter_app. cbn [filter]. rewrite EJ, map_app. cbn [map]. rewrite <- app_assoc. reflexivity.
        + apply (IH1 HC1) in CJ; auto. }
    assert (A4 : (exists j l r, siblings d i = l ++ j :: i :: r /\ css d s1 j)
      <-> (exists l j m, b = l ++ j :: m /\ elements m = 0%Z /\ css_at s1 (Spot l j (m ++ Tag i tg a kids :: c) :: up))).
    { split.
      - intros (j & l & r & EQ & CJ). rewrite SB in EQ. change (l ++ j :: i :: r) with (l ++ [j] ++ i :: r) in EQ. rewrite app_assoc in EQ.
        destruct (split_here i _ _ (l ++ [j]) r ND EQ) as [X _]. apply map_split in X as (x & x1 & x2 & X & _ & <- & X2). destruct x2; [|discriminate].
        apply filter_split in X as (b1 & b2 & -> & _ & Y & EJ). exists b1, x, b2. split; auto. split; [now apply elements_zero|]. apply (IH1 HC1); auto.
      - intros (l & j & m & EB & EM & CJ). assert (EJ : PageSpec.element j = true) by (destruct j; [reflexivity|elim (site_text _ _ _ _ _ _ CJ)]).
        apply elements_zero in EM. exists (tid j), (map tid (filter PageSpec.element l)), (map tid (filter PageSpec.element c)). split.
        + rewrite SB, EB. rewrite filter_app. cbn [filter]. rewrite EJ, EM, map_app. cbn [map]. rewrite <- app_assoc. reflexivity.
        + apply (IH1 HC1) in CJ; auto. }
    rewrite A1, A2, A3, A4. tauto.
  - contradiction.
Qed.
End A.
