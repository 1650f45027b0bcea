(** The matcher decides CSS semantics on well-formed trees. *)
From Verif Require Export SelFacts.

(** ** String tests *)
Lemma startswith_iff : forall p s, startswith p s = true <-> exists r, s = p ++ r.
Proof.
  induction p as [|x p IH]; simpl; intros s.
  - split; eauto.
  - destruct s as [|y s].
    + split; [discriminate|]. intros (r & H). discriminate.
    + rewrite andb_true_iff, N.eqb_eq, IH. split.
      * intros [-> (r & ->)]. eauto.
      * intros (r & H). inversion H; subst. eauto.
Qed.
Lemma endswith_iff : forall p s, endswith p s = true <-> exists l, s = l ++ p.
Proof.
  intros. unfold endswith. rewrite startswith_iff. split; intros (r & H).
  - exists (rev r). apply (f_equal (@rev N)) in H. rewrite rev_involutive, rev_app_distr, rev_involutive in H. auto.
  - exists (rev r). rewrite H. apply rev_app_distr.
Qed.
Lemma contains_iff : forall p s, contains p s = true <-> exists l r, s = l ++ p ++ r.
Proof.
  intros p. induction s as [|c s IH]; simpl; rewrite orb_true_iff, startswith_iff.
  - split.
    + intros [(r & H)|H]; [|discriminate]. exists [], r. auto.
    + intros (l & r & H). left. destruct l; [|discriminate]. simpl in H. eauto.
  - rewrite IH. split.
    + intros [(r & H)|(l & r & H)]; [exists [], r; auto|]. exists (c :: l), r. simpl. now rewrite H.
    + intros (l & r & H). destruct l as [|c' l]; simpl in H; [left; eauto|]. inversion H; subst. right; eauto.
Qed.

Lemma space_last_snoc : forall s c, space_last (s ++ [c]) = is_space c.
Proof. intros. unfold space_last. now rewrite rev_app_distr. Qed.

Lemma split_ws_one : forall v, v <> [] -> forallb (fun c => negb (is_space c)) v = true -> split_ws v = [v].
Proof.
  intros v H1 H2. apply words_split_ws.
  pose proof (words_more [] v [] [] eq_refl H1 H2 (or_introl eq_refl) (words_end [] eq_refl)) as W.
  simpl in W. now rewrite app_nil_r in W.
Qed.
Lemma In_split_ws : forall x v, In v (split_ws x) <->
  v <> [] /\ (forall c, In c v -> is_space c = false) /\
  exists l r, x = l ++ v ++ r /\ (l = [] \/ exists l' c, l = l' ++ [c] /\ is_space c = true)
     /\ (r = [] \/ exists c r', r = c :: r' /\ is_space c = true).
Proof.
  intros x v. split.
  - pose proof (split_ws_is_words x) as W. revert W. generalize (split_ws x). intros l W.
    induction W as [sp H | sp w rest l H Hw Hn Hr Hrest IH]; intros HI; [destruct HI|].
    destruct HI as [<- |HI].
    + split; auto. split.
      { intros c Hc. eapply forallb_forall in Hn; eauto. now apply negb_true_iff in Hn. }
      exists sp, rest. split; auto. split.
      * destruct sp as [|c sp] using rev_ind; auto. right. exists sp, c. split; auto.
        unfold all_space in H. rewrite forallb_app in H. simpl in H.
        apply andb_true_iff in H as [_ H]. now rewrite andb_true_r in H.
      * destruct Hr as [-> |Hr]; auto. right. destruct rest as [|c r]; [discriminate|]. eauto.
    + destruct (IH HI) as (H1 & H2 & l' & r & E & Hl & Hr'). split; auto. split; auto.
      exists (sp ++ w ++ l'), r. split. { rewrite E. now rewrite <- !app_assoc. }
      split; auto. right. destruct Hl as [-> |(l2 & c & -> & Hc)].
      * destruct Hr as [-> |Hr]. { destruct v; [congruence|discriminate]. }
        rewrite E in Hr. destruct v as [|c v]; [congruence|]. simpl in Hr. rewrite H2 in Hr by (simpl; auto). discriminate.
      * exists (sp ++ w ++ l2), c. split; auto. now rewrite <- !app_assoc.
  - intros (H1 & H2 & l & r & -> & Hl & Hr).
    assert (W : split_ws v = [v]).
    { apply split_ws_one; auto. apply forallb_forall. intros c Hc. now rewrite H2. }
    assert (R : In v (split_ws (v ++ r))).
    { destruct Hr as [-> |(c & r' & -> & Hc)].
      - rewrite app_nil_r, W. simpl; auto.
      - rewrite split_ws_app_space by auto. rewrite W. simpl. auto. }
    destruct Hl as [-> |(l' & c & -> & Hc)]; auto.
    rewrite <- app_assoc. simpl. rewrite split_ws_app_space by auto. apply in_app_iff. auto.
Qed.

Lemma css_word_iff : forall x v, (forall c, In c x -> is_space c = css_space c) ->
  (In v (split_ws x) <-> css_word v x).
Proof.
  intros x v HX. rewrite In_split_ws. unfold css_word.
  split; (intros (H1 & H2 & l & r & E & Hl & Hr); split; [exact H1|];
    assert (HI : forall c, In c l \/ In c v \/ In c r -> is_space c = css_space c)
      by (intros; apply HX; rewrite E, !in_app_iff; tauto)).
  - split. { intros c Hc. rewrite <- HI by auto. auto. }
    exists l, r. split; auto. split.
    + destruct Hl as [|(l' & c & -> & Hc)]; auto. right. exists l', c. split; auto.
      rewrite <- HI; auto. left. apply in_app_iff. simpl. auto.
    + destruct Hr as [|(c & r' & -> & Hc)]; auto. right. exists c, r'. split; auto.
      rewrite <- HI; auto. simpl. auto.
  - split. { intros c Hc. rewrite HI by auto. auto. }
    exists l, r. split; auto. split.
    + destruct Hl as [|(l' & c & -> & Hc)]; auto. right. exists l', c. split; auto.
      rewrite HI; auto. left. apply in_app_iff. simpl. auto.
    + destruct Hr as [|(c & r' & -> & Hc)]; auto. right. exists c, r'. split; auto.
      rewrite HI; auto. simpl. auto.
Qed.

(** Words of a class list: every entry is a word, so re-joining changes nothing. *)
Lemma split_join_words : forall l, Forall (fun w => w <> [] /\ forallb (fun c => negb (is_space c)) w = true) l ->
  split_ws (join (lit " ") l) = l.
Proof.
  intros. rewrite split_ws_join. induction H as [|w l [H1 H2] Hl IH]; auto. simpl. rewrite IH.
  now rewrite split_ws_one.
Qed.

(** ** Attribute tests *)
Ltac opcase H := simpl In in H; repeat (destruct H as [<- |H]); [..|destruct H].
Definition class_ok (av : aval) : Prop :=
  match av with
  | AvList l => Forall (fun w => w <> [] /\ forallb (fun c => negb (is_space c)) w = true) l
  | _ => True
  end.
Lemma attr_test_none : forall attrs a op v, dget a attrs = None -> attr_test attrs a op v = Ok false.
Proof. intros. unfold attr_test. now rewrite H. Qed.
Lemma css_attr_exists : forall x v, css_attr (lit "exists") x v.
Proof. intros. left. auto. Qed.
Ltac cattr := unfold css_attr; split; intros HC;
  [ | repeat (destruct HC as [HC|HC]); try discriminate HC; try (destruct HC as [HC _]; discriminate HC) ].

Lemma attr_test_spec : forall attrs a op v av,
  In op [lit "exists"; lit "="; lit "~="; lit "|="; lit "^="; lit "$="; lit "*="] ->
  (In op [lit "^="; lit "$="; lit "*="] -> v <> []) ->
  dget a attrs = Some av -> class_ok av ->
  match av with
  | AvNone => op = lit "exists" \/ op = lit "=" /\ v <> []
  | AvStr x => op = lit "~=" -> forall c, In c x -> is_space c = css_space c
  | AvList _ => op = lit "exists" \/ op = lit "~="
  end ->
  exists b, attr_test attrs a op v = Ok b /\ (b = true <-> css_aval av op v).
Proof.
  intros attrs a op v av HO HV HG HK HR. unfold attr_test. rewrite HG.
  destruct av as [|x|l].
  - destruct HR as [-> |[-> HR]]; simpl.
    + eexists. split; [reflexivity|]. split; auto. intros _. apply css_attr_exists.
    + exists false. split; [reflexivity|]. split; [discriminate|]. intros HC. exfalso.
      unfold css_attr in HC. repeat (destruct HC as [HC|HC]); try discriminate HC;
        destruct HC as [HC HC']; try discriminate HC. congruence.
  - simpl css_aval. simpl in HO.
    destruct HO as [<- |[<- |[<- |[<- |[<- |[<- |[<- |[]]]]]]]].
    + eexists. split; [reflexivity|]. split; auto. intros _. apply css_attr_exists.
    + exists (seqb x v). split; [reflexivity|]. rewrite seqb_eq. cattr; auto.
      destruct HC as [_ HC]; auto.
    + exists (smem v (split_ws x)). split; [reflexivity|]. rewrite smem_In, css_word_iff by auto.
      cattr; auto. destruct HC as [_ HC]; auto.
    + exists (seqb x v || startswith (v ++ lit "-") x). split; [reflexivity|].
      rewrite orb_true_iff, seqb_eq, startswith_iff.
      assert (EQ : (exists r, x = (v ++ lit "-") ++ r) <-> (exists r, x = v ++ lit "-" ++ r)).
      { split; intros (r & ->); exists r; now rewrite app_assoc. }
      rewrite EQ. cattr; auto 6. destruct HC as [_ HC]; auto.
    + exists (startswith v x). split; [reflexivity|]. rewrite startswith_iff.
      assert (v <> []) by (apply HV; simpl; auto).
      cattr; auto 8. destruct HC as (_ & _ & HC); auto.
    + exists (endswith v x). split; [reflexivity|]. rewrite endswith_iff.
      assert (v <> []) by (apply HV; simpl; auto).
      cattr; auto 9. destruct HC as (_ & _ & HC); auto.
    + exists (contains v x). split; [reflexivity|]. rewrite contains_iff.
      assert (v <> []) by (apply HV; simpl; auto).
      cattr; auto 10. destruct HC as (_ & _ & HC); auto.
  - destruct HR as [-> | ->]; simpl.
    + eexists. split; [reflexivity|]. split; auto.
    + exists (smem v (split_ws (join (lit " ") l))). split; [reflexivity|].
      rewrite smem_In, split_join_words by exact HK. split; auto. intros [HC|[_ HC]]; auto. discriminate.
Qed.

(** ** Tree lemmas *)
Section Tree.
Variable d : dom.
Hypothesis WF : wf_dom d.

Lemma elementb_is_tag : forall i, elementb d i = is_tag d i.
Proof. reflexivity. Qed.
Lemma element_iff : forall i, element d i <-> elementb d i = true.
Proof.
  intros. unfold element, elementb. split.
  - intros (n & t & -> & ->). auto.
  - destruct (node_at d i) as [n|]; [|discriminate]. destruct (n_tag n) as [t|]eqn:E; [|discriminate]. eauto.
Qed.
Lemma element_data : forall i n, node_at d i = Some n -> elementb d i = true -> n_data n = None.
Proof.
  intros i n H E. unfold elementb in E. rewrite H in E. pose proof (wf_kind d WF i n H) as K.
  destruct (n_tag n), (n_data n); auto; try discriminate; contradiction.
Qed.
Lemma element_is_data : forall i, elementb d i = true -> is_data d (ONode i) = false.
Proof.
  intros i E. unfold is_data. destruct (node_at d i) as [n|] eqn:H; auto.
  now rewrite (element_data i n H E).
Qed.
Lemma not_element_blank : forall i n, node_at d i = Some n -> elementb d i = false -> blank_obj d (ONode i).
Proof.
  intros i n H E. unfold elementb in E. rewrite H in E. pose proof (wf_kind d WF i n H) as K.
  destruct (n_tag n), (n_data n) eqn:D; try discriminate; try contradiction. exists n. eauto.
Qed.
Lemma siblings_tag_children : forall i p, parent_of d (ONode i) = Some p -> siblings d i = tag_children d p.
Proof.
  intros i p. unfold parent_of, siblings, tag_children. destruct (node_at d i) as [n|]; [|discriminate].
  destruct (n_parent n); intros H; inversion H; subst; reflexivity.
Qed.
Lemma element_parent : forall i, elementb d i = true -> exists p, parent_of d (ONode i) = Some p
  /\ In i (tag_children d p) /\ (p = PRoot \/ exists j, p = PNode j /\ j < i /\ elementb d j = true /\ parent_element d j i).
Proof.
  intros i E. assert (E' := E). unfold elementb in E. destruct (node_at d i) as [n|] eqn:H; [|discriminate].
  pose proof (wf_parent d WF i n H) as P. unfold parent_of. rewrite H.
  destruct (n_parent n) as [| |j] eqn:NP.
  - destruct P as [P _]. rewrite P in E. discriminate.
  - exists PRoot. split; auto. split; auto. apply filter_In. split; [|exact E']. apply P.
  - destruct P as (P1 & m & t & P2 & P3 & P4). exists (PNode j). split; auto. split.
    + apply filter_In. split; [|exact E']. simpl. now rewrite P2.
    + right. exists j. repeat split; auto.
      * unfold elementb. now rewrite P2, P3.
      * exists n. auto.
Qed.
Lemma tag_children_element : forall p i, In i (tag_children d p) -> elementb d i = true.
Proof. intros p i H. apply filter_In in H as [_ H]. exact H. Qed.
Lemma NoDup_filter' : forall {A} (f : A -> bool) l, NoDup l -> NoDup (filter f l).
Proof.
  induction l; simpl; intros H; auto. inversion H; subst.
  destruct (f a); auto. constructor; auto. rewrite filter_In. tauto.
Qed.
Lemma tag_children_NoDup : forall p, NoDup (tag_children d p).
Proof. intros. apply NoDup_filter'. apply (wf_nodup d WF). Qed.

Lemma py_index_in : forall {A} (l : list A) k, (0 <= k < Z.of_nat (length l))%Z ->
  exists x, nth_error l (Z.to_nat k) = Some x /\ py_index l k = Ok x.
Proof.
  intros A l k H. unfold py_index.
  destruct (Z.ltb_spec k 0); [lia|]. destruct (Z.ltb_spec k 0); [lia|].
  destruct (Z.leb_spec (Z.of_nat (length l)) k); [lia|]. simpl.
  destruct (nth_error l (Z.to_nat k)) as [x|] eqn:E; eauto.
  apply nth_error_None in E. lia.
Qed.
Lemma py_index_neg : forall {A} (l : list A) k, (1 <= k <= Z.of_nat (length l))%Z ->
  exists x, nth_error (rev l) (Z.to_nat (k - 1)) = Some x /\ py_index l (- k) = Ok x.
Proof.
  intros A l k H. unfold py_index.
  destruct (Z.ltb_spec (- k) 0); [|lia].
  set (j := (- k + Z.of_nat (length l))%Z).
  destruct (Z.ltb_spec j 0); [lia|].
  destruct (Z.leb_spec (Z.of_nat (length l)) j); [lia|]. simpl.
  destruct (nth_error l (Z.to_nat j)) as [x|] eqn:E.
  - exists x. split; auto. 
    assert (L : forall (l : list A) n, n < length l -> nth_error (rev l) n = nth_error l (length l - S n)).
    { clear. intros l n Hn. destruct (nth_error l (length l - S n)) as [x|] eqn:E.
      - rewrite (nth_error_nth' (rev l) x) by (rewrite rev_length; lia). f_equal.
        rewrite rev_nth by lia. now apply nth_error_nth.
      - apply nth_error_None in E. lia. }
    rewrite L by lia. rewrite <- E. f_equal. lia.
  - apply nth_error_None in E. lia.
Qed.

Lemma ancestor_inv : forall j i, ancestor d j i ->
  parent_element d j i \/ exists k, ancestor d j k /\ parent_element d k i.
Proof. intros j i H. inversion H; subst; eauto. Qed.
Lemma parent_element_fun : forall i j k, parent_element d j i -> parent_element d k i -> j = k.
Proof. intros i j k (n & H1 & H2) (n' & H3 & H4). congruence. Qed.

(** Any matcher that agrees with [P] on elements and rejects the root. *)
Section Match.
Variable m : obj -> res bool.
Variable P : nat -> Prop.
Hypothesis MR : m ORoot = Ok false.
Hypothesis ME : forall i, elementb d i = true -> exists b, m (ONode i) = Ok b /\ (b = true <-> P i).

Lemma any_ancestor_spec : forall i, elementb d i = true -> forall fuel, i + 2 <= fuel ->
  exists b, any_ancestor fuel d m (ONode i) = Ok b /\ (b = true <-> exists j, ancestor d j i /\ P j).
Proof.
  induction i as [i IH] using lt_wf_ind. intros E fuel HF.
  destruct (element_parent i E) as (p & H1 & H2 & H3).
  destruct fuel as [|fuel]; [lia|]. cbn [any_ancestor]. rewrite H1.
  destruct H3 as [-> |(j & -> & Hj & Ej & Pj)].
  - cbn [obj_of]. rewrite MR. cbn [bind]. destruct fuel as [|fuel]; [lia|]. cbn [any_ancestor parent_of].
    exists false. split; auto. split; [discriminate|]. intros (j & HA & _). exfalso.
    assert (N : forall k, ~ parent_element d k i).
    { intros k (n & N1 & N2). unfold parent_of in H1. rewrite N1, N2 in H1. discriminate. }
    apply ancestor_inv in HA as [HA|(k & _ & HA)]; eapply N; eauto.
  - cbn [obj_of]. destruct (ME j Ej) as (b & -> & Hb). cbn [bind]. destruct b.
    + exists true. split; auto. split; auto. intros _. exists j. split; [constructor; auto|]. now apply Hb.
    + destruct (IH j Hj Ej fuel ltac:(lia)) as (b & -> & HB). exists b. split; auto.
      rewrite HB. split; intros (k & K1 & K2).
      * exists k. split; auto. econstructor 2; eauto.
      * apply ancestor_inv in K1 as [K1|(k' & K1 & K3)].
        -- replace k with j in * by (eapply parent_element_fun; eauto).
           apply Hb in K2. discriminate.
        -- replace k' with j in * by (eapply parent_element_fun; eauto). eauto.
Qed.

Lemma earlier_sibling_spec : forall i l, In i l -> NoDup l -> (forall k, In k l -> elementb d k = true) ->
  exists b, earlier_sibling m (ONode i) l = Ok b
    /\ (b = true <-> exists j a c r, l = a ++ j :: c ++ i :: r /\ P j).
Proof.
  induction l as [|x l IH]; intros HI ND HE; [destruct HI|].
  cbn [earlier_sibling obj_is]. inversion ND; subst. destruct (Nat.eqb_spec x i).
  - subst x. exists false. split; auto. split; [discriminate|].
    intros (j & a & c & r & E & _). destruct a as [|y a]; simpl in E; inversion E; subst.
    + exfalso. apply H1. apply in_app_iff. simpl. auto.
    + exfalso. apply H1. rewrite in_app_iff. simpl. rewrite in_app_iff. simpl. auto.
  - destruct HI as [|HI]; [contradiction|].
    destruct (ME x) as (b & -> & Hb); [apply HE; simpl; auto|]. cbn [bind]. destruct b.
    + exists true. split; auto. split; auto. intros _. apply in_split in HI as (c & r & ->).
      exists x, [], c, r. split; auto. now apply Hb.
    + destruct IH as (b & -> & HB); [auto | auto | intros; apply HE; simpl; auto |].
      exists b. split; auto. rewrite HB. split; intros (j & a & c & r & E & HP).
      * exists j, (x :: a), c, r. simpl. now rewrite E.
      * destruct a as [|y a]; simpl in E; inversion E; subst.
        -- apply Hb in HP. discriminate.
        -- eauto 6.
Qed.

Lemma list_index_spec : forall i l, In i l -> exists k, list_index i l = Some k /\ nth_error l k = Some i.
Proof.
  intros i l. unfold list_index.
  assert (G : forall l k0, In i l -> exists k, (fix go (k : nat) (l : list nat) :=
     match l with [] => None | x :: r => if Nat.eqb i x then Some k else go (S k) r end) k0 l = Some (k0 + k)
     /\ nth_error l k = Some i).
  { induction l0 as [|x l0 IH]; intros k0 H; [destruct H|]. destruct (Nat.eqb_spec i x).
    - exists 0. subst. split; [f_equal; lia | reflexivity].
    - destruct H as [H|H]; [congruence|]. destruct (IH (S k0) H) as (k & H1 & H2).
      exists (S k). split; auto. rewrite H1. f_equal. lia. }
  intros H. destruct (G l 0 H) as (k & H1 & H2). exists k. auto.
Qed.
Lemma NoDup_nth_unique : forall {A} (l : list A) i j x, NoDup l -> nth_error l i = Some x -> nth_error l j = Some x -> i = j.
Proof.
  intros. eapply NoDup_nth_error; eauto; [|congruence]. apply nth_error_Some. congruence.
Qed.
Lemma nth_error_mid : forall {A} (a : list A) x b, nth_error (a ++ x :: b) (length a) = Some x.
Proof. intros. rewrite nth_error_app2 by lia. rewrite Nat.sub_diag. reflexivity. Qed.

Lemma adjacent_spec : forall i l, In i l -> NoDup l -> (forall k, In k l -> elementb d k = true) ->
  exists b, match list_index i l with
            | None => Err EValue
            | Some O => Ok false
            | Some (S k) => let* x := py_index l (Z.of_nat k) in m (ONode x)
            end = Ok b
    /\ (b = true <-> exists j a r, l = a ++ j :: i :: r /\ P j).
Proof.
  intros i l HI ND HE. destruct (list_index_spec i l HI) as (k & -> & HK).
  assert (UN : forall j a r, l = a ++ j :: i :: r -> k = S (length a)).
  { intros j a r ->. eapply NoDup_nth_unique; eauto.
    replace (a ++ j :: i :: r) with ((a ++ [j]) ++ i :: r) by now rewrite <- app_assoc.
    replace (S (length a)) with (length (a ++ [j])) by (rewrite app_length; simpl; lia). apply nth_error_mid. }
  destruct k as [|k].
  - exists false. split; auto. split; [discriminate|]. intros (j & a & r & E & _). apply UN in E. discriminate.
  - assert (LT : S k < length l) by (apply nth_error_Some; congruence).
    destruct (py_index_in l (Z.of_nat k)) as (x & H1 & ->); [lia|]. rewrite Nat2Z.id in H1. cbn [bind].
    assert (Ex : elementb d x = true) by (apply HE; eapply nth_error_In; eauto).
    destruct (ME x Ex) as (b & -> & Hb). exists b. split; auto. rewrite Hb.
    assert (SP : exists a r, l = a ++ x :: i :: r).
    { apply nth_error_split in H1 as (a & r & -> & La). exists a. subst k.
      rewrite nth_error_app2 in HK by lia. replace (S (length a) - length a) with 1 in HK by lia.
      simpl in HK. destruct r as [|y r]; [discriminate|]. simpl in HK. inversion HK; subst. eauto. }
    split.
    + destruct SP as (a & r & E). intros HP. exists x, a, r. auto.
    + intros (j & a & r & E & HP). pose proof (UN _ _ _ E) as EK. inversion EK; subst k.
      subst l. rewrite nth_error_mid in H1. inversion H1; subst. auto.
Qed.
End Match.
End Tree.

(** ** The matcher is CSS *)
Lemma is_first : forall (l : list nat) i x, nth_error l 0 = Some x -> (Nat.eqb x i = true <-> exists r, l = i :: r).
Proof.
  intros [|y l] i x; simpl; intros H; inversion H; subst. rewrite Nat.eqb_eq. split.
  - intros ->. eauto.
  - intros (r & E). congruence.
Qed.
Lemma is_last : forall (l : list nat) i x, nth_error (rev l) 0 = Some x -> (Nat.eqb x i = true <-> exists r, l = r ++ [i]).
Proof.
  intros l i x H. destruct l as [|y l] using rev_ind; [discriminate|].
  rewrite rev_app_distr in H. simpl in H. inversion H; subst. rewrite Nat.eqb_eq. split.
  - intros ->. eauto.
  - intros (r & E). now apply app_inj_tail in E.
Qed.
Lemma gate : forall (c : bool) (m : res bool) (Q P : Prop),
  (c = true <-> Q) -> (exists b, m = Ok b /\ (b = true <-> P)) ->
  exists b, (if c then m else Ok false) = Ok b /\ (b = true <-> P /\ Q).
Proof.
  intros c m Q P HC (b & -> & HB). destruct c.
  - exists b. split; auto. rewrite HB. intuition.
  - exists false. split; auto. split; [discriminate|]. intros [_ H]. apply HC in H. discriminate.
Qed.
Lemma weaken : forall (m : res bool) (P Q : Prop), (P <-> Q) ->
  (exists b, m = Ok b /\ (b = true <-> P)) -> exists b, m = Ok b /\ (b = true <-> Q).
Proof. intros m P Q H (b & H1 & H2). exists b. split; auto. now rewrite H2. Qed.

Lemma gate2 : forall (m1 m2 : res bool) (P Q : Prop),
  (exists b, m1 = Ok b /\ (b = true <-> P)) -> (exists b, m2 = Ok b /\ (b = true <-> Q)) ->
  exists b, (let* a := m1 in if a then m2 else Ok false) = Ok b /\ (b = true <-> P /\ Q).
Proof.
  intros m1 m2 P Q (b & -> & HB) H. cbn [bind]. eapply weaken; [|apply gate; eauto]. tauto.
Qed.

Definition classes_ok (d : dom) : Prop :=
  forall i n a av, node_at d i = Some n -> elementb d i = true -> dget a (n_attrs n) = Some av -> class_ok av.

Lemma matches_css : forall d, wf_dom d -> classes_ok d -> forall s, supported d s ->
  forall i, elementb d i = true ->
  exists b, selector_matches d s (ONode i) = Ok b /\ (b = true <-> css d s i).
Proof.
  intros d WF CK. induction s as [nm|s IH c|s IH x|s1 IH1 s2 IH2|s IH a op v|s IH p|s IH f args|s1 IH1 c s2 IH2|];
    intros HS i E; cbn [selector_matches css] in *; simpl in HS;
    pose proof (element_is_data d WF i E) as ND;
    (assert (HN : exists n, node_at d i = Some n) by
      (unfold elementb in E; destruct (node_at d i); [eauto|discriminate]));
    destruct HN as (n & Hn).
  - eexists. split; [reflexivity|]. unfold element_matches. rewrite Hn, ND. destruct nm as [t|].
    + split.
      * destruct (n_tag n) as [t'|] eqn:T; [|discriminate]. intros HH. apply seqb_eq in HH. subst. eauto.
      * intros (n' & H1 & H2). replace n' with n in * by congruence. rewrite H2. apply seqb_refl.
    + split; auto. intros _. now apply element_iff.
  - rewrite Hn, ND. eapply weaken; [|apply gate; [apply smem_In | apply IH; eauto]].
    split; intros [H1 H2]; split; auto; [eauto|]. destruct H2 as (n' & N1 & N2). congruence.
  - rewrite Hn, ND. destruct (n_id n) as [y|] eqn:ID.
    + eapply weaken; [|apply gate; [apply seqb_eq | apply IH; eauto]].
      split; intros [H1 H2]; split; auto; [subst; eauto|]. destruct H2 as (n' & N1 & N2). congruence.
    + exists false. split; auto. split; [discriminate|]. intros [_ (n' & N1 & N2)]. congruence.
  - rewrite ND. destruct HS as [HS1 HS2]. destruct (IH1 HS1 i E) as (b1 & -> & H1).
    destruct (IH2 HS2 i E) as (b2 & -> & H2). cbn [bind]. destruct b1.
    + exists (negb b2). split; auto. rewrite negb_true_iff. rewrite <- H2. split.
      * intros ->. split; [apply H1; auto|]. discriminate.
      * intros [_ H]. destruct b2; auto. exfalso; auto.
    + exists false. split; auto. split; [discriminate|]. intros [H _]. apply H1 in H. discriminate.
  - destruct HS as [HS (R1 & R2 & R3)]. rewrite Hn. apply gate2; [apply IH; auto|].
    destruct (dget a (n_attrs n)) as [av|] eqn:G.
    + destruct (attr_test_spec (n_attrs n) a op v av R1 R2 G) as (b & H1 & H2); [eapply CK; eauto| eapply R3; eauto; now apply element_iff|].
      exists b. split; auto. rewrite H2. split.
      * intros. exists n, av. auto.
      * intros (n' & av' & N1 & N2 & N3). replace n' with n in * by congruence. congruence.
    + rewrite attr_test_none by auto. exists false. split; auto. split; [discriminate|].
      intros (n' & av' & N1 & N2 & N3). replace n' with n in * by congruence. congruence.
  - destruct HS as [HS HP]. destruct (element_parent d WF i E) as (q & Q1 & Q2 & _).
    rewrite (siblings_tag_children d i q Q1). rewrite Q1, ND.
    pose proof (tag_children_NoDup d WF q) as NDC. set (l := tag_children d q) in *.
    assert (LL : 1 <= length l) by (destruct l; simpl; [destruct Q2|lia]).
    destruct HP as [-> | ->].
    + change (seqb (lit "first-child") (lit "first-child") || seqb (lit "first-child") (lit "last-child")) with true.
      change (seqb (lit "first-child") (lit "first-child")) with true. cbn iota.
      destruct (py_index_in l 0) as (x & X1 & X2); [lia|].
      destruct l as [|l0 lr] eqn:L; [destruct Q2|]. rewrite X2. cbn [bind obj_is].
      eapply weaken; [|apply gate; [apply (is_first _ i x X1) | apply IH; eauto]].
      split; intros [H1 H2]; split; auto. destruct H2 as [[_ H2]|[H2 _]]; auto. discriminate.
    + change (seqb (lit "last-child") (lit "first-child") || seqb (lit "last-child") (lit "last-child")) with true.
      change (seqb (lit "last-child") (lit "first-child")) with false. cbn iota.
      destruct (py_index_neg l 1) as (x & X1 & X2); [lia|]. change (- (1))%Z with (-1)%Z in X2.
      destruct l as [|l0 lr] eqn:L; [destruct Q2|]. rewrite X2. cbn [bind obj_is].
      eapply weaken; [|apply gate; [apply (is_last _ i x X1) | apply IH; eauto]].
      split; intros [H1 H2]; split; auto. destruct H2 as [[H2 _]|[_ H2]]; auto. discriminate.
  - destruct HS as (HS & HP & k & K1 & ->). destruct (element_parent d WF i E) as (q & Q1 & Q2 & _).
    rewrite (siblings_tag_children d i q Q1). rewrite Q1, ND.
    pose proof (tag_children_NoDup d WF q) as NDC. set (l := tag_children d q) in *.
    rewrite (py_int_str k K1). cbn [bind].
    assert (UK : forall k', (1 <= k')%Z -> [str_of_Z k] = [str_of_Z k'] -> k' = k).
    { intros k' K' EQ. inversion EQ as [EQ']. pose proof (py_int_str k K1) as A. rewrite EQ', (py_int_str k' K') in A.
      congruence. }
    destruct (Z.gtb_spec k (Z.of_nat (length l))) as [GT|LE].
    + assert (exists b, Ok false = Ok b /\ (b = true <-> css d s i /\ exists k0, (1 <= k0)%Z /\ [str_of_Z k] = [str_of_Z k0] /\
        ((f = lit "nth-child" /\ nth_error l (Z.to_nat (k0 - 1)) = Some i)
         \/ (f = lit "nth-last-child" /\ nth_error (rev l) (Z.to_nat (k0 - 1)) = Some i)))) as G.
      { exists false. split; auto. split; [discriminate|]. intros (_ & k0 & H1 & H2 & H3).
        apply UK in H2; auto. subst k0. exfalso.
        assert (LT : Z.to_nat (k - 1) < length l); [|lia].
        destruct H3 as [[_ H3]|[_ H3]]; [|rewrite <- (rev_length l)]; apply nth_error_Some; congruence. }
      destruct HP as [-> | ->]; exact G.
    + destruct HP as [-> | ->].
      * change (seqb (lit "nth-child") (lit "nth-child") || seqb (lit "nth-child") (lit "nth-last-child")) with true.
        change (seqb (lit "nth-child") (lit "nth-child")) with true. cbn iota.
        destruct (py_index_in l (k - 1)) as (x & X1 & X2); [lia|]. rewrite X2. cbn [bind obj_is].
        eapply weaken; [|apply gate; [apply Nat.eqb_eq | apply IH; eauto]].
        split; intros [H1 H2]; split; auto.
        -- subst x. exists k. auto.
        -- destruct H2 as (k0 & Y1 & Y2 & Y3). apply UK in Y2; auto. subst k0.
           destruct Y3 as [[_ Y3]|[Y3 _]]; [congruence|discriminate].
      * change (seqb (lit "nth-last-child") (lit "nth-child") || seqb (lit "nth-last-child") (lit "nth-last-child")) with true.
        change (seqb (lit "nth-last-child") (lit "nth-child")) with false. cbn iota.
        destruct (py_index_neg l k) as (x & X1 & X2); [lia|]. rewrite X2. cbn [bind obj_is].
        eapply weaken; [|apply gate; [apply Nat.eqb_eq | apply IH; eauto]].
        split; intros [H1 H2]; split; auto.
        -- subst x. exists k. auto 6.
        -- destruct H2 as (k0 & Y1 & Y2 & Y3). apply UK in Y2; auto. subst k0.
           destruct Y3 as [[Y3 _]|[_ Y3]]; [discriminate|congruence].
  - destruct HS as (HS1 & HS2 & HC). destruct (element_parent d WF i E) as (q & Q1 & Q2 & Q3).
    rewrite (siblings_tag_children d i q Q1). rewrite Q1.
    pose proof (tag_children_NoDup d WF q) as NDC.
    pose proof (tag_children_element d q) as TE.
    assert (MR : selector_matches d s1 ORoot = Ok false) by (apply blank_no_match; exact I).
    specialize (IH1 HS1). specialize (IH2 HS2 i E).
    simpl in HC. destruct HC as [<- |[<- |[<- |[<- |[]]]]].
    + change (seqb (lit " ") (lit " ")) with true. cbn iota.
      eapply weaken; [|apply gate2; [exact IH2 | apply (any_ancestor_spec d WF _ (css d s1) MR IH1 i E)]].
      * split; intros [H1 H2]; split; auto.
        repeat (destruct H2 as [H2|H2]); try (destruct H2 as [H2 _]; discriminate H2). apply H2.
      * assert (i < length (d_nodes d)) by (eapply node_at_lt; eauto). lia.
    + change (seqb (lit ">") (lit " ")) with false. change (seqb (lit ">") (lit ">")) with true. cbn iota.
      assert (G : exists b, selector_matches d s1 (obj_of q) = Ok b /\
                 (b = true <-> exists j, parent_element d j i /\ css d s1 j)).
      { destruct Q3 as [-> |(j & -> & Hj & Ej & Pj)]; cbn [obj_of].
        - exists false. split; auto. split; [discriminate|]. intros (j & (n' & N1 & N2) & _).
          unfold parent_of in Q1. rewrite N1, N2 in Q1. discriminate.
        - eapply weaken; [|apply (IH1 j Ej)]. split; eauto. intros (j' & P' & H).
          replace j with j'; auto. eapply parent_element_fun; eauto. }
      eapply weaken; [|apply gate2; [exact IH2 | exact G]].
      split; intros [H1 H2]; split; auto.
      repeat (destruct H2 as [H2|H2]); try (destruct H2 as [H2 _]; discriminate H2). apply H2.
    + change (seqb (lit "~") (lit " ")) with false. change (seqb (lit "~") (lit ">")) with false.
      change (seqb (lit "~") (lit "~")) with true. cbn iota.
      eapply weaken; [|apply gate2; [exact IH2 | apply (earlier_sibling_spec d _ (css d s1) IH1 i _ Q2 NDC TE)]].
      split; intros [H1 H2]; split; auto 8.
      repeat (destruct H2 as [H2|H2]); try (destruct H2 as [H2 _]; discriminate H2). apply H2.
    + change (seqb (lit "+") (lit " ")) with false. change (seqb (lit "+") (lit ">")) with false.
      change (seqb (lit "+") (lit "~")) with false. change (seqb (lit "+") (lit "+")) with true. cbn iota.
      eapply weaken; [|apply gate2; [exact IH2 | apply (adjacent_spec d _ (css d s1) IH1 i _ Q2 NDC TE)]].
      split; intros [H1 H2]; split; auto 8.
      repeat (destruct H2 as [H2|H2]); try (destruct H2 as [H2 _]; discriminate H2). apply H2.
  - destruct HS.
Qed.

(** Reachable trees keep class lists as words. *)
Lemma carries_class : forall n a, carries n a -> forall k av, dget k (n_attrs n) = Some av -> class_ok av.
Proof.
  intros n a (H1 & H2 & _) k av E. destruct (str_eq_dec k (lit "class")) as [-> |NE].
  - rewrite H2 in E. destruct (dlast (lit "class") a) as [[s|]|]; inversion E; subst; simpl; auto.
    apply split_ws_words.
  - rewrite H1 in E by auto. destruct (dlast k a) as [[s|]|]; inversion E; subst; simpl; auto.
Qed.
Lemma document_carries : forall d F, document d F ->
  flat_map preorder F = seq 0 (length (d_nodes d)) ->
  forall i n, node_at d i = Some n -> elementb d i = true -> exists a, carries n a.
Proof.
  intros d F [D1 D2] HP i n Hi E. pose proof (node_at_lt _ _ _ Hi) as LT.
  assert (HI : In i (flat_map preorder F)) by (rewrite HP; apply in_seq; lia).
  apply in_flat_map in HI as (t & Ht & HI). rewrite <- subtrees_ids in HI.
  apply in_map_iff in HI as (u & Hu & HI). rewrite Forall_forall in D2.
  destruct (stores_sub_any _ _ _ _ (D2 t Ht) HI) as (q & Hq). unfold elementb in E. rewrite Hi in E.
  destruct u as [i' tg a kids | i' s]; simpl in Hu; subst i'.
  - apply stores_Tag in Hq as [(n' & Hn & _ & _ & _ & _ & H & _) _]. exists a. congruence.
  - simpl in Hq. destruct Hq as (n' & Hn & H1 & _). replace n' with n in * by congruence.
    rewrite H1 in E. discriminate.
Qed.
Lemma reach_classes : forall `{Uni} g h s, run g h pstate0 = Ok s -> classes_ok (p_dom s).
Proof.
  intros U g h s H i n a av Hn E G. destruct (reach_document _ _ _ H) as (F & D & P & _).
  destruct (document_carries _ _ D P i n Hn E) as (at' & C). eapply carries_class; eauto.
Qed.
