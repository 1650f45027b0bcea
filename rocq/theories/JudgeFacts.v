(** What a selector makes of a place is what the matching function returns. *)
From Verif Require Import WrapFacts WrapLoop WrapWidth.
From Verif Require Import BaseFacts StrFacts SelFacts CssFacts TreeFacts DomFacts HistoryFacts SettingsFacts PageBase.
From Verif Require Export StyleFacts.

Definition seen (m : res bool) : verdict := match m with Ok true => Yes | Ok false => No | Err e => Fails e end.
Definition tells (J : verdict -> Prop) (v : verdict) : Prop := forall w, J w <-> w = v.

(** ** The connectives *)
Lemma tells_ext : forall (J K : verdict -> Prop) v, (forall w, J w <-> K w) -> tells K v -> tells J v.
Proof. intros J K v H T w. rewrite H. apply T. Qed.
Lemma tells_is : forall v, tells (fun w => w = v) v.
Proof. intros v w. reflexivity. Qed.
Lemma says_tells : forall (P : Prop) c, (c = true <-> P) -> tells (says P) (seen (Ok c)).
Proof.
  intros P c H w. unfold says. destruct c; cbn [seen]; split.
  - intros [[_ E]|[N _]]; auto. elim N. now apply H.
  - intros ->. left. split; auto. now apply H.
  - intros [[Q _]|[_ E]]; auto. apply H in Q. discriminate.
  - intros ->. right. split; auto. intros Q. apply H in Q. discriminate.
Qed.
Lemma provided_tells : forall (P : Prop) J c m, (c = true <-> P) -> (c = true -> tells J (seen m)) ->
  tells (provided P J) (seen (if c then m else Ok false)).
Proof.
  intros P J c m H T w. unfold provided. destruct c; cbn [seen]; split.
  - intros [[_ E]|[N _]]; [now apply T|]. elim N. now apply H.
  - intros ->. left. split; [now apply H|]. now apply T.
  - intros [[Q _]|[_ E]]; auto. apply H in Q. discriminate.
  - intros ->. right. split; auto. intros Q. apply H in Q. discriminate.
Qed.
Lemma and_then_tells : forall J K m1 m2, tells J (seen m1) -> (m1 = Ok true -> tells K (seen m2)) ->
  tells (and_then J K) (seen (let* a := m1 in if a then m2 else Ok false)).
Proof.
  intros J K m1 m2 H1 H2 w. unfold and_then. rewrite !(H1 _). destruct m1 as [[]|e]; cbn [seen bind] in *.
  - rewrite (H2 eq_refl w). split; [intros [[_ Q]|[-> N]]; auto; congruence|intros Q; left; auto].
  - split; [intros [[Q _]|[Q _]]; [discriminate|exact Q]|]. intros ->. right. split; [reflexivity|discriminate].
  - split; [intros [[Q _]|[Q _]]; [discriminate|exact Q]|]. intros ->. right. split; [reflexivity|discriminate].
Qed.
Lemma first_nil : forall J, tells (first_of J []) (seen (Ok false)).
Proof. intros J w. split; [intros H; inversion H; reflexivity|]. intros ->. constructor. Qed.
Lemma first_cons : forall J z l m r, tells (J z) (seen m) -> (m = Ok false -> tells (first_of J l) (seen r)) ->
  tells (first_of J (z :: l)) (seen (let* b := m in if b then Ok true else r)).
Proof.
  intros J z l m r H1 H2 w. destruct m as [[]|e]; cbn [bind seen] in *; split.
  - intros H. inversion H; subst; [now apply H1|]. match goal with H : J z No |- _ => apply H1 in H; discriminate end.
  - intros ->. apply fo_here; [now apply H1|discriminate].
  - intros H. inversion H; subst; [match goal with H : J z w |- _ => apply H1 in H; congruence end|]. now apply (H2 eq_refl).
  - intros ->. apply fo_next; [now apply H1|now apply (H2 eq_refl)].
  - intros H. inversion H; subst; [now apply H1|]. match goal with H : J z No |- _ => apply H1 in H; discriminate end.
  - intros ->. apply fo_here; [now apply H1|discriminate].
Qed.
Lemma first_skip : forall J z l r, tells (J z) No -> tells (first_of J l) r -> tells (first_of J (z :: l)) r.
Proof.
  intros J z l r H1 H2 w. split.
  - intros H. inversion H; subst; [match goal with H : J z w |- _ => apply H1 in H; congruence end|]. now apply H2.
  - intros ->. apply fo_next; [now apply H1|now apply H2].
Qed.

(** ** Numbers *)
Lemma digits_val_to : forall ds n, Forall (fun c => 48 <= c <= 57)%N ds ->
  exists m, digits_val 10 n dec_digit ds = Some m /\ Z.of_N m = fold_left (fun n c => 10 * n + (Z.of_N c - 48))%Z ds (Z.of_N n).
Proof.
  induction ds as [|c ds IH]; intros n F; cbn [digits_val fold_left]; [eauto|]. inversion F; subst.
  assert (E : dec_digit c = Some (c - 48)%N).
  { unfold dec_digit, is_digit_ascii. replace ((48 <=? c) && (c <=? 57))%N with true; [reflexivity|]. symmetry. apply andb_true_iff. split; apply N.leb_le; lia. }
  rewrite E. destruct (IH (n * 10 + (c - 48))%N H2) as (m & -> & Q). exists m. split; auto. rewrite Q. f_equal. lia.
Qed.
Lemma digits_val_digits : forall ds n m, digits_val 10 n dec_digit ds = Some m -> Forall (fun c => 48 <= c <= 57)%N ds.
Proof.
  induction ds as [|c ds IH]; intros n m H; constructor; cbn [digits_val] in H; unfold dec_digit, is_digit_ascii in H;
    destruct ((48 <=? c) && (c <=? 57))%N eqn:E; try discriminate.
  - apply andb_true_iff in E as [E1 E2]. apply N.leb_le in E1, E2. lia.
  - eauto.
Qed.
Definition int_go (neg : bool) (d : str) : res Z :=
  match d with
  | [] => Err EValue
  | _ => match digits_val 10 0 dec_digit d with
         | Some n => Ok (if neg then - Z.of_N n else Z.of_N n)%Z
         | None => Err EValue
         end
  end.
Lemma int_go_iff : forall neg d k, int_go neg d = Ok k <-> d <> [] /\ Forall (fun c => 48 <= c <= 57)%N d /\ k = (if neg then - digits_to d else digits_to d)%Z.
Proof.
  intros neg d k. split.
  - intros H. unfold int_go in H. destruct d as [|c r]; [discriminate|]. set (d := c :: r) in *. destruct (digits_val 10 0 dec_digit d) as [m|] eqn:E; [|discriminate].
    pose proof (digits_val_digits _ _ _ E) as F. destruct (digits_val_to d 0 F) as (m' & E' & Q). rewrite E in E'. injection E' as <-.
    split; [discriminate|]. split; auto. injection H as <-. rewrite Q. reflexivity.
  - intros (N & F & ->). destruct (digits_val_to d 0 F) as (m & E & Q). unfold int_go. destruct d as [|c r]; [congruence|]. rewrite E, Q. reflexivity.
Qed.
Lemma int_go_err : forall neg d e, int_go neg d = Err e -> e = EValue.
Proof. intros neg d e. unfold int_go. destruct d; [congruence|]. destruct (digits_val _ _ _ _); congruence. Qed.
Lemma py_int_is : forall x, py_int x = match strip x with 43%N :: d => int_go false d | 45%N :: d => int_go true d | d => int_go false d end.
Proof. reflexivity. Qed.
Lemma py_int_err : forall x e, py_int x = Err e -> e = EValue.
Proof.
  intros x e. rewrite py_int_is. destruct (strip x) as [|c d]; [apply int_go_err|].
  destruct (N.eq_dec c 43) as [->|N1]; [apply int_go_err|]. destruct (N.eq_dec c 45) as [->|N2]; [apply int_go_err|].
  intros H. apply (int_go_err false (c :: d)). rewrite <- H. clear -N1 N2. destruct c as [|p]; auto. do 6 (destruct p as [p|p|]; auto); congruence.
Qed.
Lemma strip_parts : forall x, exists l r, x = l ++ strip x ++ r /\ all_space l = true /\ all_space r = true.
Proof.
  intros x. destruct (lstrip_spec x) as (l & E1 & H1 & _). unfold strip. destruct (rstrip_spec (lstrip x)) as (r & E2 & H2 & _).
  exists l, r. split; auto. rewrite <- E2. exact E1.
Qed.
Lemma strip_core : forall l a m b r, all_space l = true -> all_space r = true -> is_space a = false -> is_space b = false ->
  strip (l ++ (a :: m ++ [b]) ++ r) = a :: m ++ [b].
Proof.
  intros l a m b r HL HR HA HB. unfold strip.
  assert (E : lstrip (l ++ (a :: m ++ [b]) ++ r) = (a :: m ++ [b]) ++ r).
  { unfold lstrip. clear -HL HA. induction l as [|c l IH]; cbn [app drop_while]; [now rewrite HA|]. cbn [all_space forallb] in HL. apply andb_true_iff in HL as [-> HL]. auto. }
  rewrite E, rstrip_app_all by exact HR. change (a :: m ++ [b]) with ((a :: m) ++ [b]). now apply rstrip_app_nonspace.
Qed.
Lemma strip_one : forall l a r, all_space l = true -> all_space r = true -> is_space a = false -> strip (l ++ [a] ++ r) = [a].
Proof.
  intros l a r HL HR HA. unfold strip.
  assert (E : lstrip (l ++ [a] ++ r) = [a] ++ r).
  { unfold lstrip. clear -HL HA. induction l as [|c l IH]; cbn [app drop_while]; [now rewrite HA|]. cbn [all_space forallb] in HL. apply andb_true_iff in HL as [-> HL]. auto. }
  rewrite E, rstrip_app_all by exact HR. apply (rstrip_app_nonspace []); auto.
Qed.
Lemma strip_solid : forall l y r, all_space l = true -> all_space r = true -> y <> [] -> Forall (fun c => is_space c = false) y -> strip (l ++ y ++ r) = y.
Proof.
  intros l y r HL HR NE F. destruct y as [|a y]; [congruence|]. inversion F; subst. destruct y as [|b y _] using rev_ind.
  - now apply strip_one.
  - apply strip_core; auto. apply Forall_app in H2 as [_ H2]. now inversion H2.
Qed.
Lemma whole_int : forall x k, whole x k <-> py_int x = Ok k.
Proof.
  intros x k. rewrite py_int_is. split.
  - intros (l & sign & ds & r & -> & HL & HR & NE & F & S).
    assert (SP : Forall (fun c => is_space c = false) ds) by (eapply Forall_impl; [|exact F]; intros c HC; now apply digit_not_space).
    destruct S as [[-> ->]|[[-> ->]|[-> ->]]].
    + cbn [app]. rewrite (strip_solid l ds r) by auto. destruct ds as [|c ds]; [congruence|]. inversion F; subst.
      replace (match c :: ds with 43%N :: d => int_go false d | 45%N :: d => int_go true d | d => int_go false d end) with (int_go false (c :: ds)).
      * apply int_go_iff. auto.
      * clear -H1. destruct c as [|p]; auto. do 6 (destruct p as [p|p|]; auto); lia.
    + rewrite (app_assoc (lit "+")). rewrite (strip_solid l (lit "+" ++ ds) r); auto; [|discriminate|].
      * change (lit "+" ++ ds) with (43%N :: ds). cbn iota beta. apply int_go_iff. auto.
      * constructor; [reflexivity|exact SP].
    + rewrite (app_assoc (lit "-")). rewrite (strip_solid l (lit "-" ++ ds) r); auto; [|discriminate|].
      * change (lit "-" ++ ds) with (45%N :: ds). cbn iota beta. apply int_go_iff. auto.
      * constructor; [reflexivity|exact SP].
  - intros H. destruct (strip_parts x) as (l & r & E & HL & HR). unfold whole. destruct (strip x) as [|c d]; [discriminate|].
    destruct (N.eq_dec c 43) as [->|N1]; [|destruct (N.eq_dec c 45) as [->|N2]].
    + apply int_go_iff in H as (NE & F & ->). exists l, (lit "+"), d, r. split; [exact E|]. auto 10.
    + apply int_go_iff in H as (NE & F & ->). exists l, (lit "-"), d, r. split; [exact E|]. auto 10.
    + assert (Q : int_go false (c :: d) = Ok k).
      { rewrite <- H. clear -N1 N2. destruct c as [|p]; auto. do 6 (destruct p as [p|p|]; auto); congruence. }
      apply int_go_iff in Q as (NE & F & ->). exists l, [], (c :: d), r. split; [exact E|]. auto 10.
Qed.

(** ** Attributes *)
Lemma join_spaced : forall ws, join (lit " ") ws = spaced ws.
Proof.
  intros [|w r]; [reflexivity|]. cbn [spaced]. revert w. induction r as [|x r IH]; intros w; [cbn; now rewrite app_nil_r|].
  change (join (lit " ") (w :: x :: r)) with (w ++ lit " " ++ join (lit " ") (x :: r)). rewrite IH. reflexivity.
Qed.
Lemma words_eq : forall x ws, words x ws -> ws = split_ws x.
Proof. intros x ws H. symmetry. now apply words_split_ws. Qed.
Definition attr_bool (op y v : str) : bool :=
  if seqb op (lit "=") then seqb y v
  else if seqb op (lit "~=") then smem v (split_ws y)
  else if seqb op (lit "|=") then seqb y v || startswith (v ++ lit "-") y
  else if seqb op (lit "^=") then startswith v y
  else if seqb op (lit "$=") then endswith v y
  else if seqb op (lit "*=") then contains v y else false.
Lemma attr_bool_holds : forall op y v, attr_bool op y v = true <-> attr_holds op y v.
Proof.
  intros op y v. unfold attr_bool, attr_holds. split.
  - destruct (seqb_spec op (lit "=")) as [->|]; [rewrite seqb_eq; auto|].
    destruct (seqb_spec op (lit "~=")) as [->|]; [rewrite smem_In; intros H; right; left; split; auto; exists (split_ws y); split; auto; apply split_ws_is_words|].
    destruct (seqb_spec op (lit "|=")) as [->|].
    { rewrite orb_true_iff, seqb_eq, startswith_iff. intros [H|(r & H)]; right; right; left; split; auto. right. exists r. now rewrite H, <- app_assoc. }
    destruct (seqb_spec op (lit "^=")) as [->|]; [rewrite startswith_iff; auto 10|].
    destruct (seqb_spec op (lit "$=")) as [->|]; [rewrite endswith_iff; auto 10|].
    destruct (seqb_spec op (lit "*=")) as [->|]; [rewrite contains_iff; auto 10|discriminate].
  - intros [[-> H]|[[-> H]|[[-> H]|[[-> H]|[[-> H]|[-> H]]]]]].
    + apply seqb_eq. exact H.
    + destruct H as (ws & W & H). change (smem v (split_ws y) = true). apply smem_In. now rewrite <- (words_eq _ _ W).
    + change (seqb y v || startswith (v ++ lit "-") y = true). apply orb_true_iff. destruct H as [H|(r & H)]; [left; now apply seqb_eq|right; apply startswith_iff].
      exists r. now rewrite H, <- app_assoc.
    + change (startswith v y = true). now apply startswith_iff.
    + change (endswith v y = true). now apply endswith_iff.
    + change (contains v y = true). now apply contains_iff.
Qed.
Lemma attr_tells : forall attrs k op v x av, dget k attrs = Some av ->
  match x with
  | None => av = AvNone
  | Some x => k <> lit "class" /\ av = AvStr x \/ k = lit "class" /\ av = AvList (split_ws x)
  end -> tells (attr_verdict k op v x) (seen (attr_test attrs k op v)).
Proof.
  intros attrs k op v x av G H. unfold attr_test. rewrite G. unfold attr_verdict. destruct (seqb_spec op (lit "exists")) as [->|NE].
  { intros w. cbn [seen]. split; [intros [[_ E]|[N _]]; [exact E|congruence]|auto]. }
  destruct x as [x|].
  - set (y := match av with AvNone => [] | AvStr s => s | AvList l => join (lit " ") l end).
    assert (C : forall y', compared k x y' <-> y' = y).
    { intros y'. unfold compared, y. destruct H as [[NK ->]|[-> ->]].
      - split; [intros [[_ E]|[E _]]; congruence|auto].
      - rewrite join_spaced. split; [intros [[E _]|(_ & ws & W & ->)]; [congruence|now rewrite (words_eq _ _ W)]|].
        intros ->. right. split; auto. exists (split_ws x). split; auto. apply split_ws_is_words. }
    eapply tells_ext with (K := says (attr_holds op y v)).
    { intros w. split; [intros [[E _]|(_ & y' & Q & S)]; [congruence|apply C in Q; now subst y']|]. intros S. right. split; auto. exists y. split; auto. now apply C. }
    replace (seen _) with (seen (Ok (attr_bool op y v))); [apply says_tells, attr_bool_holds|]. f_equal. unfold attr_bool.
    assert (EV : match av with AvNone => None | AvStr s => Some s | AvList l => Some (join (lit " ") l) end = Some y).
    { unfold y. destruct H as [[_ ->]|[_ ->]]; reflexivity. }
    rewrite EV. destruct (seqb op (lit "=")); auto. destruct (seqb op (lit "~=")); auto. destruct (seqb op (lit "|=")); auto. destruct (seqb op (lit "^=")); auto.
    destruct (seqb op (lit "$=")); auto. destruct (seqb op (lit "*=")); auto.
  - subst av. cbn [In]. intros w.
    destruct (seqb_spec op (lit "=")) as [->|N1].
    { cbn [seen]. split.
      - intros [[E _]|[_ [[H _]|[[H _]|[_ E]]]]]; try discriminate; auto. repeat (destruct H as [H|H]; [discriminate|]). destruct H.
      - intros ->. right. split; [discriminate|]. right. right. split; auto. intros H. repeat (destruct H as [H|H]; [discriminate|]). destruct H. }
    destruct (seqb_spec op (lit "~=")) as [->|N2]; [|destruct (seqb_spec op (lit "|=")) as [->|N3]; [|destruct (seqb_spec op (lit "^=")) as [->|N4]; [|destruct (seqb_spec op (lit "$=")) as [->|N5]]]];
    try (cbn [seen]; split; [intros [[E _]|[_ [[H E]|[[H _]|[H _]]]]]; try discriminate; auto; elim H; auto 10|intros ->; right; split; [discriminate|]; left; split; auto 10]).
    destruct (seqb_spec op (lit "*=")) as [->|N6].
    { cbn [seen]. split.
      - intros [[E _]|[_ [[H E]|[[H E]|[H _]]]]]; try discriminate; auto; [|elim H; auto 10]. repeat (destruct H as [H|H]; [discriminate|]). destruct H.
      - intros ->. right. split; [discriminate|]. right. left. auto. }
    cbn [seen]. split.
    + intros [[E _]|[_ [[H E]|[[H E]|[_ E]]]]]; auto; [congruence| |congruence]. exfalso. repeat (destruct H as [H|H]; [congruence|]). destruct H.
    + intros ->. right. split; auto. right. right. split; auto. intros H. repeat (destruct H as [H|H]; [congruence|]). destruct H.
Qed.

(** ** Places *)
Section A.
Variables (d : dom) (F : list tree).
Hypothesis WF : wf_dom d.
Definition place_obj (z : site) : obj := match z with [] => ORoot | x :: _ => ONode (tid (sp_here x)) end.

Lemma site_elementb : forall b t c up, PageSpec.element t = true -> at_site d F (Spot b t c :: up) -> elementb d (tid t) = true.
Proof.
  intros b t c up E H. pose proof (site_stores _ _ _ _ H) as S. cbn [sp_here] in S. destruct t as [j tg a kids|]; [|discriminate].
  apply stores_Tag in S as [(n & N1 & N2 & _) _]. unfold elementb. cbn [tid]. now rewrite N1, N2.
Qed.
Lemma text_blank : forall b i x c up, at_site d F (Spot b (Text i x) c :: up) -> forall s, selector_matches d s (ONode i) = Ok false.
Proof.
  intros b i x c up H s. pose proof (site_stores _ _ _ _ H) as (n & N1 & N2 & N3 & _). apply blank_no_match. exists n, x. auto.
Qed.
Lemma site_parent_of : forall b t c up, PageSpec.element t = true -> at_site d F (Spot b t c :: up) -> parent_of d (ONode (tid t)) = Some (home up).
Proof.
  intros b t c up E H. pose proof (site_stores _ _ _ _ H) as S. cbn [sp_here] in S. destruct t as [i tg a kids|]; [|discriminate].
  apply stores_Tag in S as [(n & N1 & N2 & N3 & N4 & _) _]. unfold parent_of. cbn [tid]. rewrite N1, N4. destruct up; reflexivity.
Qed.
Lemma home_obj : forall up, obj_of (home up) = place_obj up.
Proof. intros [|x up]; reflexivity. Qed.
Lemma site_depth : forall up b t c, PageSpec.element t = true -> at_site d F (Spot b t c :: up) -> (length up <= tid t)%nat.
Proof.
  induction up as [|[b' t' c'] up IH]; intros b t c E H; cbn [length]; [lia|].
  pose proof (up_element _ _ _ _ _ H) as E'. pose proof (at_up _ _ _ _ H) as H'. cbn [sp_here] in E'. specialize (IH _ _ _ E' H').
  destruct (element_parent d WF (tid t) (site_elementb _ _ _ _ E H)) as (p & P1 & _ & P3). rewrite (site_parent_of _ _ _ _ E H) in P1. injection P1 as <-.
  cbn [home sp_here] in P3. destruct P3 as [P3|(j & P3 & L & _)]; [discriminate|]. injection P3 as <-. lia.
Qed.

Section M.
Variables (m : obj -> res bool) (J : site -> verdict -> Prop).
Hypothesis MR : m ORoot = Ok false.
Hypothesis MT : forall b i x c up, at_site d F (Spot b (Text i x) c :: up) -> tells (J (Spot b (Text i x) c :: up)) No.
Hypothesis ME : forall b t c up, PageSpec.element t = true -> at_site d F (Spot b t c :: up) -> tells (J (Spot b t c :: up)) (seen (m (ONode (tid t)))).

Lemma around_tells : forall up b t c, PageSpec.element t = true -> at_site d F (Spot b t c :: up) -> forall fuel, (length up + 2 <= fuel)%nat ->
  tells (first_of J (around up)) (seen (any_ancestor fuel d m (ONode (tid t)))).
Proof.
  induction up as [|[b' t' c'] up IH]; intros b t c E H fuel L; (destruct fuel as [|fuel]; [cbn [length] in L; lia|]);
    cbn [any_ancestor around]; rewrite (site_parent_of _ _ _ _ E H), home_obj; cbn [place_obj].
  - rewrite MR. cbn [bind]. destruct fuel; [cbn [length] in L; lia|]. cbn [any_ancestor parent_of]. apply first_nil.
  - pose proof (up_element _ _ _ _ _ H) as E'. pose proof (at_up _ _ _ _ H) as H'. cbn [sp_here] in *. apply first_cons; [now apply ME|].
    intros _. apply (IH _ _ _ E' H'). cbn [length] in L. lia.
Qed.
Lemma earlier_tells : forall up t c, PageSpec.element t = true -> forall b2 b1, at_site d F (Spot (b1 ++ b2) t c :: up) ->
  tells (first_of J (firstn (length b2) (spots up b1 (b2 ++ t :: c))))
        (seen (earlier_sibling m (ONode (tid t)) (map tid (filter PageSpec.element (b2 ++ t :: c))))).
Proof.
  intros up t c E. induction b2 as [|k b2 IH]; intros b1 H.
  - cbn [length firstn app filter]. rewrite E. cbn [map earlier_sibling obj_is]. rewrite Nat.eqb_refl. apply first_nil.
  - cbn [app length spots firstn].
    assert (HK : at_site d F (Spot b1 k (b2 ++ t :: c) :: up)).
    { eapply site_sibling; [|exact H]. rewrite <- app_assoc. reflexivity. }
    assert (HN : at_site d F (Spot ((b1 ++ [k]) ++ b2) t c :: up)) by (rewrite <- app_assoc; exact H).
    destruct k as [i tg a kids|i x].
    + cbn [filter PageSpec.element map earlier_sibling obj_is tid].
      assert (NE : Nat.eqb i (tid t) = false).
      { apply Nat.eqb_neq. intros ->. pose proof (site_nodup d F WF _ _ _ _ E H) as ND. rewrite filter_app in ND. cbn [filter PageSpec.element] in ND.
        rewrite map_app in ND. cbn [map tid] in ND. rewrite <- app_assoc in ND. cbn [app] in ND. apply NoDup_remove_2 in ND. apply ND. apply in_or_app. right. apply in_or_app. right. now left. }
      rewrite NE. apply first_cons; [now apply (ME b1 (Tag i tg a kids))|]. intros _. apply (IH _ HN).
    + cbn [filter PageSpec.element]. apply first_skip; [now apply MT|]. apply (IH _ HN).
Qed.
End M.

Lemma site_children : forall b t c up, PageSpec.element t = true -> at_site d F (Spot b t c :: up) ->
  tag_children d (home up) = map tid (filter PageSpec.element b) ++ tid t :: map tid (filter PageSpec.element c).
Proof.
  intros b t c up E H. rewrite <- (siblings_tag_children d (tid t) (home up)) by (apply (site_parent_of b t c up); auto). now apply site_siblings with (F := F) (up := up).
Qed.
Lemma index_at : forall (lb lc : list nat) i p, NoDup (lb ++ i :: lc) ->
  py_index (lb ++ i :: lc) p =
  let n := Z.of_nat (length (lb ++ i :: lc)) in
  let j := (if p <? 0 then p + n else p)%Z in
  if ((0 <=? j) && (j <? n))%Z then Ok (nth (Z.to_nat j) (lb ++ i :: lc) 0) else Err EIndex.
Proof.
  intros lb lc i p ND. unfold py_index. set (l := lb ++ i :: lc) in *. cbv zeta. set (j := (if p <? 0 then p + Z.of_nat (length l) else p)%Z).
  destruct (Z.ltb_spec j 0); destruct (Z.leb_spec 0 j); try lia; cbn [orb andb]; auto.
  destruct (Z.leb_spec (Z.of_nat (length l)) j); destruct (Z.ltb_spec j (Z.of_nat (length l))); try lia; auto.
  destruct (nth_error l (Z.to_nat j)) as [x|] eqn:E; [|apply nth_error_None in E; lia]. f_equal. symmetry. now apply nth_error_nth.
Qed.
Lemma nth_here : forall (lb lc : list nat) i k, NoDup (lb ++ i :: lc) -> (k < length (lb ++ i :: lc))%nat ->
  (Nat.eqb (nth k (lb ++ i :: lc) 0) i = true <-> k = length lb).
Proof.
  intros lb lc i k ND L. rewrite Nat.eqb_eq. split.
  - intros E. assert (X : nth_error (lb ++ i :: lc) k = Some i) by (rewrite (nth_error_nth' _ 0 L); congruence).
    eapply NoDup_nth_unique; [exact ND|exact X|apply nth_error_mid].
  - intros ->. rewrite app_nth2 by lia. now rewrite Nat.sub_diag.
Qed.

Lemma judge : forall s z, at_site d F z -> tells (judged s z) (seen (selector_matches d s (place_obj z))).
Proof.
  induction s as [nm|s IH cn|s IH x|s1 IH1 s2 IH2|s IH k op v|s IH p|s IH f args|s1 IH1 cb s2 IH2|]; intros z H;
  (destruct z as [|[b t c] up]; [rewrite (blank_no_match d ORoot I); exact (tells_is No)|]);
  (destruct t as [i tg a kids|i x0]; [|rewrite (text_blank _ _ _ _ _ H); exact (tells_is No)]);
  pose proof (site_stores _ _ _ _ H) as S; cbn [sp_here] in S;
  set (E := eq_refl : PageSpec.element (Tag i tg a kids) = true);
  pose proof (site_nodup d F WF _ _ _ _ E H) as ND; pose proof (site_children _ _ _ _ E H) as SB;
  pose proof (site_parent_of _ _ _ _ E H) as PO;
  pose proof (element_is_data d WF i (site_elementb _ _ _ _ E H)) as DT;
  apply stores_Tag in S as [(n & N1 & N2 & N3 & N4 & N5 & (C1 & C2 & C3 & C4) & N7) HK]; cbn [judged place_obj sp_here tid selector_matches] in *.
  - unfold element_matches. rewrite N1, DT. destruct nm as [nm|]; [|exact (tells_is Yes)]. rewrite N2. apply says_tells. apply seqb_eq.
  - rewrite N1, DT. apply provided_tells; [|intros _; apply (IH _ H)]. rewrite smem_In, C3. split.
    + destruct (attr "class" a) as [x|]; [|contradiction]. intros Q. exists x, (split_ws x). split; auto. split; auto. apply split_ws_is_words.
    + intros (x & ws & -> & W & Q). now rewrite <- (words_eq _ _ W).
  - rewrite N1, C4. destruct (attr "id" a) as [y|]; [rewrite DT|].
    + apply provided_tells; [|intros _; apply (IH _ H)]. rewrite seqb_eq. split; congruence.
    + apply (provided_tells _ _ false (Ok false)); [|discriminate]. split; discriminate.
  - rewrite DT. apply and_then_tells; [apply (IH1 _ H)|]. intros _ w. pose proof (IH2 _ H) as T. cbn [place_obj sp_here tid] in T.
    destruct (selector_matches d s2 (ONode i)) as [[]|e]; cbn [bind seen negb] in *; split;
      try (intros (w' & Q & ->); apply T in Q; subst w'; reflexivity); intros ->; eexists; (split; [now apply T|reflexivity]).
  - rewrite N1. apply and_then_tells; [apply (IH _ H)|]. intros _. destruct (str_eq_dec k (lit "class")) as [->|NK].
    + destruct (dlast (lit "class") a) as [[x|]|].
      * eapply attr_tells; [exact C2|]. right. auto.
      * eapply attr_tells; [exact C2|]. reflexivity.
      * rewrite attr_test_none by exact C2. exact (tells_is No).
    + specialize (C1 k NK). destruct (dlast k a) as [[x|]|].
      * eapply attr_tells; [exact C1|]. left. auto.
      * eapply attr_tells; [exact C1|]. reflexivity.
      * rewrite attr_test_none by exact C1. exact (tells_is No).
  - rewrite PO, DT, SB. unfold elements. set (lb := map tid (filter PageSpec.element b)) in *. set (lc := map tid (filter PageSpec.element c)) in *.
    assert (LB : length (filter PageSpec.element b) = length lb) by (unfold lb; now rewrite map_length).
    assert (LC : length (filter PageSpec.element c) = length lc) by (unfold lc; now rewrite map_length). rewrite LB, LC.
    assert (NE : forall A (x y : A), match lb ++ i :: lc with [] => x | _ :: _ => y end = y) by (intros; destruct lb; reflexivity).
    destruct (seqb_spec p (lit "first-child")) as [->|P1]; [|destruct (seqb_spec p (lit "last-child")) as [->|P2]]; cbn [orb].
    + rewrite NE, index_at by exact ND. cbv zeta. change (0 <? 0)%Z with false. cbn iota. change (0 <=? 0)%Z with true.
      assert (LL : (0 < length (lb ++ i :: lc))%nat) by (rewrite app_length; cbn [length]; lia).
      destruct (Z.ltb_spec 0 (Z.of_nat (length (lb ++ i :: lc)))); [|lia]. cbn [andb bind obj_is]. apply provided_tells; [|intros _; apply (IH _ H)].
      rewrite (nth_here lb lc i _ ND LL). split; [intros Q; left; split; auto; lia|]. intros [[_ Q]|[Q _]]; [lia|discriminate].
    + rewrite NE, index_at by exact ND. cbv zeta. change (-1 <? 0)%Z with true. cbn iota.
      assert (LL : length (lb ++ i :: lc) = (length lb + 1 + length lc)%nat) by (rewrite app_length; cbn [length]; lia).
      destruct (Z.leb_spec 0 (-1 + Z.of_nat (length (lb ++ i :: lc)))); [|lia]. destruct (Z.ltb_spec (-1 + Z.of_nat (length (lb ++ i :: lc))) (Z.of_nat (length (lb ++ i :: lc)))); [|lia].
      cbn [andb bind obj_is]. apply provided_tells; [|intros _; apply (IH _ H)].
      rewrite (nth_here lb lc i _ ND) by lia. split; [intros Q; right; split; auto; lia|]. intros [[Q _]|[_ Q]]; [discriminate|lia].
    + apply (provided_tells _ _ false (Ok false)); [|discriminate]. split; [discriminate|]. intros [[Q _]|[Q _]]; contradiction.
  - set (c0 := (seqb f (lit "nth-child") || seqb f (lit "nth-last-child"))%bool).
    apply (provided_tells _ _ c0).
    { unfold c0. rewrite orb_true_iff, !seqb_eq. reflexivity. }
    intros FK. rewrite PO, DT, SB. destruct args as [|x args]; [exact (tells_is (Fails EIndex))|].
    unfold elements. set (lb := map tid (filter PageSpec.element b)) in *. set (lc := map tid (filter PageSpec.element c)) in *.
    assert (LB : length (filter PageSpec.element b) = length lb) by (unfold lb; now rewrite map_length).
    assert (LC : length (filter PageSpec.element c) = length lc) by (unfold lc; now rewrite map_length). rewrite LB, LC.
    assert (LL : length (lb ++ i :: lc) = (length lb + 1 + length lc)%nat) by (rewrite app_length; cbn [length]; lia).
    destruct (py_int x) as [k|e] eqn:PI; cbn [bind].
    2:{ apply py_int_err in PI as EE. subst e. intros w. cbn [seen]. split.
        - intros [[_ Q]|(k & Q & _)]; auto. apply whole_int in Q. congruence.
        - intros ->. left. split; auto. intros k Q. apply whole_int in Q. congruence. }
    set (T := (Z.of_nat (length lb) + 1 + Z.of_nat (length lc))%Z).
    assert (ET : Z.of_nat (length (lb ++ i :: lc)) = T) by (unfold T; lia). rewrite ET.
    eapply tells_ext with (K := fun v => (T < k)%Z /\ v = No \/ (k <= T)%Z /\ exists p, asked_place f k T p
                         /\ ((0 <= p < T)%Z /\ provided (Z.of_nat (length lb) = p) (judged s (Spot b (Tag i tg a kids) c :: up)) v
                             \/ ~ (0 <= p < T)%Z /\ v = Fails EIndex)).
    { intros w. split.
      - intros [[Q _]|(k' & Q & R)]; [elim (Q k); now apply whole_int|]. apply whole_int in Q. rewrite PI in Q. injection Q as <-. exact R.
      - intros R. right. exists k. split; [now apply whole_int|exact R]. }
    destruct (Z.gtb_spec k T) as [GT|LE].
    { intros w. cbn [seen]. split; [intros [[_ Q]|[Q _]]; [exact Q|lia]|]. intros ->. left. split; [lia|reflexivity]. }
    set (p := (if seqb f (lit "nth-child") then (if 1 <=? k then k - 1 else T + k - 1) else (if 1 <=? k then T - k else - k))%Z).
    assert (AP : forall p', asked_place f k T p' <-> p' = p).
    { intros p'. unfold asked_place, p. unfold c0 in FK. destruct (seqb_spec f (lit "nth-child")) as [->|F1].
      - split; [intros [[_ Q]|[Q _]]; [exact Q|discriminate]|auto].
      - cbn [orb] in FK. apply seqb_eq in FK. subst f. split; [intros [[Q _]|[_ Q]]; [discriminate|exact Q]|auto]. }
    rewrite index_at by exact ND. cbv zeta. rewrite ET.
    set (q := if seqb f (lit "nth-child") then (k - 1)%Z else (- k)%Z).
    assert (PQ : (if (q <? 0)%Z then (q + T)%Z else q) = p).
    { unfold q, p, T. destruct (seqb f (lit "nth-child")).
      - destruct (Z.ltb_spec (k - 1) 0); destruct (Z.leb_spec 1 k); lia.
      - destruct (Z.ltb_spec (- k) 0); destruct (Z.leb_spec 1 k); lia. }
    rewrite PQ. destruct (Z.leb_spec 0 p) as [P0|P0]; [destruct (Z.ltb_spec p T) as [P1|P1]|]; cbn [andb bind].
    + eapply tells_ext with (K := provided (Z.of_nat (length lb) = p) (judged s (Spot b (Tag i tg a kids) c :: up))).
      { intros w. split; [intros [[Q _]|(_ & p' & Q & [[_ R]|[R _]])]; [lia|apply AP in Q; now subst p'|apply AP in Q; subst p'; lia]|].
        intros R. right. split; [lia|]. exists p. split; [now apply AP|]. left. split; [lia|exact R]. }
      cbn [obj_is]. apply provided_tells; [|intros _; apply (IH _ H)]. rewrite (nth_here lb lc i _ ND) by lia. split; lia.
    + intros w. cbn [seen]. split; [intros [[Q _]|(_ & p' & Q & [[R _]|[_ R]])]; [lia|apply AP in Q; subst p'; lia|exact R]|].
      intros ->. right. split; [lia|]. exists p. split; [now apply AP|]. right. split; [lia|reflexivity].
    + intros w. cbn [seen]. split; [intros [[Q _]|(_ & p' & Q & [[R _]|[_ R]])]; [lia|apply AP in Q; subst p'; lia|exact R]|].
      intros ->. right. split; [lia|]. exists p. split; [now apply AP|]. right. split; [lia|reflexivity].
  - assert (MR : selector_matches d s1 ORoot = Ok false) by (apply blank_no_match; exact I).
    assert (MT : forall b i x c up, at_site d F (Spot b (Text i x) c :: up) -> tells (judged s1 (Spot b (Text i x) c :: up)) No).
    { intros. destruct s1; exact (tells_is No). }
    assert (ME : forall b t c up, PageSpec.element t = true -> at_site d F (Spot b t c :: up) -> tells (judged s1 (Spot b t c :: up)) (seen (selector_matches d s1 (ONode (tid t))))).
    { intros b' t' c' up' _ H'. exact (IH1 _ H'). }
    pose proof (IH2 _ H) as T2. cbn [place_obj sp_here tid] in T2. rewrite PO, SB, home_obj.
    destruct (seqb_spec cb (lit " ")) as [->|B1]; [|destruct (seqb_spec cb (lit ">")) as [->|B2]; [|destruct (seqb_spec cb (lit "~")) as [->|B3]; [|destruct (seqb_spec cb (lit "+")) as [->|B4]]]].
    + apply (provided_tells _ _ true); [split; [cbn [In]; auto|reflexivity]|]. intros _. apply and_then_tells; [exact T2|]. intros _.
      eapply tells_ext; [|apply (around_tells _ _ MR ME up _ _ _ E H)].
      * intros w. split; [intros [[_ Q]|[[Q _]|[[Q _]|[Q _]]]]; try discriminate; exact Q|auto].
      * pose proof (site_depth up _ _ _ E H). pose proof (node_at_lt _ _ _ N1). cbn [tid] in *. lia.
    + apply (provided_tells _ _ true); [split; [cbn [In]; auto|reflexivity]|]. intros _. apply and_then_tells; [exact T2|]. intros _.
      eapply tells_ext; [|apply (IH1 up (at_up _ _ _ _ H))].
      intros w. split; [intros [[Q _]|[[_ Q]|[[Q _]|[Q _]]]]; try discriminate; exact Q|auto].
    + apply (provided_tells _ _ true); [split; [cbn [In]; auto|reflexivity]|]. intros _. apply and_then_tells; [exact T2|]. intros _.
      pose proof (earlier_tells _ _ MT ME up _ c E b [] H) as T3. rewrite filter_app in T3. cbn [filter PageSpec.element tid] in T3. rewrite map_app in T3. cbn [map tid] in T3.
      eapply tells_ext; [|exact T3].
      intros w. split; [intros [[Q _]|[[Q _]|[[_ Q]|[Q _]]]]; try discriminate; exact Q|]. intros Q. right. right. left. split; [reflexivity|exact Q].
    + apply (provided_tells _ _ true); [split; [cbn [In]; auto 10|reflexivity]|]. intros _. apply and_then_tells; [exact T2|]. intros _.
      set (lb := map tid (filter PageSpec.element b)) in *. set (lc := map tid (filter PageSpec.element c)) in *.
      destruct (list_index_spec i (lb ++ i :: lc)) as (k & -> & K); [apply in_or_app; right; now left|].
      assert (EK : k = length lb) by (eapply NoDup_nth_unique; [exact ND|exact K|apply nth_error_mid]). subst k.
      destruct (filter PageSpec.element b) as [|j0 r0] eqn:FB.
      * change lb with (@nil nat). cbn [length]. intros w. cbn [seen]. split.
        -- intros [[Q _]|[[Q _]|[[Q _]|[_ [[_ Q]|(l & j & m & EB & EJ & _)]]]]]; try discriminate; [exact Q|]. exfalso. rewrite EB, filter_app in FB. cbn [filter] in FB. rewrite EJ in FB. destruct (filter PageSpec.element l); discriminate.
        -- intros ->. right. right. right. split; [reflexivity|]. left. split; [|reflexivity]. apply elements_zero. exact FB.
      * destruct (@exists_last _ (j0 :: r0)) as (r & j & EL); [discriminate|]. rewrite EL in FB.
        destruct (filter_split _ _ _ _ _ FB) as (l & m & EB & _ & EM & EJ).
        assert (LB : lb = map tid r ++ [tid j]) by (unfold lb; rewrite EL, map_app; reflexivity).
        rewrite LB, app_length, map_length. cbn [length]. replace (length r + 1)%nat with (Datatypes.S (length r)) by lia.
        rewrite <- LB, index_at by exact ND. cbv zeta.
        assert (LL : length (lb ++ i :: lc) = (length r + 2 + length lc)%nat) by (rewrite LB, !app_length, map_length; cbn [length]; lia).
        destruct (Z.ltb_spec (Z.of_nat (length r)) 0); [lia|]. destruct (Z.leb_spec 0 (Z.of_nat (length r))); [|lia].
        destruct (Z.ltb_spec (Z.of_nat (length r)) (Z.of_nat (length (lb ++ i :: lc)))); [|lia]. cbn [andb bind]. rewrite Nat2Z.id.
        assert (EN : nth (length r) (lb ++ i :: lc) 0 = tid j).
        { rewrite LB, <- app_assoc, app_nth2 by (rewrite map_length; lia). rewrite map_length, Nat.sub_diag. reflexivity. }
        rewrite EN. assert (HJ : at_site d F (Spot l j (m ++ Tag i tg a kids :: c) :: up)).
        { eapply site_sibling; [|exact H]. rewrite EB, <- app_assoc. reflexivity. }
        eapply tells_ext; [|apply (ME _ _ _ _ EJ HJ)]. intros w. split.
        -- intros [[Q _]|[[Q _]|[[Q _]|[_ [[Q _]|(l' & j' & m' & EB' & EJ' & EM' & Q)]]]]]; try discriminate.
           ++ apply elements_zero in Q. rewrite FB in Q. destruct r; discriminate.
           ++ assert (X : l = l' /\ j = j' /\ m = m'); [|destruct X as (-> & -> & ->); exact Q].
              apply elements_zero in EM'. clear -EB EB' EJ EJ' EM EM'. rewrite EB in EB'. clear EB b.
              revert l' EB'. induction l as [|y l IH]; intros [|y' l'] Q; cbn [app] in Q.
              ** injection Q as -> ->. auto.
              ** injection Q as -> ->. rewrite filter_app in EM. cbn [filter] in EM. rewrite EJ' in EM. destruct (filter PageSpec.element l'); discriminate.
              ** injection Q as -> <-. rewrite filter_app in EM'. cbn [filter] in EM'. rewrite EJ in EM'. destruct (filter PageSpec.element l); discriminate.
              ** injection Q as -> Q. destruct (IH _ Q) as (-> & -> & ->). auto.
        -- intros Q. right. right. right. split; [reflexivity|]. right. exists l, j, m. split; auto. split; auto. split; [now apply elements_zero|exact Q].
    + apply (provided_tells _ _ false (Ok false)); [|discriminate]. split; [discriminate|]. cbn [In]. intros [Q|[Q|[Q|[Q|[]]]]]; congruence.
  - exact (tells_is No).
Qed.
End A.
