(** Cutting texts does not change the page. *)
From Verif Require Import WrapFacts WrapLoop WrapWidth.
From Verif Require Import BaseFacts StrFacts CollapseFacts SelFacts TreeFacts HistoryFacts.
From Verif Require Import PageSpec PageRead.
From Verif Require Export SplitSpec.
Open Scope Z_scope.

Lemma normalise_seam : forall a b, seam a b -> normalise (a ++ b) = normalise a ++ normalise b.
Proof.
  intros a b H. unfold normalise. destruct a as [|x a]; [reflexivity|]. destruct b as [|y b]; [cbn [normalise_from]; now rewrite !app_nil_r|].
  apply nrm_app. destruct H as [H|H]; [right|left].
  - split; [|discriminate]. right. unfold space_last in H. destruct (rev (x :: a)) as [|c r] eqn:R; [apply (f_equal (@rev N)) in R; rewrite rev_involutive in R; discriminate|].
    exists (rev r), c. split; [|exact H]. apply (f_equal (@rev N)) in R. now rewrite rev_involutive in R.
  - split; [exact H|discriminate].
Qed.

(** ** Trees that differ in the cutting of texts and in the numbers of elements *)
Section L.
Variable R : nat -> nat -> Prop.
(** [cuts]: texts may be cut (not directly in a numbered list). *)
Definition cut_inside (t : str) : bool := negb (seqb t (lit "ol")).
Inductive alike : bool -> list tree -> list tree -> Prop :=
| al_nil : forall c, alike c [] []
| al_text : forall c i i' s l l', alike c l l' -> alike c (Text i s :: l) (Text i' s :: l')
| al_cut : forall i i' j a b l l', alike true (Text j b :: l) l' -> alike true (Text i (a ++ b) :: l) (Text i' a :: l')
| al_tag : forall c i i' t a k k' l l', R i i' -> alike (cut_inside t) k k' -> alike c l l' ->
    alike c (Tag i t a k :: l) (Tag i' t a k' :: l').

Lemma alike_app : forall c l l' m m', alike c l l' -> alike c m m' -> alike c (l ++ m) (l' ++ m').
Proof.
  intros c l l' m m' H. induction H as [c|c i i' s l l' H IH|i i' j a b l l' H IH|c i i' t a k k' l l' RI HK _ HL IH]; intros M; cbn [app]; auto.
  - constructor. auto.
  - econstructor. exact (IH M).
  - constructor; auto.
Qed.
Lemma alike_elements : forall c l l', alike c l l' -> existsb element l = existsb element l'.
Proof. intros c l l' H. induction H; cbn [existsb element orb] in *; auto. Qed.
Lemma alike_put : forall g w c l l', alike c l l' -> existsb (put g w) l = existsb (put g w) l'.
Proof. intros g w c l l' H. induction H; cbn [existsb put orb] in *; auto. now rewrite IHalike2. Qed.
Lemma alike_nil : forall c l, alike c [] l -> l = [].
Proof. intros c l H. now inversion H. Qed.
Lemma alike_nil_r : forall c l, alike c l [] -> l = [].
Proof. intros c l H. now inversion H. Qed.
Lemma alike_code : forall c l l', alike c l l' -> only_code l = only_code l'.
Proof.
  intros c l l' H. destruct H as [c|c i i' s l l' H|i i' j a b l l' H|c i i' t a k k' l l' RI HK HL]; try reflexivity. cbn [only_code].
  destruct l; [apply alike_nil in HL; now subst|]. destruct l'; [apply alike_nil_r in HL; discriminate|]. reflexivity.
Qed.

(** ** Positions *)
(** Same place; the index counts in numbered lists only. *)
Definition same_pos (p p' : pos) : Prop :=
  ps_up p = ps_up p' /\ ps_first p = ps_first p' /\ ps_last p = ps_last p' /\ (inside "ol" p = true -> ps_index p = ps_index p').
Fixpoint places (up : list str) (seen : bool) (n : nat) (l : list tree) : list pos :=
  match l with
  | [] => []
  | k :: r => Pos up n (negb seen) (negb (existsb element r)) :: places up (seen || element k) (S n) r
  end.
Lemma places_eq : forall up kids, positions up kids = places up false 0 kids.
Proof.
  intros up kids. unfold positions. assert (G : forall l pre, kids = pre ++ l -> map (position up kids) (seq (length pre) (length l)) = places up (existsb element pre) (length pre) l).
  { induction l as [|k l IH]; intros pre E; [reflexivity|]. cbn [length seq map places]. f_equal.
    - unfold position. subst kids. rewrite firstn_app, Nat.sub_diag, firstn_all, app_nil_r. f_equal. f_equal. f_equal.
      replace (pre ++ k :: l) with ((pre ++ [k]) ++ l) by (rewrite <- app_assoc; reflexivity).
      replace (S (length pre)) with (length (pre ++ [k])) by (rewrite app_length; cbn; lia). rewrite skipn_app, skipn_all, Nat.sub_diag. reflexivity.
    - replace (S (length pre)) with (length (pre ++ [k])) by (rewrite app_length; cbn; lia). rewrite IH by (now rewrite <- app_assoc).
      rewrite existsb_app, app_length. cbn [existsb length]. rewrite orb_false_r. replace (length pre + 1)%nat with (S (length pre)) by lia. reflexivity. }
  apply (G kids []). reflexivity.
Qed.
End L.

Section S.
Context `{U : Uni}.
Variable g : cfg.
Variables num num' : nat -> Z.
Variable R : nat -> nat -> Prop.
Hypothesis NUM : forall i i', R i i' -> num i = num' i'.

Lemma inside_same : forall t p p', same_pos p p' -> inside t p = inside t p'.
Proof. intros t p p' (E & _). unfold inside. now rewrite E. Qed.
Lemma element_ext : forall i i' tg a kids kids' p p' w t1 t2 c1 c2, R i i' -> only_code kids = only_code kids' -> same_pos p p' ->
  (forall w, t1 w = t2 w) -> (forall w, c1 w = c2 w) ->
  show_element g num i tg a kids p w t1 c1 = show_element g num' i' tg a kids' p' w t2 c2.
Proof.
  intros i i' tg a kids kids' p p' w t1 t2 c1 c2 RI OC SP T C. pose proof (fun t => inside_same t p p' SP) as IN. destruct SP as (SU & SF & SL & SI).
  unfold show_element. destruct (lookup tg markers); [now rewrite C|]. destruct (lookup tg headings); [now rewrite C|]. destruct (lookup tg plain_blocks); [now rewrite C|].
  assert (PM : p_margins p = p_margins p') by (unfold p_margins; now rewrite IN, SF, SL).
  assert (LM : li_margin p = li_margin p') by (unfold li_margin, sublist; now rewrite SF, SU).
  assert (DM : dt_margin p = dt_margin p') by (unfold dt_margin; now rewrite SF).
  assert (CT : forall c, code_text p c = code_text p' c) by (intros c; unfold code_text; now rewrite IN).
  rewrite OC, PM, LM, DM, !C, T, (NUM _ _ RI). repeat (match goal with |- context [if seqb tg ?x then _ else _] => destruct (seqb tg x) end; [reflexivity|]).
  rewrite <- (IN "ol"%string). destruct (seqb tg (lit "li")).
  - destruct (inside "ol" p) eqn:IO; [rewrite (SI eq_refl)|]; rewrite ?C; reflexivity.
  - repeat (match goal with |- context [if seqb tg ?x then _ else _] => destruct (seqb tg x) end; [now rewrite ?C|]). destruct (seqb tg (lit "code")); [|reflexivity].
    destruct (c2 w); cbn [bind]; [now rewrite CT|reflexivity].
Qed.
Lemma listing_ext : forall i i' tg a w t1 t2, R i i' -> (forall w, t1 w = t2 w) -> show_listing g num i tg a w t1 = show_listing g num' i' tg a w t2.
Proof. intros i i' tg a w t1 t2 RI T. unfold show_listing. now rewrite T, (NUM _ _ RI). Qed.

Lemma tag_same : forall i i' t a k k' c listing p p' w,
  R i i' -> alike R c k k' -> same_pos p p' ->
  (forall w, in_order (at_positions (map (show g num false) k) (positions (t :: ps_up p) k) w) = in_order (at_positions (map (show g num' false) k') (positions (t :: ps_up p') k') w)) ->
  (forall w, in_order (at_positions (map (fun k => if put g "after_block" k then show g num true k else fun _ _ => Ok []) k) (positions (t :: ps_up p) k) w)
    = in_order (at_positions (map (fun k => if put g "after_block" k then show g num' true k else fun _ _ => Ok []) k') (positions (t :: ps_up p') k') w)) ->
  show g num listing (Tag i t a k) p w = show g num' listing (Tag i' t a k') p' w.
Proof.
  intros i i' t a k k' c listing p p' w RI AL SP H1 H2. cbn [show]. cbv zeta. destruct listing; [now apply listing_ext|]. apply element_ext; auto; [eapply alike_code; eauto|].
  intros w0. rewrite H1, H2, (alike_put R g "after_block" c k k' AL). reflexivity.
Qed.

Lemma in_order_cut : forall a b l, in_order (Ok (a ++ b) :: l) = in_order (Ok a :: Ok b :: l).
Proof. intros. cbn [in_order bind]. destruct (in_order l); cbn [bind]; [now rewrite app_assoc|reflexivity]. Qed.
Lemma alike_show : forall c l l', alike R c l l' ->
  forall up seen n n' w, (c = false -> n = n') -> (c = true -> hd_error up <> Some (lit "ol")) ->
  in_order (at_positions (map (show g num false) l) (places up seen n l) w) = in_order (at_positions (map (show g num' false) l') (places up seen n' l') w)
  /\ in_order (at_positions (map (fun k => if put g "after_block" k then show g num true k else fun _ _ => Ok []) l) (places up seen n l) w)
   = in_order (at_positions (map (fun k => if put g "after_block" k then show g num' true k else fun _ _ => Ok []) l') (places up seen n' l') w).
Proof.
  intros c l l' H. induction H as [c|c i i' s l l' H IH|i i' j a b l l' H IH|c i i' t a k k' l l' RI HK IHK HL IH]; intros up seen n n' w NN UP.
  - split; reflexivity.
  - cbn [map places at_positions show put element]. rewrite orb_false_r. destruct (IH up seen (S n) (S n') w) as [I1 I2]; [intros C; now rewrite NN|assumption|]. cbn [in_order bind]. now rewrite I1, I2.
  - cbn [map places at_positions show put element] in *. rewrite orb_false_r in *. destruct (IH up seen n (S n') w) as [I1 I2]; [discriminate|assumption|]. rewrite ?orb_false_r in I1, I2. split.
    + cbn [in_order bind] in I1 |- *. rewrite <- I1.
      destruct (in_order (at_positions (map (show g num false) l) (places up seen (S n) l) w)); cbn [bind]; [now rewrite <- app_assoc|reflexivity].
    + cbn [in_order bind] in I2 |- *. rewrite <- I2. destruct (in_order (at_positions (map (fun k => if put g "after_block" k then show g num true k else fun _ _ => Ok []) l) (places up seen (S n) l) w)); reflexivity.
  - cbn [map places at_positions element]. destruct (IH up (seen || true) (S n) (S n') w) as [I1 I2]; [intros C; now rewrite NN|assumption|].
    assert (SP : same_pos (Pos up n (negb seen) (negb (existsb element l))) (Pos up n' (negb seen) (negb (existsb element l')))).
    { repeat split; cbn [ps_up ps_first ps_last ps_index]; [now rewrite (alike_elements R c l l' HL)|]. unfold inside. cbn [ps_up]. intros IO. destruct c; [|auto]. destruct up as [|x up]; [discriminate|].
      apply seqb_eq in IO. elim (UP eq_refl). cbn. now rewrite IO. }
    assert (G : forall listing w, show g num listing (Tag i t a k) (Pos up n (negb seen) (negb (existsb element l))) w = show g num' listing (Tag i' t a k') (Pos up n' (negb seen) (negb (existsb element l'))) w).
    { intros listing w0. eapply tag_same; eauto; intros w1; cbn [ps_up]; rewrite !places_eq; apply (IHK (t :: up) false 0%nat 0%nat w1); auto;
        unfold cut_inside; destruct (seqb t (lit "ol")) eqn:E; cbn [negb]; try discriminate; intros _ X; injection X as X; subst t; rewrite seqb_refl in E; discriminate. }
    cbn [in_order]. rewrite !G, I1. split; [reflexivity|]. replace (put g "after_block" (Tag i' t a k')) with (put g "after_block" (Tag i t a k)) by reflexivity.
    destruct (put g "after_block" (Tag i t a k)); [now rewrite G, I2|now rewrite I2].
Qed.

(** ** Listed links *)
Lemma located_Tag : forall i t a k p, located (Tag i t a k) p = (Tag i t a k, p) :: located_all k (positions (t :: ps_up p) k).
Proof.
  intros. cbn [located]. f_equal. unfold located_all. generalize (positions (t :: ps_up p) k). induction k as [|x k IH]; intros ps; [reflexivity|]. destruct ps; [reflexivity|]. cbn [combine flat_map fst snd]. now rewrite IH.
Qed.
Definition in_footer (l : list (tree * pos)) : list (tree * pos) := filter (fun x => put g "footer" (fst x)) l.
Definition same_shown (x x' : tree * pos) : Prop := forall w, show g num true (fst x) (snd x) w = show g num' true (fst x') (snd x') w.
Lemma alike_footer : forall c l l', alike R c l l' ->
  forall up seen n n', (c = false -> n = n') -> (c = true -> hd_error up <> Some (lit "ol")) ->
  Forall2 same_shown (in_footer (located_all l (places up seen n l))) (in_footer (located_all l' (places up seen n' l'))).
Proof.
  intros c l l' H. induction H as [c|c i i' s l l' H IH|i i' j a b l l' H IH|c i i' t a k k' l l' RI HK IHK HL IH]; intros up seen n n' NN UP.
  - constructor.
  - unfold located_all, in_footer in *. cbn [places combine flat_map fst snd located app filter put element]. rewrite orb_false_r. apply IH; auto.
  - unfold located_all, in_footer in *. cbn [places combine flat_map fst snd located app filter put element] in *. specialize (IH up seen n (S n')). rewrite orb_false_r in *. apply IH; auto. discriminate.
  - assert (SP : same_pos (Pos up n (negb seen) (negb (existsb element l))) (Pos up n' (negb seen) (negb (existsb element l')))).
    { repeat split; cbn [ps_up ps_first ps_last ps_index]; [now rewrite (alike_elements R c l l' HL)|]. unfold inside. cbn [ps_up]. intros IO. destruct c; [|auto]. destruct up as [|x up]; [discriminate|].
      apply seqb_eq in IO. elim (UP eq_refl). cbn. now rewrite IO. }
    assert (NO : cut_inside t = true -> hd_error (t :: up) <> Some (lit "ol")).
    { unfold cut_inside. destruct (seqb t (lit "ol")) eqn:E; cbn [negb]; try discriminate; intros _ X; injection X as X; subst t; rewrite seqb_refl in E; discriminate. }
    assert (G : forall w, show g num true (Tag i t a k) (Pos up n (negb seen) (negb (existsb element l))) w = show g num' true (Tag i' t a k') (Pos up n' (negb seen) (negb (existsb element l'))) w).
    { intros w0. eapply tag_same; eauto; intros w1; cbn [ps_up]; rewrite !places_eq; apply (alike_show _ _ _ HK (t :: up) false 0%nat 0%nat w1); auto. }
    unfold located_all, in_footer in *. cbn [places combine flat_map fst snd element]. rewrite !located_Tag, !places_eq. rewrite !filter_app. apply Forall2_app.
    + cbn [filter fst]. replace (put g "footer" (Tag i' t a k')) with (put g "footer" (Tag i t a k)) by reflexivity. cbn [ps_up].
      pose proof (IHK (t :: up) false 0%nat 0%nat (fun _ => eq_refl) NO) as K. unfold located_all in K. destruct (put g "footer" (Tag i t a k)); [constructor|]; auto.
    + apply IH; auto.
Qed.
Lemma footer_same : forall F F', alike R true F F' -> footer g num F = footer g num' F'.
Proof.
  intros F F' H. unfold footer. destruct (seqb (g_link g) (lit "footer")); [|reflexivity]. cbv zeta. rewrite !places_eq.
  pose proof (alike_footer true F F' H [] false 0%nat 0%nat) as K. fold (in_footer (located_all F (places [] false 0 F))). fold (in_footer (located_all F' (places [] false 0 F'))).
  assert (K' := K ltac:(discriminate) ltac:(intros _; discriminate)). clear K. set (A := in_footer (located_all F _)) in *. set (B := in_footer (located_all F' _)) in *. clearbody A B.
  assert (E : in_order (map (fun x => show g num true (fst x) (snd x) (page_place g)) A) = in_order (map (fun x => show g num' true (fst x) (snd x) (page_place g)) B)).
  { induction K' as [|x y A B XY _ IH]; [reflexivity|]. cbn [map in_order]. now rewrite XY, IH. }
  rewrite E. destruct K'; reflexivity.
Qed.
Lemma body_same : forall F F', alike R true F F' -> body g num F = body g num' F'.
Proof. intros F F' H. unfold body. rewrite !places_eq. apply (alike_show true F F' H [] false 0%nat 0%nat); [discriminate|intros _; discriminate]. Qed.
End S.

(** ** Numbers *)
Definition one_one (R : nat -> nat -> Prop) : Prop := forall i i' j j', R i i' -> R j j' -> (i = j <-> i' = j').
Lemma rank_same : forall R i i' l l', one_one R -> R i i' -> Forall2 R l l' -> rank i l = rank i' l'.
Proof.
  intros R i i' l l' O RI F. induction F as [|x y l l' XY _ IH]; [reflexivity|]. cbn [rank]. rewrite IH. destruct (Nat.eqb_spec i x), (Nat.eqb_spec i' y); auto; destruct (O _ _ _ _ RI XY); tauto.
Qed.
Lemma ids_same : forall R g c F F', alike R c F F' -> Forall2 R (flat_map (numbered_ids g) F) (flat_map (numbered_ids g) F').
Proof.
  intros R g c F F' H. induction H as [c|c i i' s l l' H IH|i i' j a b l l' H IH|c i i' t a k k' l l' RI HK IHK HL IH]; cbn [flat_map numbered_ids app] in *; auto.
  apply Forall2_app; [|assumption]. destruct (numbered g t); cbn [app]; auto.
Qed.
Lemma page_same : forall `{U : Uni} R g F F', one_one R -> alike R true F F' -> page g F = page g F'.
Proof.
  intros U R g F F' O H. unfold page. cbv zeta.
  assert (NUM : forall i i', R i i' -> rank i (flat_map (numbered_ids g) F) = rank i' (flat_map (numbered_ids g) F')).
  { intros i i' RI. eapply rank_same; eauto. eapply ids_same; eauto. }
  rewrite (body_same g _ _ R NUM F F' H), (footer_same g _ _ R NUM F F' H). reflexivity.
Qed.

(** ** Reading *)
(** Alike, with the elements [ts] (outermost first) open on both sides. *)
Inductive path (R : nat -> nat -> Prop) : bool -> list str -> list tree -> list tree -> Prop :=
| pt_here : forall c F F', alike R c F F' -> path R c [] F F'
| pt_down : forall c t ts F F' i i' a K K', alike R c F F' -> R i i' -> path R (cut_inside t) ts K K' ->
    path R c (t :: ts) (F ++ [Tag i t a K]) (F' ++ [Tag i' t a K']).
Lemma alike_mono : forall (R Q : nat -> nat -> Prop) c F F', (forall i i', R i i' -> Q i i') -> alike R c F F' -> alike Q c F F'.
Proof. intros R Q c F F' RQ H. induction H; econstructor; eauto. Qed.
Lemma path_mono : forall (R Q : nat -> nat -> Prop) c ts F F', (forall i i', R i i' -> Q i i') -> path R c ts F F' -> path Q c ts F F'.
Proof. intros R Q c ts F F' RQ H. induction H; econstructor; eauto using alike_mono. Qed.
Lemma path_alike : forall R c ts F F', path R c ts F F' -> alike R c F F'.
Proof. intros R c ts F F' H. induction H; auto. apply alike_app; auto. constructor; auto. constructor. Qed.
Lemma path_close : forall R c ts t F F', path R c (ts ++ [t]) F F' -> path R c ts F F'.
Proof.
  intros R c ts. revert c. induction ts as [|x ts IH]; intros c t F F' H; cbn [app] in H; inversion H; subst.
  - constructor. apply path_alike in H. assumption.
  - constructor; auto. eapply IH; eauto.
Qed.
Lemma path_nil : forall R c ts F F', path R c ts F F' -> path R c [] F F'.
Proof. intros. constructor. eapply path_alike; eauto. Qed.
Lemma add_down : forall k x F i t a K, add_at (S k) x (F ++ [Tag i t a K]) = F ++ [Tag i t a (add_at k x K)].
Proof. intros. cbn [add_at]. rewrite rev_app_distr. cbn [rev app]. now rewrite rev_involutive. Qed.
(** What is allowed where the next child goes. *)
Definition cut_here (c : bool) (ts : list str) : bool := match rev ts with [] => c | t :: _ => cut_inside t end.
Lemma cut_here_cons : forall c t ts, cut_here c (t :: ts) = cut_here (cut_inside t) ts.
Proof. intros. unfold cut_here. cbn [rev]. destruct (rev ts) as [|x r] eqn:E; cbn [app]; reflexivity. Qed.
Lemma path_add : forall R c ts F F', path R c ts F F' -> forall x x', alike R (cut_here c ts) [x] [x'] -> path R c ts (add_at (length ts) x F) (add_at (length ts) x' F').
Proof.
  intros R c ts F F' H. induction H as [c F F' H|c t ts F F' i i' a K K' H RI HK IH]; intros x x' X.
  - cbn [length add_at]. constructor. now apply alike_app.
  - cbn [length]. rewrite !add_down. constructor; auto. apply IH. now rewrite <- cut_here_cons with (c := c).
Qed.
Lemma path_open : forall R c ts F F', path R c ts F F' -> forall i i' t a, R i i' ->
  path R c (ts ++ [t]) (add_at (length ts) (Tag i t a []) F) (add_at (length ts) (Tag i' t a []) F').
Proof.
  intros R c ts F F' H. induction H as [c F F' H|c t ts F F' i i' a K K' H RI HK IH]; intros j j' t2 a2 RJ.
  - cbn [length add_at app]. constructor; auto. constructor. constructor.
  - cbn [length app]. rewrite !add_down. constructor; auto.
Qed.
(** A text in two pieces. *)
Lemma path_cut : forall R c ts F F', path R c ts F F' -> cut_here c ts = true -> forall i i' j' a b,
  path R c ts (add_at (length ts) (Text i (a ++ b)) F) (add_at (length ts) (Text j' b) (add_at (length ts) (Text i' a) F')).
Proof.
  intros R c ts F F' H. induction H as [c F F' H|c t ts F F' i i' a K K' H RI HK IH]; intros CH k k' j' x y.
  - cbn [length add_at]. constructor. rewrite <- app_assoc. cbn [app]. apply alike_app; auto. unfold cut_here in CH. cbn [rev] in CH. subst c.
    apply al_cut with (j := k). constructor. constructor.
  - cbn [length]. rewrite !add_down. constructor; auto. apply IH. now rewrite cut_here_cons in CH.
Qed.

Lemma open_snoc : forall h o, open_after (h ++ [o]) = open_step o (open_after h).
Proof. intros. unfold open_after. now rewrite fold_left_app. Qed.
Lemma pre_snoc : forall h o, inside_pre (h ++ [o]) = pre_step o (inside_pre h).
Proof. intros. unfold inside_pre. now rewrite fold_left_app. Qed.
Lemma items_snoc : forall h o, items (h ++ [o]) = item_step o (items h).
Proof. intros. unfold items. now rewrite fold_left_app. Qed.

Section R.
Context `{U : Uni}.
(** Two readings that agree so far. *)
Record agree (B B' : list op) (F F' : list tree) : Prop := Agree {
  ag_open : open_after B = open_after B';
  ag_pre : inside_pre B = inside_pre B';
  ag_tree : exists R, one_one R /\ (forall i i', R i i' -> (i < length (items B))%nat /\ (i' < length (items B'))%nat)
    /\ path R true (rev (open_after B)) F F' }.
Definition grown (R : nat -> nat -> Prop) (n n' : nat) : nat -> nat -> Prop := fun i i' => R i i' \/ (i = n /\ i' = n').
Lemma grown_one : forall R n n', one_one R -> (forall i i', R i i' -> (i < n)%nat /\ (i' < n')%nat) -> one_one (grown R n n').
Proof.
  intros R n n' O B i i' j j' [H|[-> ->]] [K|[-> ->]].
  - eauto.
  - apply B in H. lia.
  - apply B in K. lia.
  - tauto.
Qed.
Definition stored (B : list op) (s : str) : str := if inside_pre B then s else normalise s.
Definition placed (B : list op) (o : op) (F : list tree) : list tree :=
  match o with
  | OStart t a => add_at (length (open_after B)) (Tag (length (items B)) t a []) F
  | OData s => add_at (length (open_after B)) (Text (length (items B)) (stored B s)) F
  | OEnd _ | OClose => F
  | OReset => []
  end.
Lemma read_cons : forall B F o h, read_from B F (o :: h) = read_from (B ++ [o]) (placed B o F) h.
Proof. intros. cbn [read_from]. destruct o; reflexivity. Qed.
Lemma agree_step : forall B B' F F' o, agree B B' F F' -> agree (B ++ [o]) (B' ++ [o]) (placed B o F) (placed B' o F').
Proof.
  intros B B' F F' o [AO AP (R & O & BD & P)].
  assert (LT : length (open_after B) = length (rev (open_after B))) by (now rewrite rev_length).
  constructor; [now rewrite !open_snoc, AO|now rewrite !pre_snoc, AP|]. rewrite open_snoc, !items_snoc. destruct o as [t a|t|s| |]; cbn [placed item_step open_step].
  - exists (grown R (length (items B)) (length (items B'))). split; [now apply grown_one|]. split.
    { intros i i' [H|[-> ->]]; rewrite !app_length; cbn [length]; [apply BD in H|]; lia. }
    rewrite <- AO, LT. assert (P' : path (grown R (length (items B)) (length (items B'))) true (rev (open_after B)) F F') by (eapply path_mono; [|exact P]; now left). destruct (void t).
    + apply path_add; auto. constructor; [now right|constructor|constructor].
    + cbn [rev]. apply path_open; auto. now right.
  - exists R. split; [assumption|]. split; [assumption|]. destruct (open_after B) as [|x r] eqn:E; [exact P|]. destruct (void t); [exact P|]. destruct (seqb x t); [|exact P]. cbn [rev] in P. eapply path_close; eauto.
  - exists R. split; [assumption|]. split; [intros i i' H; rewrite !app_length; apply BD in H; lia|]. rewrite <- AO, LT. unfold stored. rewrite <- AP. apply path_add; auto. constructor. constructor.
  - exists R. split; [assumption|]. split; [assumption|]. eapply path_nil; eauto.
  - exists (fun _ _ => False). split; [intros ? ? ? ? []|]. split; [intros ? ? []|]. constructor. constructor.
Qed.
Lemma hd_rev : forall (A : Type) (l : list A), match rev (rev l) with [] => None | t :: _ => Some t end = hd_error l.
Proof. intros. rewrite rev_involutive. destruct l; reflexivity. Qed.
Lemma agree_read : forall h B B' F F', agree B B' F F' -> agree (B ++ h) (B' ++ h) (read_from B F h) (read_from B' F' h).
Proof.
  induction h as [|o h IH]; intros B B' F F' A; [now rewrite !app_nil_r|]. rewrite !read_cons. replace (B ++ o :: h) with ((B ++ [o]) ++ h) by (now rewrite <- app_assoc).
  replace (B' ++ o :: h) with ((B' ++ [o]) ++ h) by (now rewrite <- app_assoc). apply IH. now apply agree_step.
Qed.
Lemma read_app : forall h1 h2 B F, read_from B F (h1 ++ h2) = read_from (B ++ h1) (read_from B F h1) h2.
Proof.
  induction h1 as [|o h1 IH]; intros h2 B F; [cbn [app read_from]; now rewrite app_nil_r|]. cbn [app]. rewrite !read_cons, IH, <- app_assoc. reflexivity.
Qed.
Lemma agree_cut : forall B F a b, agree B B F F -> inside_pre B = true \/ seam a b -> hd_error (open_after B) <> Some (lit "ol") ->
  agree (B ++ [OData (a ++ b)]) (B ++ [OData a; OData b]) (placed B (OData (a ++ b)) F) (placed (B ++ [OData a]) (OData b) (placed B (OData a) F)).
Proof.
  intros B F a b [_ _ (R & O & BD & P)] SM NO. replace (B ++ [OData a; OData b]) with ((B ++ [OData a]) ++ [OData b]) by (now rewrite <- app_assoc).
  constructor; [now rewrite !open_snoc|now rewrite !pre_snoc|]. exists R. split; [assumption|]. split.
  - intros i i' H. rewrite !items_snoc. cbn [item_step]. rewrite !app_length. apply BD in H. lia.
  - rewrite open_snoc. cbn [open_step placed]. rewrite open_snoc. cbn [open_step]. assert (LT : length (open_after B) = length (rev (open_after B))) by (now rewrite rev_length). rewrite LT.
    assert (ST : stored B (a ++ b) = stored B a ++ stored (B ++ [OData a]) b).
    { unfold stored. rewrite pre_snoc. cbn [pre_step]. destruct (inside_pre B) eqn:IP; [reflexivity|]. destruct SM as [SM|SM]; [discriminate|]. now apply normalise_seam. }
    rewrite ST. apply path_cut; auto. unfold cut_here. rewrite rev_involutive. destruct (open_after B) as [|t r]; [reflexivity|]. unfold cut_inside. destruct (seqb t (lit "ol")) eqn:E; [|reflexivity].
    apply seqb_eq in E. elim NO. cbn. now rewrite E.
Qed.
Lemma agree_self : forall h, agree h h (tree_of h) (tree_of h).
Proof.
  intros h. apply (agree_read h [] []). constructor; [reflexivity|reflexivity|]. exists (fun _ _ => False). split; [intros ? ? ? ? []|]. split; [intros ? ? []|]. constructor. constructor.
Qed.
Lemma agree_page : forall g B B' F F', agree B B' F F' -> page g F = page g F'.
Proof. intros g B B' F F' [_ _ (R & O & _ & P)]. eapply page_same; [exact O|]. eapply path_alike; eauto. Qed.
Lemma cut_page : forall g B a b r, inside_pre B = true \/ seam a b -> hd_error (open_after B) <> Some (lit "ol") ->
  page g (tree_of (B ++ OData (a ++ b) :: r)) = page g (tree_of (B ++ OData a :: OData b :: r)).
Proof.
  intros g B a b r SM NO. unfold tree_of. rewrite !read_app. cbn [app]. rewrite !read_cons. eapply agree_page.
  replace ((B ++ [OData a]) ++ [OData b]) with (B ++ [OData a; OData b]) by (now rewrite <- app_assoc). apply agree_read. apply agree_cut; auto. apply agree_self.
Qed.
Lemma resplit_page : forall g B h h', resplit B h h' -> forall B', open_after B' = open_after B -> inside_pre B' = inside_pre B ->
  page g (tree_of (B' ++ h)) = page g (tree_of (B' ++ h')).
Proof.
  intros g B h h' H. induction H as [B|B o h h' H IH|B a b h h' SM NO H IH]; intros B' EO EP; [reflexivity|..].
  - specialize (IH (B' ++ [o])). rewrite <- !app_assoc in IH. apply IH; [now rewrite !open_snoc, EO|now rewrite !pre_snoc, EP].
  - rewrite cut_page by (rewrite ?EO, ?EP; assumption). specialize (IH (B' ++ [OData a])). rewrite <- !app_assoc in IH. apply IH; [now rewrite !open_snoc|now rewrite !pre_snoc].
Qed.
Lemma error_same : forall g h B B', open_after B = open_after B' -> feed_error_from g B h = feed_error_from g B' h.
Proof.
  intros g. induction h as [|o h IH]; intros B B' E; [reflexivity|]. cbn [feed_error_from]. rewrite <- E. destruct (match o with OStart t a => _ | _ => None end); [reflexivity|]. apply IH. now rewrite !open_snoc, E.
Qed.
Lemma resplit_error : forall g B h h', resplit B h h' -> feed_error_from g B h = feed_error_from g B h'.
Proof.
  intros g B h h' H. induction H as [B|B o h h' H IH|B a b h h' SM NO H IH]; [reflexivity|..]; cbn [feed_error_from] in *; [now rewrite IH|].
  rewrite (error_same g h (B ++ [OData (a ++ b)]) (B ++ [OData b])) by (now rewrite !open_snoc). rewrite IH. apply error_same. now rewrite open_snoc.
Qed.
Lemma resplit_close : forall B h h', resplit B h h' -> ~ In OClose h -> ~ In OClose h'.
Proof.
  intros B h h' H. induction H as [B|B o h h' H IH|B a b h h' SM NO H IH]; intros NI; [assumption|..]; cbn [In] in *.
  - intros [->|I]; [tauto|]. apply IH; tauto.
  - intros [E|I]; [discriminate|]. apply IH; [intros [E|J]; [discriminate|tauto]|assumption].
Qed.
Lemma resplit_whole : forall o h h', o_renderers o = [] -> o_ext o = [] -> resplit [] h h' -> ~ In OClose h -> render_doc o h = render_doc o h'.
Proof.
  intros o h h' O1 O2 RS NC. destruct (construct o) as [g|e] eqn:CN; [|unfold render_doc; now rewrite CN].
  rewrite (whole o g h O1 O2 CN NC), (whole o g h' O1 O2 CN (resplit_close _ _ _ RS NC)). unfold feed_error. rewrite (resplit_error g [] h h' RS).
  pose proof (resplit_page g [] h h' RS [] eq_refl eq_refl) as E. cbn [app] in E. now rewrite E.
Qed.
End R.
Close Scope Z_scope.
