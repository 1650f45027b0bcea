(** Facts about [splitlines]. *)
From Verif Require Export StrFacts LineSpec.
Open Scope N_scope.

Lemma linebreak_13_10 : is_linebreak 13 = true /\ is_linebreak 10 = true.
Proof. split; reflexivity. Qed.

Lemma splitlines_cons2 : forall keep c d r, splitlines keep (c :: d :: r) =
  if (c =? 13) && (d =? 10)
  then (if keep then [c; d] else []) :: splitlines keep r
  else if is_linebreak c
  then (if keep then [c] else []) :: splitlines keep (d :: r)
  else match splitlines keep (d :: r) with
       | l :: ls => (c :: l) :: ls
       | [] => [[c]]
       end.
Proof. reflexivity. Qed.
Lemma first_line : forall s, s <> [] -> exists b t r, s = b ++ t ++ r /\ no_break b /\ line_end t /\ b ++ t <> []
  /\ (t = [] -> r = []) /\ (t = [13] -> forall r', r <> 10 :: r')
  /\ (length r < length s)%nat
  /\ splitlines true s = (b ++ t) :: splitlines true r
  /\ splitlines false s = b :: splitlines false r.
Proof.
  induction s as [|c s IH]; intros HN; [congruence|]. destruct s as [|d s'].
  - destruct (is_linebreak c) eqn:E.
    + exists [], [c], []. simpl. rewrite E. repeat split; auto; try discriminate. intros x []. right. right. eauto.
    + exists [c], [], []. simpl. rewrite E. repeat split; auto; try discriminate.
      * intros x [<- |[]]. exact E.
      * now left.
  - rewrite !splitlines_cons2. destruct ((c =? 13) && (d =? 10)) eqn:E1.
    + apply andb_true_iff in E1 as [E1 E2]. apply N.eqb_eq in E1, E2. subst.
      exists [], [13; 10], s'. simpl. repeat split; auto; try discriminate. intros x []. right. now left.
    + destruct (is_linebreak c) eqn:E.
      * exists [], [c], (d :: s'). repeat split; auto; try discriminate.
        -- intros x [].
        -- right. right. eauto.
        -- intros HC r' HR. injection HC as ->. injection HR as -> ->. now rewrite N.eqb_refl in E1.
      * destruct (IH ltac:(discriminate)) as (b & t & r & H1 & H2 & H3 & H4 & H5 & H6 & H7 & H8 & H9).
        exists (c :: b), t, r. rewrite H8, H9. split; [now rewrite H1|].
        split; [intros x [<- |Hx]; auto|]. split; auto. split; [discriminate|].
        split; auto. split; auto. split; [simpl in *; lia|]. split; reflexivity.
Qed.
Lemma lines_of_ex : forall n s, (length s <= n)%nat -> exists ls, lines_of s ls.
Proof.
  induction n; intros s H.
  - destruct s; [|simpl in H; lia]. exists []. constructor.
  - destruct s as [|c s]; [exists []; constructor|].
    destruct (first_line (c :: s) ltac:(discriminate)) as (b & t & r & H1 & H2 & H3 & H4 & H5 & H6 & H7 & _).
    destruct (IHn r) as [ls HL]; [lia|]. exists ((b, t) :: ls). rewrite H1. constructor; auto.
Qed.
Lemma lines_of_exists : forall s, exists ls, lines_of s ls.
Proof. intros. eapply lines_of_ex. reflexivity. Qed.

Lemma line_end_app : forall b t r b' t' r', no_break b -> no_break b' -> line_end t -> line_end t' ->
  (t = [] -> r = []) -> (t' = [] -> r' = []) ->
  (t = [13] -> forall x, r <> 10 :: x) -> (t' = [13] -> forall x, r' <> 10 :: x) ->
  b ++ t ++ r = b' ++ t' ++ r' -> b = b' /\ t = t' /\ r = r'.
Proof.
  assert (TB : forall t, line_end t -> t = [] \/ exists c u, t = c :: u /\ is_linebreak c = true).
  { intros t [->|[->|(c & -> & H)]]; auto; right; eauto. }
  induction b as [|x b IH]; intros t r b' t' r' N1 N2 E1 E2 Z1 Z2 C1 C2 H.
  - destruct b' as [|y b'].
    + simpl in H. split; auto.
      destruct E1 as [->|[->|(c & -> & B1)]].
      * rewrite (Z1 eq_refl) in H. simpl in H. destruct t' as [|c' t']; [|discriminate]. simpl in H. subst. auto.
      * destruct E2 as [->|[->|(c' & -> & B2)]].
        -- rewrite (Z2 eq_refl) in H. discriminate.
        -- simpl in H. injection H as ->. auto.
        -- simpl in H. injection H as <- HR. exfalso. exact (C2 eq_refl r (eq_sym HR)).
      * destruct E2 as [->|[->|(c' & -> & B2)]].
        -- rewrite (Z2 eq_refl) in H. discriminate.
        -- simpl in H. injection H as -> HR. exfalso. exact (C1 eq_refl r' HR).
        -- simpl in H. injection H as -> ->. auto.
    + exfalso. simpl in H. destruct (TB t E1) as [->|(c & u & -> & B)].
      * rewrite (Z1 eq_refl) in H. discriminate.
      * simpl in H. injection H as -> _. rewrite N2 in B by (now left). discriminate.
  - destruct b' as [|y b'].
    + exfalso. simpl in H. destruct (TB t' E2) as [->|(c & u & -> & B)].
      * rewrite (Z2 eq_refl) in H. discriminate.
      * simpl in H. injection H as -> _. rewrite N1 in B by (now left). discriminate.
    + simpl in H. injection H as -> H. destruct (IH t r b' t' r') as (-> & -> & ->); auto.
      * intros c Hc. apply N1. now right.
      * intros c Hc. apply N2. now right.
Qed.
Lemma lines_of_splitlines : forall s ls, lines_of s ls ->
  splitlines true s = map (fun l => fst l ++ snd l) ls /\ splitlines false s = map fst ls.
Proof.
  induction 1 as [|b t r ls NB LE NE Z C HL [IH1 IH2]]; auto.
  assert (SN : b ++ t ++ r <> []) by (rewrite app_assoc; destruct (b ++ t); [congruence|discriminate]).
  destruct (first_line _ SN) as (b' & t' & r' & H1 & H2 & H3 & H4 & H5 & H6 & H7 & H8 & H9).
  destruct (line_end_app _ _ _ _ _ _ NB H2 LE H3 Z H5 C H6 H1) as (<- & <- & <-).
  rewrite H8, H9. simpl. now rewrite IH1, IH2.
Qed.
Lemma lines_of_unique : forall s ls ls', lines_of s ls -> lines_of s ls' -> ls = ls'.
Proof.
  intros s ls ls' H. revert ls'. induction H as [|b t r ls NB LE NE Z C HL IH]; intros ls' H'.
  - inversion H'; auto. exfalso. destruct b; [destruct t; [simpl in *; congruence|discriminate]|discriminate].
  - assert (SN : b ++ t ++ r <> []) by (rewrite app_assoc; destruct (b ++ t); [congruence|discriminate]).
    remember (b ++ t ++ r) as s eqn:ES. destruct H' as [|b' t' r' ls' NB' LE' NE' Z' C' HL']; [congruence|].
    destruct (line_end_app b t r b' t' r') as (<- & <- & <-); auto. f_equal. auto.
Qed.
Lemma splitlines_concat : forall s, concat (splitlines true s) = s.
Proof.
  intros s. destruct (lines_of_exists s) as [ls H]. destruct (lines_of_splitlines s ls H) as [E _]. rewrite E. clear E.
  induction H; auto. simpl. rewrite IHlines_of. now rewrite <- app_assoc.
Qed.
Lemma prefixed_iff : forall p s s', prefixed p s s' <-> s' = concat (map (fun l => p ++ l) (splitlines true s)).
Proof.
  intros p s s'. split.
  - intros (ls & H & ->). destruct (lines_of_splitlines s ls H) as [-> _]. rewrite map_map. reflexivity.
  - intros ->. destruct (lines_of_exists s) as [ls H]. exists ls. split; auto.
    destruct (lines_of_splitlines s ls H) as [-> _]. rewrite map_map. reflexivity.
Qed.
Lemma fits_iff : forall w s, fits w s <-> Forall (fun l : str => (len l <= w)%Z) (splitlines false s).
Proof.
  intros w s. destruct (lines_of_exists s) as [ls H]. destruct (lines_of_splitlines s ls H) as [_ E]. rewrite E.
  unfold fits. rewrite Forall_map. split; [auto|]. intros F ls' H'. now rewrite (lines_of_unique s ls' ls).
Qed.
Close Scope N_scope.
Open Scope Z_scope.

(** ** Columns *)
Lemma column_app : forall a b k, column k (a ++ b) = column (column k a) b.
Proof. induction a as [|c a IH]; simpl; intros; auto. destruct (is_linebreak c); auto. Qed.
Lemma within_app : forall cnt w a b k, within cnt w k (a ++ b) <-> within cnt w k a /\ within cnt w (column k a) b.
Proof.
  induction a as [|c a IH]; simpl; intros; [tauto|]. destruct (is_linebreak c); [apply IH|]. rewrite IH. tauto.
Qed.
Lemma column_no_break : forall s k, no_break s -> column k s = k + len s.
Proof.
  induction s as [|c s IH]; intros k H; simpl; [unfold len; simpl; lia|].
  rewrite H by (now left). rewrite IH by (intros x Hx; apply H; now right). rewrite len_cons. lia.
Qed.
Lemma column_line_end : forall t k, line_end t -> t <> [] -> column k t = 0.
Proof.
  intros t k [->|[->|(c & -> & B)]] H; [congruence|reflexivity|]. simpl. now rewrite B.
Qed.
Lemma within_line_end : forall cnt w t k, line_end t -> within cnt w k t.
Proof.
  intros cnt w t k [->|[->|(c & -> & B)]]; simpl; auto. now rewrite B.
Qed.
Lemma column_bounds : forall s k, 0 <= k -> 0 <= column k s <= k + len s.
Proof.
  induction s as [|c s IH]; intros k H; simpl; [unfold len; simpl; lia|]. rewrite len_cons.
  destruct (is_linebreak c); [specialize (IH 0)|specialize (IH (k + 1))]; lia.
Qed.
Lemma within_shift : forall cnt s w k j, 0 <= j -> within cnt w k s -> within cnt (w + j) (k + j) s.
Proof.
  induction s as [|c s IH]; simpl; intros w k j HJ H; auto. destruct (is_linebreak c).
  - assert (M : forall s w w' k k', w <= w' -> k' <= k -> within cnt w k s -> within cnt w' k' s).
    { clear. induction s as [|c s IH]; simpl; intros w w' k k' H1 H2 H; auto. destruct (is_linebreak c).
      - eapply IH; [exact H1| |exact H]. lia.
      - destruct H as [H3 H4]. split; [intros C; specialize (H3 C); lia|]. eapply IH; [exact H1| |exact H4]. lia. }
    eapply M; [| |exact H]; lia.
  - destruct H as [H1 H2]. split; [intros C; specialize (H1 C); lia|].
    replace (k + j + 1) with (k + 1 + j) by lia. now apply IH.
Qed.
Lemma within_mono : forall cnt s w w' k k', w <= w' -> k' <= k -> within cnt w k s -> within cnt w' k' s.
Proof.
  induction s as [|c s IH]; simpl; intros w w' k k' H1 H2 H; auto. destruct (is_linebreak c).
  - eapply IH; [exact H1| |exact H]. lia.
  - destruct H as [H3 H4]. split; [intros C; specialize (H3 C); lia|]. eapply IH; [exact H1| |exact H4]. lia.
Qed.
Lemma within_weaker : forall (cnt cnt' : N -> bool) s w k, (forall c, cnt' c = true -> cnt c = true) ->
  within cnt w k s -> within cnt' w k s.
Proof.
  induction s as [|c s IH]; simpl; intros w k HC H; auto. destruct (is_linebreak c); auto.
  destruct H as [H1 H2]. split; auto.
Qed.
Lemma within_len : forall cnt s w k, k + len s <= w -> 0 <= k -> within cnt w k s.
Proof.
  induction s as [|c s IH]; simpl; intros w k H HK; auto. rewrite len_cons in H. pose proof (len_nonneg s).
  destruct (is_linebreak c); [apply IH; lia|]. split; [lia|]. apply IH; lia.
Qed.
Lemma within_nocount : forall cnt s w k, (forall c, In c s -> cnt c = false) -> within cnt w k s.
Proof.
  induction s as [|c s IH]; simpl; intros w k H; auto. destruct (is_linebreak c); [apply IH; auto|].
  split; [rewrite H by auto; discriminate|]. apply IH. auto.
Qed.
Lemma column_within : forall s w k, within (fun _ => true) w k s -> column k s <= Z.max k (Z.max 0 w).
Proof.
  induction s as [|c s IH]; simpl; intros w k H; [lia|]. destruct (is_linebreak c).
  - apply IH in H. lia.
  - destruct H as [H1 H2]. apply IH in H2. specialize (H1 eq_refl). lia.
Qed.

Lemma within_no_break_all : forall s w k, no_break s -> 0 <= k <= w -> within (fun _ => true) w k s -> k + len s <= w.
Proof.
  induction s as [|c s IH]; simpl; intros w k NB HK H; [unfold len; simpl; lia|].
  rewrite NB in H by (now left). destruct H as [H1 H2]. specialize (H1 eq_refl).
  apply IH in H2; [|intros x Hx; apply NB; now right|lia]. rewrite len_cons. lia.
Qed.
Lemma within_lines : forall cnt w s ls, lines_of s ls ->
  (within cnt w 0 s <-> Forall (fun l : str * str => within cnt w 0 (fst l)) ls).
Proof.
  intros cnt w s ls H. induction H as [|b t r ls NB LE NE Z C HL IH].
  - simpl. split; auto.
  - rewrite !within_app, column_no_break by auto. cbn [len]. rewrite Forall_cons_iff. cbn [fst].
    assert (R : within cnt w (column (0 + len b) t) r <-> within cnt w 0 r).
    { destruct t as [|c t]; [rewrite (Z eq_refl); simpl; tauto|]. rewrite column_line_end by (auto; discriminate). tauto. }
    rewrite R, IH. pose proof (within_line_end cnt w t (0 + len b) LE). tauto.
Qed.
Lemma fits_within : forall w s, 0 <= w -> (fits w s <-> within (fun _ => true) w 0 s).
Proof.
  intros w s HW. destruct (lines_of_exists s) as [ls H]. rewrite (within_lines _ w s ls H).
  assert (NBs : Forall (fun l : str * str => no_break (fst l)) ls) by (clear - H; induction H; constructor; auto).
  unfold fits. split.
  - intros F. specialize (F ls H). clear H. induction ls as [|l ls IH]; constructor; inversion F; inversion NBs; subst; auto.
    apply within_len; lia.
  - intros F ls' H'. rewrite (lines_of_unique s ls' ls H' H). clear - F NBs HW.
    induction ls as [|l ls IH]; constructor; inversion F; inversion NBs; subst; auto.
    apply within_no_break_all in H1; auto; lia.
Qed.
Section V.
Context `{U : Uni}.
Definition visible (c : N) : bool := negb (is_space c).
Lemma within_rstrip : forall b w, 0 <= w -> no_break b -> (within visible w 0 b <-> len (rstrip b) <= w).
Proof.
  intros b w HW NB. destruct (rstrip_spec b) as (sp & E & AS & LAST).
  assert (NBr : no_break (rstrip b)) by (intros c Hc; apply NB; rewrite E; apply in_or_app; now left).
  split.
  - intros H. rewrite E in H. apply within_app in H as [H _]. 
    destruct LAST as [-> |(x & c & E0 & HC)]; [unfold len; simpl; lia|]. rewrite E0 in *.
    apply within_app in H as [_ H]. rewrite column_no_break in H by (intros y Hy; apply NBr; apply in_or_app; now left).
    simpl in H. rewrite NBr in H by (apply in_or_app; right; now left). destruct H as [H _].
    rewrite len_app. change (len [c]) with 1. unfold visible in H. rewrite HC in H. specialize (H eq_refl). lia.
  - intros H. rewrite E. apply within_app. split; [apply within_len; lia|].
    apply within_nocount. intros c Hc. unfold visible. unfold all_space in AS. rewrite forallb_forall in AS. now rewrite AS.
Qed.
End V.

(** Newlines reset the column. *)
Lemma within_nl : forall cnt w k a b, within cnt w k (a ++ 10%N :: b) <-> within cnt w k a /\ within cnt w 0 b.
Proof. intros. rewrite within_app. simpl. tauto. Qed.
Lemma within_join : forall cnt w l, within cnt w 0 (join [10%N] l) <-> Forall (within cnt w 0) l.
Proof.
  induction l as [|x [|y r] IH]; [simpl; split; auto|simpl; split; intros; [now constructor|now inversion H]|].
  rewrite join_cons2. cbn [app]. rewrite within_nl, IH. split; [intros [H1 H2]; now constructor|intros H; inversion H; auto].
Qed.
Lemma within_split : forall cnt w s, within cnt w 0 s <-> Forall (within cnt w 0) (split_on 10%N s).
Proof. intros. rewrite <- (join_split_on 10%N s) at 1. apply within_join. Qed.
Lemma within_newlines : forall cnt w n k, within cnt w k (newlines n).
Proof. intros cnt w n. unfold newlines. induction (Z.to_nat n); simpl; auto. Qed.
Lemma no_break_spaces : forall n, no_break (spaces n).
Proof. intros n c H. unfold spaces in H. apply repeat_spec in H. now subst. Qed.
(** A prefix in front of every line. *)
Lemma within_prefixed : forall cnt w p s s', no_break p -> 0 <= w -> within cnt (w + len p) 0 p -> within cnt w 0 s ->
  prefixed p s s' -> within cnt (w + len p) 0 s'.
Proof.
  intros cnt w p s s' NP HW WP WS (ls & HL & ->).
  rewrite (within_lines cnt w s ls HL) in WS.
  induction HL as [|b t r ls NB LE NE Z C HL IH]; simpl; auto.
  inversion WS as [|? ? W1 W2]; subst. cbn [fst snd] in *.
  rewrite !within_app. rewrite column_no_break by auto. split; [split; [exact WP|split; [|apply within_line_end; auto]]|].
  - apply within_shift; [apply len_nonneg|exact W1].
  - rewrite !column_app. destruct t as [|c t].
    + assert (ls = []).
      { specialize (Z eq_refl). subst. inversion HL; auto. exfalso. destruct b0; [destruct t; [simpl in *; congruence|discriminate]|discriminate]. }
      subst. simpl. auto.
    + rewrite column_line_end by (auto; discriminate). now apply IH.
Qed.
Close Scope Z_scope.
