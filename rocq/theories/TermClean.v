(** Renderers that add no styling make none. *)
From Verif Require SetSpec FormatFacts.
From Verif Require Import WrapFacts WrapLoop WrapWidth BaseFacts StrFacts LineFacts ElemFacts LayoutFacts.
From Verif Require Export TermLay.
Open Scope Z_scope.

Lemma reads_nil : forall x, reads x [] -> clean x.
Proof. intros x H. remember [] as l. induction H; [exact clean_nil| |discriminate]. intros [E|K]; [congruence|]. now apply IHreads. Qed.
Lemma all_read_nil : forall xs, all_read xs [] -> Forall clean xs.
Proof. induction xs as [|x xs IH]; intros H; [constructor|]. apply all_uncons in H as (l & m & R & A & E). symmetry in E. apply app_eq_nil in E as [-> ->]. constructor; [now apply reads_nil|auto]. Qed.
Lemma clean_cons : forall c x, clean (c :: x) <-> c <> 27%N /\ clean x.
Proof. intros c x. unfold clean. cbn [In]. intuition. Qed.
Lemma clean_repeat : forall c n, c <> 27%N -> clean (repeat c n).
Proof. intros c n N K. apply repeat_spec in K. congruence. Qed.
Lemma clean_sub : forall x y, clean y -> (forall c, In c x -> In c y) -> clean x.
Proof. intros x y C H K. apply C, H, K. Qed.
Lemma firstn_clean : forall n x, clean x -> clean (firstn n x).
Proof. intros n x C. apply (clean_sub _ x C). intros c I. rewrite <- (firstn_skipn n x), in_app_iff. now left. Qed.
Lemma strip_clean : forall x, clean x -> clean (strip x).
Proof. intros x H. apply reads_nil, strip_reads, reads_clean, H. Qed.
Lemma uint_clean : forall u, clean (uint_str u).
Proof. induction u; cbn [uint_str]; [exact clean_nil|..]; apply clean_cons; split; (discriminate || assumption). Qed.
Lemma int_clean : forall z, clean (str_of_Z z).
Proof. intros z. unfold str_of_Z. destruct (Z.to_int z); [apply uint_clean|]. apply clean_cons. split; [discriminate|apply uint_clean]. Qed.
Ltac clean_lit := vm_compute; intuition discriminate.

Section F.
Context `{U : Uni}.

(** ** Templates *)
Definition clean_arg (a : farg) : Prop := clean (FormatSpec.text_of a).
Lemma within_clean : forall a r b, FormatSpec.within a r b -> clean_arg a -> clean_arg b.
Proof. intros a r b H. induction H as [|s i n c r b SN NT W IH]; intros C; auto. apply IH. unfold clean_arg in *. cbn [FormatSpec.text_of] in *. apply (clean_sub _ s C). intros d [<-|[]]. now apply nth_error_In in NT. Qed.
Lemma dget_in : forall A k (d : dict A) v, dget k d = Some v -> exists k', In (k', v) d.
Proof. intros A k d v. induction d as [|[k' w] d IH]; cbn [dget]; [discriminate|]. destruct (seqb k k'); intros H; [injection H as <-; exists k'; now left|]. destruct (IH H) as (k2 & I). exists k2. now right. Qed.
Section A.
Variables (args : list farg) (kws : dict farg).
Hypothesis (CA : forall a, In a args -> clean_arg a) (CK : forall k a, In (k, a) kws -> clean_arg a).
Lemma picked_clean : forall m s a m', FormatSpec.picked args kws m s a m' -> clean_arg a.
Proof. intros m s a m' H. destruct H as [a N|k a N|m s n a M S N|m s a NE NN D]; try (apply CA; now apply nth_error_In in N). apply dget_in in D as (k & I). eauto. Qed.
Lemma valued_clean : forall m n a m', FormatSpec.valued args kws m n a m' -> clean_arg a.
Proof. intros m n a m' (f & r & b & _ & P & W). eapply within_clean; [exact W|]. eapply picked_clean; eauto. Qed.
Lemma converted_clean : forall c a b, FormatSpec.converted c a b -> clean_arg a -> clean_arg b.
Proof. intros c a b H. destruct H; auto. Qed.
Lemma fill_clean : forall spec l, FormatSpec.described spec l -> clean spec -> FormatSpec.fill_of l <> 27%N.
Proof.
  intros spec l (s1 & s2 & s3 & s4 & s5 & s6 & s7 & s8 & A & _) C. unfold FormatSpec.fill_of. destruct (FormatSpec.la_fill l) as [f|].
  - inversion A; subst. intros ->. apply C. now left.
  - destruct (FormatSpec.la_zero l); discriminate.
Qed.
Lemma columns_clean : forall f a w x out, f <> 27%N -> clean x -> FormatSpec.columns f a w x out -> clean out.
Proof. intros f a w x out N C (l & r & -> & _). apply clean_app. split; [now apply clean_repeat|]. apply clean_app. split; [exact C|now apply clean_repeat]. Qed.
Lemma digits_clean : forall b k n s, FormatSpec.in_digits b k n s -> clean s.
Proof.
  intros b k n s H. induction H as [n L|]; [|now apply clean_app]. intros [E|[]]. destruct k.
  - assert (X : forall m, (m <= 16)%nat -> nth m (lit "0123456789ABCDEF") 0%N <> 27%N) by (intros m L16; do 17 (destruct m as [|m]; [discriminate|]); lia).
    destruct (le_lt_dec (N.to_nat n) 16) as [L16|G]; [exact (X _ L16 E)|]. rewrite nth_overflow in E; [discriminate|]. change (length (lit "0123456789ABCDEF")) with 16%nat. lia.
  - assert (X : forall m, (m <= 16)%nat -> nth m (lit "0123456789abcdef") 0%N <> 27%N) by (intros m L16; do 17 (destruct m as [|m]; [discriminate|]); lia).
    destruct (le_lt_dec (N.to_nat n) 16) as [L16|G]; [exact (X _ L16 E)|]. rewrite nth_overflow in E; [discriminate|]. change (length (lit "0123456789abcdef")) with 16%nat. lia.
Qed.
Lemma presented_clean : forall a spec x, FormatSpec.presented a spec x -> clean spec -> clean_arg a -> clean x.
Proof.
  intros a spec x H CS C. destruct H as [a|s spec l out NE D TS TL|z spec l out NE D (_ & _ & _ & base & caps & prefix & body & NT & DG & R)]; [exact C| |].
  - unfold FormatSpec.text_laid in TL. eapply columns_clean; [exact (fill_clean _ _ D CS)| |exact TL]. destruct (FormatSpec.la_precision l); [now apply firstn_clean|exact C].
  - apply digits_clean in DG. pose proof (fill_clean _ _ D CS) as F.
    assert (P : clean prefix) by (unfold FormatSpec.number_type in NT; decompose [and or] NT; subst; clean_lit).
    assert (S : clean (FormatSpec.signed z (FormatSpec.la_sign l))).
    { unfold FormatSpec.signed. destruct (z <? 0); [clean_lit|]. destruct (FormatSpec.la_sign l) as [q|]; [|exact clean_nil].
      destruct q as [|q]; [exact clean_nil|]. repeat (destruct q as [q|q|]; try exact clean_nil); clean_lit. }
    assert (H : clean (FormatSpec.signed z (FormatSpec.la_sign l) ++ (if FormatSpec.la_alt l then prefix else []))) by (apply clean_app; split; [exact S|destruct (FormatSpec.la_alt l); [exact P|exact clean_nil]]).
    destruct R as [[_ R]|[_ (n & -> & _)]].
    + eapply columns_clean; [exact F| |exact R]. apply clean_app. split; assumption.
    + apply clean_app. split; [exact H|]. apply clean_app. split; [now apply clean_repeat|exact DG].
Qed.
Scheme given_mind := Minimality for FormatSpec.given Sort Prop with stands_mind := Minimality for FormatSpec.stands Sort Prop.
Lemma given_clean : forall k m t out m', FormatSpec.given args kws k m t out m' -> clean t -> clean out.
Proof.
  apply (given_mind U args kws (fun _ _ t out _ => clean t -> clean out) (fun _ _ p x _ => clean (FormatSpec.spec_of p) -> clean x)); intros.
  - exact clean_nil.
  - apply clean_cons in H2 as [N C]. apply clean_cons. auto.
  - apply clean_cons in H2 as [N C]. apply clean_cons in C as [_ C]. apply clean_cons. auto.
  - apply clean_app in H4 as [CP CT]. apply clean_app. split; [|auto]. apply H1. unfold FormatSpec.place_text in CP. unfold FormatSpec.spec_of. destruct (FormatSpec.pl_spec p); [|exact clean_nil].
    apply clean_app in CP as [_ CP]. apply clean_app in CP as [_ CP]. apply clean_app in CP as [_ CP]. apply clean_app in CP as [CP _]. now apply clean_cons in CP.
  - eapply presented_clean; [eassumption|assumption|]. eapply converted_clean; [eassumption|]. eapply valued_clean; eassumption.
  - eapply presented_clean; [eassumption|auto|]. eapply converted_clean; [eassumption|]. eapply valued_clean; eassumption.
Qed.
End A.
Lemma formats_clean : forall args kws t out, formats args kws t out -> Forall clean_arg args -> Forall (fun p => clean_arg (snd p)) kws -> clean t -> clean out.
Proof.
  intros args kws t out (m & G) A K. eapply given_clean; [| |exact G].
  - intros a I. rewrite Forall_forall in A. auto.
  - intros k a I. rewrite Forall_forall in K. exact (K (k, a) I).
Qed.
Lemma fills_clean : forall t x out, fills t x out -> clean t -> clean x -> clean out.
Proof. intros t x out H T X. eapply formats_clean; [exact H| |constructor|exact T]. repeat constructor. exact X. Qed.
Hypothesis (SC : sane_case).
Lemma cased_clean : forall b x, clean x -> clean (cased b x).
Proof.
  intros [] x C; [|exact C]. cbn [cased]. unfold upper. induction x as [|c x IH]; [exact clean_nil|]. apply clean_cons in C as [N C]. cbn [flat_map]. apply clean_app. split; [|auto].
  unfold upper_c. destruct (c <? 128)%N eqn:E; [|apply SC; now apply N.ltb_ge in E]. intros [K|[]]. destruct (is_lower_ascii c) eqn:L; [|congruence].
  unfold is_lower_ascii in L. apply andb_true_iff in L as [L1 _]. apply N.leb_le in L1. lia.
Qed.

(** ** Settings *)
Lemma clean_list : forall l, clean_value (VList l) <-> Forall clean_value l.
Proof. intros l. split; [|intros H; induction H; cbn in *; auto]. induction l as [|v l IH]; intros H; constructor; [apply H|apply IH, H]. Qed.
Lemma clean_tuple : forall l, clean_value (VTuple l) <-> Forall clean_value l.
Proof. intros l. split; [|intros H; induction H; cbn in *; auto]. induction l as [|v l IH]; intros H; constructor; [apply H|apply IH, H]. Qed.
Lemma clean_dict : forall d k v, clean_value (VDict d) -> dget k d = Some v -> clean_value v.
Proof. intros d k v. induction d as [|[k' w] d IH]; cbn [dget]; [discriminate|]. intros [C D] H. destruct (seqb k k'); [injection H as <-; exact C|exact (IH D H)]. Qed.
Lemma frame_borders : forall s x, clean_frame s -> wears s x -> clean_borders (dr_border x).
Proof.
  intros s x C (_ & _ & rest & B). unfold clean_borders. cbv zeta in B. destruct B as [B|B]; apply C in B; [apply clean_list in B|apply clean_tuple in B]; inversion B as [|? ? B1 Q1]; inversion Q1 as [|? ? B2 Q2]; inversion Q2 as [|? ? B3 Q3]; inversion Q3 as [|? ? B4 Q4]; subst; cbn in *; auto.
Qed.
Lemma settings_frame : forall s, clean_settings s -> clean_frame s.
Proof. intros s C v. apply C. Qed.
Lemma template_clean : forall s k t, clean_settings s -> template_set s k t -> clean t.
Proof. intros s k t C H. exact (C _ _ H). Qed.

(** ** Blocks *)
Lemma wrapper_plain : forall s cfg, wrapper_set s cfg -> w_max_lines cfg = None /\ clean (w_init cfg) /\ clean (w_subs cfg).
Proof. intros s cfg ((n & _ & E1) & (m & _ & E2) & _ & _ & _ & _ & _ & _ & _ & _ & M & _ & _). split; [exact M|]. rewrite E1, E2. split; apply spaces_clean. Qed.
Lemma set_clean : forall s cfg w text j y, wrapper_set s cfg -> SetSpec.set_text cfg w text j y -> clean text -> clean y.
Proof.
  intros s cfg w text j y W H C. destruct (wrapper_plain _ _ W) as (M & CI & CS). apply reads_nil. refine (set_reads cfg w text j y [] M CI CS _ H (reads_clean _ C)). right. intros qs TP. right. intros q I. left.
  pose proof (all_read_nil _ (pieces_reads _ _ _ _ TP (reads_clean _ C))) as F. rewrite Forall_forall in F. auto.
Qed.
Lemma dressed_clean : forall page x ls out, clean_borders (dr_border x) -> dressed page x ls out -> Forall clean ls -> clean out.
Proof. intros page x ls out B D F. apply reads_nil. refine (dressed_reads _ _ _ _ _ B D _). now apply all_clean. Qed.
Lemma split_clean : forall x, clean x -> Forall clean (split_on 10%N x).
Proof. intros x C. apply all_read_nil, split_all, reads_clean, C. Qed.
Lemma rows_clean : forall rows, Forall clean rows -> Forall clean (rows_of rows).
Proof. intros rows F. apply all_read_nil, rows_all, all_clean, F. Qed.
Lemma forall2_clean : forall (R : str -> str -> Prop) xs ys, (forall x y, R x y -> clean x -> clean y) -> Forall2 R xs ys -> Forall clean xs -> Forall clean ys.
Proof. intros R xs ys H F. induction F; intros C; inversion C; subst; constructor; eauto. Qed.
Lemma placed_clean : forall b w x out, placed b w x out -> clean x -> clean out.
Proof. intros [] w x out H C; [|now rewrite H]. apply reads_nil. exact (centred_reads _ _ _ _ H (reads_clean _ C)). Qed.
Lemma copies_clean : forall n x, clean x -> clean (copies n x).
Proof. intros n x C. unfold copies. induction n; cbn; [exact clean_nil|]. now apply clean_app. Qed.
Lemma spread_clean : forall n gap x, clean gap -> clean x -> clean (spread_by n gap x).
Proof.
  intros n gap x G C. unfold spread_by. destruct (0 <? n); [|exact C]. pose proof (copies_clean (Z.to_nat n) gap G) as K. induction x as [|c x IH]; [exact clean_nil|]. apply clean_cons in C as [N C]. cbn [spread_out]. destruct x; [apply clean_cons; auto|].
  apply clean_cons. split; [exact N|]. apply clean_app. auto.
Qed.
Lemma cut_clean : forall m x, clean x -> clean (cut_to m x).
Proof. intros m x C. unfold cut_to. apply clean_app. split; [now apply firstn_clean, strip_clean|]. destruct (m <? len x); [clean_lit|exact clean_nil]. Qed.

(** ** Targets *)
Definition clean_target (t : glink) : Prop := clean (gl_type t) /\ clean (gl_selector t) /\ forall x, gl_host t = Some x -> clean x.
Lemma clean_incl : forall a b : str, incl a b -> clean b -> clean a. Proof. intros a b I C K. exact (C (I _ K)). Qed.
Lemma part_incl : forall c s, incl (fst (fst (partition c s))) s /\ incl (snd (partition c s)) s.
Proof.
  intros c s. induction s as [|x s [I1 I2]]; [split; apply incl_refl|]. cbn [partition]. destruct (x =? c)%N; cbn [fst snd].
  - split; [intros y []|now apply incl_tl, incl_refl].
  - destruct (partition c s) as [[h f] t]. cbn [fst snd] in *. split; [|now apply incl_tl]. intros y [->|K]; [now left|right; auto].
Qed.
Lemma part_clean : forall c s, clean s -> clean (fst (fst (partition c s))) /\ clean (snd (partition c s)).
Proof. intros c s C. destruct (part_incl c s). split; eapply clean_incl; eauto. Qed.
Lemma rpart_clean : forall c s, clean s -> clean (fst (fst (rpartition c s))) /\ clean (snd (rpartition c s)).
Proof.
  intros c s C. unfold rpartition. assert (CR : clean (rev s)) by (intros K; now apply in_rev in K). destruct (part_clean c _ CR) as [A B]. destruct (partition c (rev s)) as [[h f] t]. cbn [fst snd] in *.
  assert (RV : forall x, clean x -> clean (rev x)) by (intros x X K; now apply in_rev in K). destruct f; cbn [fst snd]; auto using clean_nil.
Qed.
Lemma drop_incl : forall p s, incl (drop_while p s) s. Proof. intros p s. induction s as [|c s IH]; [apply incl_refl|]. cbn [drop_while]. destruct (p c); [now apply incl_tl|apply incl_refl]. Qed.
Lemma take_incl : forall p s, incl (take_while p s) s. Proof. intros p s. induction s as [|c s IH]; [apply incl_refl|]. cbn [take_while]. destruct (p c); [|intros y []]. intros y [->|K]; [now left|right; auto]. Qed.
Lemma lower_clean : forall s, clean s -> clean (lower s).
Proof.
  intros s C K. unfold lower in K. apply in_flat_map in K as (c & I & K). unfold lower_c in K. destruct (c <? 128)%N eqn:L.
  - destruct K as [K|[]]. destruct (is_upper_ascii c) eqn:E; [|subst c; contradiction]. unfold is_upper_ascii in E. apply andb_prop in E as [E1 E2]. apply N.leb_le in E1. lia.
  - apply N.ltb_ge in L. destruct (SC c L) as [_ X]. contradiction.
Qed.
Lemma guess_clean : forall x, clean (guess_type x).
Proof. intros x. unfold guess_type. destruct (rpartition 46 x) as [[h f] ext]. destruct h; [clean_lit|]. repeat match goal with |- context [if ?b then _ else _] => destruct b end; clean_lit. Qed.
Lemma params_clean : forall u, clean u -> clean (split_params u).
Proof.
  intros u C. unfold split_params. destruct (rpart_clean 47 u C) as [A B]. destruct (rpartition 47 u) as [[h f] t]. cbn [fst snd] in *. destruct f; [|now apply part_clean].
  apply clean_app. split; auto. apply clean_app. split; [clean_lit|now apply part_clean].
Qed.
Lemma urlparse_clean : forall u p, clean u -> urlparse u = Ok p -> clean (pu_netloc p) /\ clean (pu_path p).
Proof.
  intros u p C H. unfold urlparse in H.
  assert (C1 : clean (remove_char 10 (remove_char 13 (remove_char 9 (drop_while (fun c => (c <=? 32)%N) u))))).
  { intros K. unfold remove_char in K. apply filter_In in K as [K _]. apply filter_In in K as [K _]. apply filter_In in K as [K _]. exact (C (drop_incl _ _ _ K)). }
  revert H C1. generalize (remove_char 10 (remove_char 13 (remove_char 9 (drop_while (fun c => (c <=? 32)%N) u)))). intros u1 H C1.
  assert (C2 : clean (snd (split_scheme u1))).
  { unfold split_scheme. destruct (part_clean 58 u1 C1) as [A B]. destruct (partition 58 u1) as [[h f] t]. cbn [fst snd] in *. destruct h; [exact C1|]. destruct (f && _ && _); [exact B|exact C1]. }
  destruct (split_scheme u1) as [scheme u2]. cbn [snd] in C2.
  set (w := match u2 with 47%N :: 47%N :: r => let '(n, u) := split_netloc r in (n, u, true) | _ => ([], u2, false) end) in *.
  assert (CW : clean (fst (fst w)) /\ clean (snd (fst w))).
  { assert (D : w = ([], u2, false) \/ exists r, u2 = 47%N :: 47%N :: r /\ w = (fst (split_netloc r), snd (split_netloc r), true)).
    { subst w. repeat match goal with |- context [match ?x with _ => _ end] => is_var x; destruct x; auto end. right. eexists. split; [reflexivity|]. destruct (split_netloc u2); reflexivity. }
    destruct D as [->|(r & -> & ->)]; cbn [fst snd]; [split; auto using clean_nil|]. assert (CR : clean r) by (intros K; apply C2; now right; right).
    split; [eapply clean_incl; [apply take_incl|exact CR]|eapply clean_incl; [apply drop_incl|exact CR]]. }
  destruct w as [[netloc u3] hn]. cbn [fst snd] in CW. destruct CW as [CN CU]. destruct (xorb _ _); [discriminate|]. destruct (_ && _ && _); [discriminate|]. destruct (_ && _); [discriminate|]. injection H as <-. cbn [pu_netloc pu_path]. split; auto.
  assert (C5 : clean (fst (fst (partition 63 (fst (fst (partition 35 u3))))))) by (apply part_clean, part_clean, CU). destruct (_ && _); [now apply params_clean|exact C5].
Qed.
Lemma hostname_clean : forall n x, clean n -> hostname n = Some x -> clean x.
Proof.
  intros n x C H. unfold hostname in H.
  assert (C1 : clean (fst (hostinfo n))).
  { unfold hostinfo. destruct (rpart_clean 64 n C) as [_ C2]. destruct (part_clean 91 _ C2) as [_ C3]. destruct (partition 91 (snd (rpartition 64 n))) as [[h0 f] br]. cbn [snd] in C3. destruct f.
    - destruct (part_clean 93 _ C3) as [C4 _]. destruct (partition 93 br) as [[h1 f1] p1]. exact C4.
    - destruct (part_clean 58 _ C2) as [C4 _]. destruct (partition 58 (snd (rpartition 64 n))) as [[h1 f1] p1]. exact C4. }
  destruct (fst (hostinfo n)) as [|c r] eqn:E; [discriminate|]. destruct (part_clean 37 _ C1) as [A B]. destruct (partition 37 (c :: r)) as [[a f] z]. cbn [fst snd] in *. injection H as <-.
  apply clean_app. split; [now apply lower_clean|]. apply clean_app. split; [destruct f; clean_lit|exact B].
Qed.
Lemma target_clean : forall g to, clean (g_host g) -> (forall x, to = Some x -> clean x) -> clean_target (target g to).
Proof.
  intros g to CH CT. unfold target.
  assert (WB : forall x, clean x -> clean_target (web_link x (g_host g) (g_port g))).
  { intros x C. unfold clean_target, web_link. cbn [gl_type gl_selector gl_host]. split; [clean_lit|]. split; [apply clean_app; split; [clean_lit|exact C]|]. intros y E. injection E as <-. exact CH. }
  assert (NO : clean_target (GLink [] [] None None)) by (split; [apply clean_nil|split; [apply clean_nil|discriminate]]).
  destruct to as [h|]; cbn [parse_href]; [|apply WB; clean_lit]. specialize (CT h eq_refl). destruct (urlparse h) as [p|] eqn:EP; cbn [bind]; [|exact NO]. destruct (urlparse_clean _ _ CT EP) as [C1 C2].
  destruct (_ || _); [now apply WB|]. destruct (seqb (pu_scheme p) (lit "gopher")).
  - destruct (port (pu_netloc p)); cbn [bind]; [|exact NO]. split; [apply guess_clean|]. split; [exact C2|]. intros x. now apply hostname_clean.
  - destruct (seqb (pu_scheme p) []); [|now apply WB]. split; [apply guess_clean|]. split; [exact C2|]. intros x E. injection E as <-. exact CH.
Qed.

(** ** Elements *)
Definition clean_link (l : option linkctx) (e : option linkextra) : Prop :=
  forall e', e = Some e' -> (forall x, le_href e' = Some x -> clean x) /\ (forall x, le_title e' = Some x -> clean x) /\ clean_target (le_gopher e').
Lemma shown_clean : forall o, (forall x, o = Some x -> clean x) -> clean_arg (DressSpec.shown o).
Proof. intros [x|] H; [exact (H x eq_refl)|]. unfold clean_arg. clean_lit. Qed.
Lemma title_clean : forall e', (forall x, le_title e' = Some x -> clean x) -> forall t, title_of e' = Some t -> clean t.
Proof. intros e' H t T. unfold title_of in T. destruct (le_title e') as [[|c x]|] eqn:E; try discriminate. injection T as <-. now apply H. Qed.
Lemma image_clean : forall e, (forall e', e = Some e' -> forall x, le_title e' = Some x -> clean x) -> clean (image_title e).
Proof. intros [e|] H; cbn [image_title]; [|clean_lit]. destruct (title_of e) eqn:E; [|clean_lit]. exact (title_clean _ (H e eq_refl) _ E). Qed.
Lemma fint_clean : forall z, clean_arg (FInt z). Proof. intros z. unfold clean_arg. cbn. apply int_clean. Qed.
Lemma listing_clean : forall c n h t, clean c -> (forall x, h = Some x -> clean x) -> (forall x, t = Some x -> clean x) -> Forall (fun p => clean_arg (snd p)) (listing_fields c n h t).
Proof.
  intros c n h t C H T. unfold listing_fields. constructor; [exact C|]. constructor; [apply fint_clean|]. constructor; [now apply shown_clean|]. destruct t as [t|]; [|constructor]. constructor; [exact (T t eq_refl)|constructor].
Qed.
Lemma menu_clean : forall c n t, clean c -> clean_target t -> Forall (fun p => clean_arg (snd p)) (menu_fields c n t).
Proof.
  intros c n t C (T1 & T2 & T3). unfold menu_fields. repeat apply Forall_cons; cbn [snd]; auto; [apply fint_clean|now apply shown_clean|]. destruct (gl_port t); [apply fint_clean|]. unfold clean_arg. clean_lit.
Qed.
Theorem picture_clean : forall tg a kids pre s page l e content k out, picture tg a kids pre s page l e content k out ->
  unstyling k -> clean_settings s -> clean_link l e -> clean content -> clean out.
Proof.
  intros tg a kids pre s page l e content k out H UN CS CE C. pose proof (fun x => frame_borders s x (settings_frame _ CS)) as FB. pose proof (fun k t => template_clean s k t CS) as TC.
  pose proof (fun b => cased_clean b content C) as CC.
  destruct H; cbn [unstyling] in UN; try contradiction.
  - exact C.
  - exact clean_nil.
  - eapply fills_clean; eauto.
  - exact C.
  - eapply fills_clean; [eassumption| |exact C]. destruct (has_char 10%N content); eauto.
  - eapply fills_clean; [eassumption|eauto|]. eapply fills_clean; [eassumption|eauto|clean_lit].
  - match goal with X : link_templates _ _ _ _ |- _ => destruct X as (tp & rest & DT & DI & DR) end. apply CS in DT. pose proof (clean_dict _ _ _ DT DI) as LI. pose proof (clean_dict _ _ _ DT DR) as CR. apply clean_list in LI. inversion LI as [|? ? CP L2]; subst. inversion L2 as [|? ? CT L3]; subst.
    assert (CX : clean x) by (eapply fills_clean; [eassumption|eauto|apply CC]). apply (cased_clean caps) in CX.
    match goal with X : if seqb (lc_link_placement l') (lit "inline") then _ else _ |- _ => destruct (seqb (lc_link_placement l') (lit "inline")); [destruct X as (e' & -> & X); destruct (CE e' eq_refl) as (CH & CTI & CG); destruct (title_of e') as [title|] eqn:ET|]; eapply formats_clean; try exact X; try constructor end;
      try exact CP; try exact CT; try exact CR; try exact CX; repeat constructor; try exact CX; cbn [snd]; try (apply shown_clean; assumption); try apply fint_clean. exact (title_clean _ CTI _ ET).
  - match goal with X : image_templates _ _ _ |- _ => destruct X as (tp & DT & DI & DR) end. apply CS in DT. pose proof (clean_dict _ _ _ DT DI) as CP. pose proof (clean_dict _ _ _ DT DR) as CR.
    match goal with X : if seqb (lc_image_placement l') (lit "inline") then _ else _ |- _ => destruct (seqb (lc_image_placement l') (lit "inline")); [destruct X as (e' & -> & X); destruct (CE e' eq_refl) as (CH & CTI & CG)|]; eapply formats_clean; try exact X; try constructor end;
      try exact CP; try exact CR; repeat constructor; cbn [snd]; try (apply shown_clean; assumption); try apply fint_clean; apply image_clean; intros; try (match goal with X : Some _ = Some _ |- _ => injection X as <- end; auto; fail). match goal with X : e = Some _ |- _ => now apply (proj1 (proj2 (CE _ X))) end.
  - eapply dressed_clean; [eauto|eassumption|now apply split_clean].
  - eapply dressed_clean; [eauto|eassumption|]. apply split_clean.
    match goal with X : heading_set _ _ |- _ => destruct X as (HT & HC & HS & HG & HE & HU) end. match goal with X : heading _ _ _ _ |- _ => destruct X as (text & FT & R) end.
    assert (CT : clean text) by (eapply fills_clean; [exact FT|eauto|]; apply spread_clean; [exact (CS _ _ HG)|apply CC]).
    destruct (hs_underline h) as [[full u]|]; [|eapply placed_clean; eauto]. destruct R as (l1 & l2 & P1 & P2 & ->). destruct HU as (_ & _ & HU). apply clean_app. split; [eapply placed_clean; eauto|]. apply clean_app. split; [clean_lit|].
    eapply placed_clean; [exact P2|]. apply copies_clean. exact (CS _ _ HU).
  - eapply dressed_clean; [eauto|eassumption|]. apply rows_clean.
    match goal with X : laid_out _ _ _ _ _ |- _ => destruct X as (parts & FA & ->) end. match goal with X : Forall2 (fills t) _ _ |- _ => eapply (forall2_clean _ _ _ _ X) end.
    apply rows_clean. eapply (forall2_clean _ _ _ _ FA). now apply split_clean. Unshelve. all: cbv beta.
    + intros x0 y0 F0 C0. eapply fills_clean; eauto.
    + intros x0 y0 F0 C0. eapply set_clean; [eassumption|exact F0|now apply strip_clean].
  - eapply dressed_clean; [eauto|eassumption|now apply split_clean].
  - eapply dressed_clean; [eauto|eassumption|]. apply rows_clean. match goal with X : Forall2 _ (splitlines false content) _ |- _ => eapply (forall2_clean _ _ _ _ X) end. apply all_read_nil, splitlines_all, reads_clean, C. Unshelve.
    cbv beta. intros x0 y0 (y & F0 & ->) C0. apply clean_app. split; [apply spaces_clean|]. eapply fills_clean; eauto.
  - eapply dressed_clean; [eauto|eassumption|]. apply rows_clean. match goal with X : Forall2 _ (splitlines false content) _ |- _ => eapply (forall2_clean _ _ _ _ X) end. apply all_read_nil, splitlines_all, reads_clean, C. Unshelve.
    intros x0 y0 F0 C0. eapply fills_clean; eauto.
  - eapply dressed_clean; [eauto|eassumption|]. apply rows_clean.
    assert (CY : clean y) by (eapply set_clean; [eassumption|eassumption|apply CC]). apply split_clean in CY. match goal with X : split_on 10%N y = _ |- _ => rewrite X in CY end. inversion CY as [|? ? C1 C2]; subst. constructor; [eapply fills_clean; eauto|].
    apply Forall_forall. intros z I. apply in_map_iff in I as (z' & <- & I). apply clean_app. split; [apply spaces_clean|]. rewrite Forall_forall in C2. auto.
  - subst. destruct (CE _ eq_refl) as (CH & CT & CG). eapply dressed_clean; [eauto|eassumption|]. apply split_clean.
    match goal with X : listing_templates _ _ _ |- _ => destruct X as (rest & DT) end. apply CS, clean_list in DT. inversion DT as [|? ? CP L2]; subst. inversion L2 as [|? ? CTT L3]; subst.
    eapply formats_clean; [eassumption|constructor| |destruct (title_of e'); [exact CTT|exact CP]]. apply listing_clean; [now apply cut_clean|exact CH|exact (title_clean _ CT)].
  - subst. destruct (CE _ eq_refl) as (CH & CT & CG). apply clean_app. split; [apply newlines_clean|]. apply clean_app. split; [|apply newlines_clean]. eapply formats_clean; [eassumption|constructor| |eauto]. apply menu_clean; auto.
    destruct (le_title e') as [ti|] eqn:ET; [now apply CT|now apply cut_clean].
  - subst. destruct (CE _ eq_refl) as (CH & CT & CG). eapply dressed_clean; [eauto|eassumption|]. apply split_clean.
    match goal with X : listing_templates _ _ _ |- _ => destruct X as (rest & DT) end. apply CS, clean_list in DT. inversion DT as [|? ? CP L2]; subst. inversion L2 as [|? ? CTT L3]; subst.
    assert (IT : clean (image_title (Some e'))) by (apply image_clean; intros e2 E2; injection E2 as <-; exact CT).
    match goal with X : let title := _ in _ |- _ => cbv zeta in X; destruct (seqb (lc_format l') (lit "gophermap")) eqn:EG; [|destruct (m <? len (image_title (Some e')))]; (eapply formats_clean; [exact X|constructor| |]) end; try exact CTT; try exact CP; eauto; try (apply menu_clean; auto; now apply cut_clean);
      apply listing_clean; try (now apply cut_clean); try exact CH; intros; try discriminate. match goal with X : Some _ = Some _ |- _ => injection X as <- end. exact IT.
Qed.
End F.
Close Scope Z_scope.
