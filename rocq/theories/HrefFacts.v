(** The parts of an href are what the code cuts out. *)
From Verif Require Import BaseFacts StrFacts UrlFacts.
From Verif Require Export HrefSpec.
Open Scope N_scope.

Lemma app_cut : forall (c : N) a b a' b', ~ In c a -> ~ In c a' -> a ++ c :: b = a' ++ c :: b' -> a = a' /\ b = b'.
Proof.
  intros c a b a' b' H H' E. pose proof (partition_at c a b H) as P. rewrite E, (partition_at c a' b' H') in P. now injection P as -> ->.
Qed.
Lemma before_iff : forall c s a, before c s a <-> fst (fst (partition c s)) = a.
Proof.
  intros c s a. unfold before. split.
  - intros [N [->|(b & ->)]]; [now rewrite partition_none|now rewrite partition_at].
  - destruct (partition_spec c s) as [[N ->]|(x & y & -> & N & ->)]; cbn [fst]; intros <-; eauto.
Qed.
Lemma after_iff : forall c s b, after c s b <-> snd (partition c s) = b.
Proof.
  intros c s b. unfold after. split.
  - intros [[N ->]|(a & N & ->)]; [now rewrite partition_none|now rewrite partition_at].
  - destruct (partition_spec c s) as [[N ->]|(x & y & -> & N & ->)]; cbn [snd]; intros <-; eauto.
Qed.
Lemma rpartition_spec : forall c s, (~ In c s /\ rpartition c s = ([], false, s))
  \/ exists a b, s = a ++ c :: b /\ ~ In c b /\ rpartition c s = (a, true, b).
Proof.
  intros c s. destruct (partition_spec c (rev s)) as [[N _]|(a & b & E & N & _)].
  - left. rewrite <- in_rev in N. split; auto. now apply rpartition_none.
  - right. exists (rev b), (rev a). assert (E' : s = rev b ++ c :: rev a) by (rewrite <- (rev_involutive s), E, rev_app_distr; cbn [rev]; now rewrite <- app_assoc).
    rewrite in_rev in N. split; auto. split; auto. rewrite E'. now apply rpartition_at.
Qed.

Section Href.
Context `{U : Uni}.

Lemma filter_filter : forall A (f g : A -> bool) l, filter f (filter g l) = filter (fun x => g x && f x)%bool l.
Proof. intros A f g. induction l as [|x l IH]; cbn [filter]; auto. destruct (g x); cbn [filter andb]; [destruct (f x)|]; now rewrite IH. Qed.
Lemma drop_parts : forall (f : N -> bool) s, exists l, s = l ++ drop_while f s /\ Forall (fun c => f c = true) l /\ forall c r, drop_while f s = c :: r -> f c = false.
Proof.
  intros f. induction s as [|x s (l & E & F & H)]; cbn [drop_while]; [exists []; repeat split; auto; discriminate|].
  destruct (f x) eqn:FX.
  - exists (x :: l). split; [cbn [app]; now rewrite <- E|]. auto.
  - exists []. repeat split; auto. intros c r Q. now injection Q as <- _.
Qed.
Lemma drop_at : forall (f : N -> bool) l r, Forall (fun c => f c = true) l -> (forall c t, r = c :: t -> f c = false) -> drop_while f (l ++ r) = r.
Proof.
  intros f l r F H. induction F as [|x l FX F IH]; cbn [app drop_while]; [|now rewrite FX]. destruct r as [|c r]; [reflexivity|]. cbn [drop_while]. now rewrite (H c r eq_refl).
Qed.
Definition tidy (h : str) : str := remove_char 10 (remove_char 13 (remove_char 9 (drop_while (fun c => c <=? 32) h))).
Lemma tidied_iff : forall h u, tidied h u <-> tidy h = u.
Proof.
  intros h u. unfold tidy, remove_char. rewrite !filter_filter.
  assert (E : forall l : str, filter (fun x => negb (x =? 9) && negb (x =? 13) && negb (x =? 10))%bool l = filter (fun c => negb (existsb (N.eqb c) [9; 10; 13])) l).
  { intros l. apply filter_ext. intros x. cbn [existsb]. destruct (x =? 9), (x =? 10), (x =? 13); reflexivity. }
  assert (E' : filter (fun x => negb (x =? 9) && (negb (x =? 13) && negb (x =? 10)))%bool (drop_while (fun c => c <=? 32) h) = filter (fun c => negb (existsb (N.eqb c) [9; 10; 13])) (drop_while (fun c => c <=? 32) h)).
  { apply filter_ext. intros x. cbn [existsb]. destruct (x =? 9), (x =? 10), (x =? 13); reflexivity. }
  unfold tidied. split.
  - intros (lead & rest & -> & F & H & ->). rewrite drop_at.
    + rewrite <- E. apply filter_ext. intros x. destruct (x =? 9), (x =? 10), (x =? 13); reflexivity.
    + eapply Forall_impl; [|exact F]. intros c C. now apply N.leb_le.
    + intros c t Q. apply N.leb_gt. eauto.
  - intros <-. destruct (drop_parts (fun c => c <=? 32) h) as (l & Q & F & H). exists l, (drop_while (fun c => c <=? 32) h). split; auto. split; [eapply Forall_impl; [|exact F]; intros c C; now apply N.leb_le|].
    split; [intros c r R; apply N.leb_gt; eauto|]. apply filter_ext. intros x. cbn [existsb]. destruct (x =? 9), (x =? 10), (x =? 13); reflexivity.
Qed.
Lemma schemed_iff : forall u s r, schemed u s r <-> split_scheme u = (s, r).
Proof.
  intros u s r. unfold schemed. split.
  - intros [(w & W & ->)|(N & -> & ->)]; [now apply split_scheme_some|now apply split_scheme_none].
  - intros E. unfold split_scheme in E. destruct (partition_spec 58 u) as [[N P]|(a & b & Q & N & P)]; rewrite P in E.
    + right. split; [intros w r' [X _]; apply N; rewrite X; apply in_or_app; right; now left|]. destruct u; injection E as <- <-; auto.
    + assert (D : (forall w r, ~ with_scheme u w r) \/ with_scheme u a b /\ exists c t, a = c :: t /\ (is_alpha_ascii c && forallb scheme_char a)%bool = true).
      { destruct a as [|c t].
        - left. intros w r' [X Y]. destruct Y as (c & t & -> & L & _). rewrite Q in X. cbn [app] in X. injection X as <- _. destruct L; lia.
        - destruct (is_alpha_ascii c && forallb scheme_char (c :: t))%bool eqn:B.
          + right. split; [split; auto; now apply scheme_bool|eauto].
          + left. intros w r' [X Y]. pose proof (scheme_no_colon w Y) as NW. rewrite Q in X. apply app_cut in X as [<- <-]; auto. apply scheme_bool in Y. congruence. }
      destruct D as [D|(W & c & t & A & B)].
      * right. split; auto. destruct a as [|c t]; [injection E as <- <-; auto|]. cbn [andb] in E. destruct (is_alpha_ascii c && forallb scheme_char (c :: t))%bool eqn:B; [|injection E as <- <-; auto].
        exfalso. apply (D (c :: t) b). split; auto. now apply scheme_bool.
      * left. subst a. cbn [andb] in E. rewrite B in E. injection E as <- <-. eauto.
Qed.
Lemma delim_iff : forall c, netloc_delim c = true <-> ends_authority c.
Proof. intros c. unfold netloc_delim, ends_authority. rewrite !orb_true_iff, !N.eqb_eq. tauto. Qed.
Lemma authority_other : forall u, (forall r, u <> 47 :: 47 :: r) -> authority u = ([], u, false).
Proof.
  intros u H. unfold authority. destruct u as [|a [|b r]]; auto.
  - destruct a as [|[[[[[[]|[]|]|[[]|[]|]|]|[[]|[]|]|]|[[]|[]|]|]|[[]|[]|]|]]; reflexivity.
  - destruct (N.eq_dec a 47) as [->|NA]; [destruct (N.eq_dec b 47) as [->|NB]|].
    + now destruct (H r).
    + destruct b as [|[[[[[[]|[]|]|[[]|[]|]|]|[[]|[]|]|]|[[]|[]|]|]|[[]|[]|]|]]; try reflexivity; congruence.
    + destruct a as [|[[[[[[]|[]|]|[[]|[]|]|]|[[]|[]|]|]|[[]|[]|]|]|[[]|[]|]|]]; try reflexivity; congruence.
Qed.
Lemma take_drop_at : forall (f : N -> bool) l r, Forall (fun c => f c = true) l -> (forall c t, r = c :: t -> f c = false) -> take_while f (l ++ r) = l.
Proof.
  intros f l r F H. induction F as [|x l FX F IH]; cbn [app take_while]; [|rewrite FX; now f_equal]. destruct r as [|c r]; [reflexivity|]. cbn [take_while]. now rewrite (H c r eq_refl).
Qed.
Lemma take_drop : forall (f : N -> bool) s, s = take_while f s ++ drop_while f s /\ Forall (fun c => f c = true) (take_while f s) /\ forall c r, drop_while f s = c :: r -> f c = false.
Proof.
  intros f. induction s as [|x s (E & F & H)]; cbn [take_while drop_while]; [repeat split; auto; discriminate|].
  destruct (f x) eqn:FX; [cbn [app]; rewrite <- E; auto|]. repeat split; auto. intros c r Q. now injection Q as <- _.
Qed.
Lemma slashes_dec : forall u : str, (exists r, u = 47 :: 47 :: r) \/ forall r, u <> 47 :: 47 :: r.
Proof.
  intros [|a [|b r]]; try (right; intros r' E; discriminate).
  destruct (N.eq_dec a 47) as [->|NA]; [destruct (N.eq_dec b 47) as [->|NB]|]; [left; eauto|right; congruence..].
Qed.
Lemma authority_iff : forall u n t, has_authority u n t <-> fst (authority u) = (n, t).
Proof.
  intros u n t. unfold has_authority. change (lit "//") with [47; 47]. cbn [app]. destruct (slashes_dec u) as [(r & ->)|H].
  - unfold authority, split_netloc. cbn [fst]. set (f := fun c => negb (netloc_delim c)). destruct (take_drop f r) as (E & F & H). split.
    + intros [(Q & FN & HT)|(Q & _)]; [|now destruct (Q r)]. injection Q as ->. rewrite take_drop_at, drop_at; auto.
      * eapply Forall_impl; [|exact FN]. intros c C. unfold f. apply negb_true_iff. destruct (netloc_delim c) eqn:D; auto. apply delim_iff in D. contradiction.
      * intros c t' Q. unfold f. apply negb_false_iff. apply delim_iff. eauto.
      * eapply Forall_impl; [|exact FN]. intros c C. unfold f. apply negb_true_iff. destruct (netloc_delim c) eqn:D; auto. apply delim_iff in D. contradiction.
      * intros c t' Q. unfold f. apply negb_false_iff. apply delim_iff. eauto.
    + intros Q. injection Q as <- <-. left. split; [now rewrite <- E|]. split.
      * eapply Forall_impl; [|exact F]. unfold f. intros c C D. apply delim_iff in D. rewrite D in C. discriminate.
      * intros c r' Q. apply delim_iff. apply H in Q. unfold f in Q. now apply negb_false_iff in Q.
  - rewrite (authority_other u H). cbn [fst]. split.
    + intros [(Q & _)|(_ & -> & ->)]; [now destruct (H _ Q)|reflexivity].
    + intros Q. injection Q as <- <-. auto.
Qed.
Definition bad (n : str) : bool :=
  xorb (has_char 91 n) (has_char 93 n)
  || (has_char 91 n && has_char 93 n && negb (u_bracket_ok (fst (fst (partition 93 (snd (partition 91 n)))))))
  || (negb (is_ascii n) && u_nfkc_bad n).
Lemma ascii_iff : forall n, is_ascii n = false <-> exists c, In c n /\ 128 <= c.
Proof.
  intros n. unfold is_ascii. split.
  - intros H. induction n as [|c n IH]; [discriminate|]. cbn [forallb] in H. apply andb_false_iff in H as [H|H].
    + apply N.ltb_ge in H. exists c. cbn. auto.
    + destruct (IH H) as (x & X & L). exists x. cbn. auto.
  - intros (c & I & L). destruct (forallb (fun c => c <? 128) n) eqn:E; auto. rewrite forallb_forall in E. apply E in I. apply N.ltb_lt in I. lia.
Qed.
Lemma has_dec : forall c n, has_char c n = true /\ In c n \/ has_char c n = false /\ ~ In c n.
Proof. intros c n. destruct (has_char c n) eqn:E; [left; split; auto; now apply has_char_iff|right; split; auto; intros I; apply has_char_iff in I; congruence]. Qed.
Lemma refused_iff : forall n, refused n <-> bad n = true.
Proof.
  intros n. unfold refused, bad. rewrite !orb_true_iff, !andb_true_iff, !negb_true_iff, ascii_iff.
  assert (X : (exists r b, after 91 n r /\ before 93 r b /\ u_bracket_ok b = false) <-> u_bracket_ok (fst (fst (partition 93 (snd (partition 91 n))))) = false).
  { split.
    - intros (r & b & A & B & O). apply after_iff in A. apply before_iff in B. now subst.
    - intros O. eexists _, _. split; [now apply after_iff|]. split; [now apply before_iff|exact O]. }
  rewrite X. clear X. destruct (has_dec 91 n) as [[-> H1]|[-> H1]], (has_dec 93 n) as [[-> H3]|[-> H3]]; cbn [xorb]; intuition discriminate.
Qed.
Lemma parameters_same : forall s, smem s uses_params = true <-> exists w, In w with_parameters /\ s = lit w.
Proof.
  intros s. rewrite smem_In. unfold uses_params. rewrite in_map_iff. split; intros (w & H1 & H2); exists w; auto.
Qed.
Lemma split_params_iff : forall p0 p, (exists dir name name', last_component p0 dir name /\ before 59 name name' /\ p = dir ++ name') <-> (if has_char 59 p0 then split_params p0 else p0) = p.
Proof.
  intros p0 p.
  assert (LC : forall dir name, last_component p0 dir name <-> (dir, name) = let '(h, f, t) := rpartition 47 p0 in ((if f then h ++ [47] else []), t)).
  { intros dir name. unfold last_component. destruct (rpartition_spec 47 p0) as [[N ->]|(a & b & -> & N & ->)].
    - split.
      + intros (E & M & [->|(d & ->)]); [now rewrite E|]. elim N. rewrite E. apply in_or_app. left. apply in_or_app. right. now left.
      + intros E. injection E as -> ->. auto.
    - split.
      + intros (E & M & [->|(d & ->)]).
        * cbn [app] in E. elim M. rewrite <- E. apply in_or_app. right. now left.
        * rewrite <- app_assoc in E. cbn [app] in E. pose proof (rpartition_at 47 a b N) as P. rewrite E, (rpartition_at 47 d name M) in P. now injection P as -> ->.
      + intros E. injection E as -> ->. rewrite <- app_assoc. split; auto. split; auto. right. now exists a. }
  assert (S : (exists dir name name', last_component p0 dir name /\ before 59 name name' /\ p = dir ++ name') <-> split_params p0 = p).
  { unfold split_params. destruct (rpartition 47 p0) as [[h f] t] eqn:R. split.
    - intros (dir & name & name' & L & B & ->). apply LC in L. injection L as -> ->. apply before_iff in B. subst name'. destruct f; [now rewrite <- app_assoc|].
      cbn [app]. destruct (rpartition_spec 47 p0) as [[N Q]|(a & b & _ & N & Q)]; rewrite R in Q; [now injection Q as -> ->|discriminate].
    - intros <-. destruct f.
      + exists (h ++ [47]), t, (fst (fst (partition 59 t))). split; [now apply LC|]. split; [now apply before_iff|]. now rewrite <- app_assoc.
      + exists [], t, (fst (fst (partition 59 t))). split; [now apply LC|]. split; [now apply before_iff|]. cbn [app].
        destruct (rpartition_spec 47 p0) as [[N Q]|(a & b & _ & N & Q)]; rewrite R in Q; [now injection Q as -> ->|discriminate]. }
  rewrite S. destruct (has_dec 59 p0) as [[-> _]|[-> H]]; [reflexivity|].
  assert (E : split_params p0 = p0); [|now rewrite E].
  unfold split_params. destruct (rpartition_spec 47 p0) as [[N ->]|(a & b & -> & N & ->)]; rewrite partition_none; auto.
  intros I. apply H. apply in_or_app. right. now right.
Qed.
Lemma path_then_iff : forall t p, path_then t p <-> fst (fst (partition 63 (fst (fst (partition 35 t))))) = p.
Proof.
  intros t p. split; [apply path_cut|]. intros <-. destruct (partition_spec 35 t) as [[N ->]|(a & b & -> & N & ->)]; cbn [fst].
  - destruct (partition_spec 63 t) as [[M ->]|(x & y & -> & M & ->)]; cbn [fst].
    + exists []. rewrite app_nil_r. auto.
    + exists (63 :: y). split; auto. split; auto. split; [intros I; apply N; apply in_or_app; now left|]. right. eauto.
  - destruct (partition_spec 63 a) as [[M ->]|(x & y & -> & M & ->)]; cbn [fst].
    + exists (35 :: b). split; auto. split; auto. split; auto. right. eauto.
    + exists ((63 :: y) ++ 35 :: b). split; [now rewrite <- app_assoc|]. split; auto. split; [intros I; apply N; apply in_or_app; now left|]. right. cbn [app]. eauto.
Qed.
Definition the_path (s t : str) : str :=
  let p0 := fst (fst (partition 63 (fst (fst (partition 35 t))))) in
  if smem s uses_params && has_char 59 p0 then split_params p0 else p0.
Lemma path_of_iff : forall s t p, path_of s t p <-> the_path s t = p.
Proof.
  intros s t p. unfold path_of, the_path. cbv zeta. split.
  - intros (p0 & P & H). apply path_then_iff in P. rewrite P. destruct H as [[W H]|[W ->]].
    + apply parameters_same in W. rewrite W. cbn [andb]. now apply split_params_iff.
    + destruct (smem s uses_params) eqn:E; [|reflexivity]. apply parameters_same in E as (w & E & ->). elim (W w E eq_refl).
  - set (p0 := fst (fst (partition 63 (fst (fst (partition 35 t)))))). intros H. exists p0. split; [now apply path_then_iff|].
    destruct (smem s uses_params) eqn:E; cbn [andb] in H.
    + left. split; [now apply parameters_same|]. now apply split_params_iff.
    + right. split; auto. intros w W ->. assert (smem (lit w) uses_params = true) by (apply parameters_same; eauto). congruence.
Qed.
Lemma urlparse_is : forall h, urlparse h = let '(s, r) := split_scheme (tidy h) in let '(n, t, _) := authority r in
  if bad n then Err EValue else Ok (PUrl s n (the_path s t)).
Proof.
  intros h. unfold urlparse. fold (tidy h). destruct (split_scheme (tidy h)) as [s r]. change (match r with 47 :: 47 :: r0 => let '(n, u) := split_netloc r0 in (n, u, true) | _ => ([], r, false) end) with (authority r). destruct (authority r) as [[n t] b]. unfold bad.
  destruct (xorb _ _); [reflexivity|]. cbn [orb]. destruct (_ && _)%bool; [reflexivity|]. cbn [orb]. destruct (_ && _)%bool; reflexivity.
Qed.

(** ** Host and port *)
Lemma without_user_iff : forall n h, without_user n h <-> snd (rpartition 64 n) = h.
Proof.
  intros n h. unfold without_user. split.
  - intros [[N ->]|(u & -> & N)]; [now rewrite rpartition_none|now rewrite rpartition_at].
  - destruct (rpartition_spec 64 n) as [[N ->]|(a & b & -> & N & ->)]; cbn [snd]; intros <-; eauto.
Qed.
Lemma found_iff : forall c s, snd (fst (partition c s)) = true <-> In c s.
Proof.
  intros c s. destruct (partition_spec c s) as [[N ->]|(a & b & -> & N & ->)]; cbn [fst snd]; split; intros H; try discriminate; try contradiction; auto.
  apply in_or_app. right. now left.
Qed.
Lemma host_text_iff : forall n h, host_text n h <-> fst (hostinfo n) = h.
Proof.
  intros n h. unfold host_text, hostinfo. set (hp := snd (rpartition 64 n)). pose proof (found_iff 91 hp) as FI. pose proof (after_iff 91 hp) as AI.
  destruct (partition 91 hp) as [[a f] r] eqn:P. cbn [fst snd] in *.
  assert (X : (exists hp0, without_user n hp0 /\ (~ In 91 hp0 /\ before 58 hp0 h \/ In 91 hp0 /\ (exists r0, after 91 hp0 r0 /\ before 93 r0 h)))
    <-> (~ In 91 hp /\ before 58 hp h \/ In 91 hp /\ (exists r0, after 91 hp r0 /\ before 93 r0 h))).
  { split; [intros (hp0 & W & H); apply without_user_iff in W; subst hp0; exact H|]. intros H. exists hp. split; [now apply without_user_iff|exact H]. }
  rewrite X. clear X. destruct f.
  - assert (I : In 91 hp) by now apply FI. destruct (partition 93 r) as [[h' f'] p'] eqn:Q. cbn [fst].
    split.
    + intros [[N _]|(_ & r0 & A & B)]; [contradiction|]. apply AI in A. subst r0. apply before_iff in B. rewrite Q in B. exact B.
    + intros <-. right. split; auto. exists r. split; [now apply AI|]. apply before_iff. now rewrite Q.
  - assert (I : ~ In 91 hp) by (intros I; apply FI in I; discriminate). destruct (partition 58 hp) as [[h' f'] p'] eqn:Q. cbn [fst]. split.
    + intros [[_ B]|[J _]]; [|contradiction]. apply before_iff in B. rewrite Q in B. exact B.
    + intros <-. left. split; auto. apply before_iff. now rewrite Q.
Qed.
Definition port_str (n : str) : str := match snd (hostinfo n) with None => [] | Some p => p end.
Lemma port_text_iff : forall n p, port_text n p <-> port_str n = p.
Proof.
  intros n p. unfold port_text, port_str, hostinfo. set (hp := snd (rpartition 64 n)). pose proof (found_iff 91 hp) as FI. pose proof (after_iff 91 hp) as AI.
  destruct (partition 91 hp) as [[a f] r] eqn:P. cbn [fst snd] in *.
  assert (X : (exists hp0, without_user n hp0 /\ (~ In 91 hp0 /\ after 58 hp0 p \/ In 91 hp0 /\ (exists r0 q, after 91 hp0 r0 /\ after 93 r0 q /\ after 58 q p)))
    <-> (~ In 91 hp /\ after 58 hp p \/ In 91 hp /\ (exists r0 q, after 91 hp r0 /\ after 93 r0 q /\ after 58 q p))).
  { split; [intros (hp0 & W & H); apply without_user_iff in W; subst hp0; exact H|]. intros H. exists hp. split; [now apply without_user_iff|exact H]. }
  rewrite X. clear X. assert (K : forall q : str, match match q with [] => None | _ :: _ => Some q end with Some p => p | None => [] end = q) by (now intros []).
  destruct f.
  - assert (I : In 91 hp) by now apply FI. destruct (partition 93 r) as [[h' f'] p'] eqn:Q. cbn [snd]. rewrite K.
    split.
    + intros [[N _]|(_ & r0 & q & A & B & C)]; [contradiction|]. apply AI in A. subst r0. apply after_iff in B. rewrite Q in B. cbn [snd] in B. subst q. now apply after_iff.
    + intros <-. right. split; auto. exists r, p'. split; [now apply AI|]. split; apply after_iff; [now rewrite Q|reflexivity].
  - assert (I : ~ In 91 hp) by (intros I; apply FI in I; discriminate). destruct (partition 58 hp) as [[h' f'] p'] eqn:Q. cbn [snd]. rewrite K. split.
    + intros [[_ B]|[J _]]; [|contradiction]. apply after_iff in B. rewrite Q in B. exact B.
    + intros <-. left. split; auto. apply after_iff. now rewrite Q.
Qed.
Lemma host_of_iff : forall n o, host_of n o <-> hostname n = o.
Proof.
  intros n o. unfold host_of, hostname.
  assert (X : forall (P : str -> Prop), (exists h, host_text n h /\ P h) <-> P (fst (hostinfo n))).
  { intros P. split; [intros (h & H & Q); apply host_text_iff in H; now subst|]. intros Q. eexists. split; [now apply host_text_iff|exact Q]. }
  rewrite X. clear X. destruct (fst (hostinfo n)) as [|c r] eqn:E.
  - split; [intros [[_ ->]|[[H _]|(a & z & H & _)]]; auto; [congruence|destruct a; discriminate]|]. intros <-. now left.
  - set (h := c :: r) in *. destruct (partition_spec 37 h) as [[N ->]|(a & z & Q & N & ->)]; split.
    + intros [[H _]|[(_ & _ & ->)|(a & z & H & _)]]; [discriminate|now rewrite app_nil_r|]. elim N. rewrite H. apply in_or_app. right. now left.
    + intros <-. right. left. split; [discriminate|]. split; auto. now rewrite app_nil_r.
    + intros [[H _]|[(_ & H & _)|(a' & z' & H & M & ->)]]; [discriminate| |].
      * elim H. rewrite Q. apply in_or_app. right. now left.
      * rewrite Q in H. apply app_cut in H as [<- <-]; auto.
    + intros <-. right. right. exists a, z. auto.
Qed.
Lemma decimal_none : forall ds acc, decimal (Z.of_N acc) ds = match digits_val 10 acc dec_digit ds with Some m => Some (Z.of_N m) | None => None end.
Proof.
  induction ds as [|c r IH]; intros acc; cbn [decimal digits_val]; auto. unfold dec_digit, is_digit_ascii. destruct ((48 <=? c) && (c <=? 57))%bool eqn:E; [|reflexivity].
  rewrite <- IH. apply andb_true_iff in E as [E1 E2]. apply N.leb_le in E1, E2. f_equal. lia.
Qed.
Lemma port_of_iff : forall n o, port_of n o <-> port n = o.
Proof.
  intros n o. unfold port_of, port.
  assert (X : forall (P : str -> Prop), (exists p, port_text n p /\ P p) <-> P (port_str n)).
  { intros P. split; [intros (h & H & Q); apply port_text_iff in H; now subst|]. intros Q. eexists. split; [now apply port_text_iff|exact Q]. }
  rewrite X. clear X. unfold port_str.
  assert (NE : snd (hostinfo n) <> Some []).
  { unfold hostinfo. destruct (partition 91 _) as [[a f] r]. destruct f; [destruct (partition 93 r) as [[h' f'] p']; cbn [snd]; destruct (snd (partition 58 p')); discriminate|].
    destruct (partition 58 _) as [[h' f'] p']. cbn [snd]. destruct p'; discriminate. }
  destruct (snd (hostinfo n)) as [p|].
  - assert (P : p <> []) by (intros ->; now apply NE). unfold port_number. change 0%Z with (Z.of_N 0). rewrite decimal_none. destruct (digits_val 10 0 dec_digit p) as [m|].
    + destruct (N.leb_spec m 65535).
      * split; [intros [[H1 _]|[(k & (_ & H2 & _) & ->)|(_ & H2 & _)]]; [contradiction|now injection H2 as <-|]|].
        -- elim (H2 (Z.of_N m)). repeat split; auto. lia.
        -- intros <-. right. left. exists (Z.of_N m). repeat split; auto. lia.
      * split; [intros [[H1 _]|[(k & (_ & H2 & H3) & ->)|(_ & _ & ->)]]; auto; [contradiction|injection H2 as <-; lia]|].
        intros <-. right. right. split; auto. split; auto. intros k (_ & H2 & H3). injection H2 as <-. lia.
    + split; [intros [[H1 _]|[(k & (_ & H2 & _) & ->)|(_ & _ & ->)]]; auto; [contradiction|discriminate]|].
      intros <-. right. right. split; auto. split; auto. intros k (_ & H2 & _). discriminate.
  - split; [intros [[_ ->]|[(k & (H & _) & _)|(H & _)]]; congruence|]. intros <-. now left.
Qed.
Lemma item_type_iff : forall p t, item_type p t <-> guess_type p = t.
Proof.
  intros p t. unfold item_type, no_extension, has_extension. split.
  - intros [(ext & (stem & NE & -> & N) & ->)|(N & ->)]; [now apply guess_ext|]. apply guess_none. intros stem ext E M. destruct stem as [|c stem]; auto. exfalso. apply (N ext). exists (c :: stem). split; [discriminate|auto].
  - intros <-. destruct (rpartition_spec 46 p) as [[N R]|(a & b & -> & N & R)].
    + right. split; [|apply guess_none; intros stem ext E; elim N; rewrite E; apply in_or_app; right; now left]. intros ext (stem & _ & E & _). apply N. rewrite E. apply in_or_app. right. now left.
    + destruct a as [|c a].
      * right. split.
        -- intros ext (stem & NE & E & M). pose proof (rpartition_at 46 stem ext M) as P. rewrite <- E, R in P. injection P as <- _. congruence.
        -- unfold guess_type. now rewrite R.
      * left. exists b. split; [exists (c :: a); split; [discriminate|auto]|]. rewrite guess_ext; auto. discriminate.
Qed.
Lemma leads_iff : forall href host prt r, leads href host prt r <-> parse_href href host prt = r.
Proof.
  intros [h|] host prt r; [|unfold leads, parse_href; split; intros H; [now rewrite H|now rewrite <- H]]. unfold leads, parse_href. rewrite urlparse_is.
  destruct (split_scheme (tidy h)) as [s rest] eqn:S. destruct (authority rest) as [[n t] b] eqn:A.
  assert (X : forall P : str -> str -> str -> Prop, (exists u s rest n t p, tidied h u /\ schemed u s rest /\ has_authority rest n t /\ path_of s t p /\ P s n p) <-> P s n (the_path s t)).
  { intros P. split.
    - intros (u & s' & rest' & n' & t' & p & T & SC & PL & PA & H). apply tidied_iff in T. subst u. apply schemed_iff in SC. rewrite S in SC. injection SC as <- <-.
      apply authority_iff in PL. rewrite A in PL. injection PL as <- <-. apply path_of_iff in PA. now subst.
    - intros H. exists (tidy h), s, rest, n, t, (the_path s t). split; [now apply tidied_iff|]. split; [now apply schemed_iff|]. split; [apply authority_iff; now rewrite A|]. split; [now apply path_of_iff|exact H]. }
  rewrite X. clear X. rewrite refused_iff. destruct (bad n) eqn:B; cbn [bind pu_scheme pu_netloc pu_path].
  { split; [intros [[_ ->]|[(H & _)|[(H & _)|(H & _)]]]; auto; congruence|]. intros <-. now left. }
  assert (NB : false <> true) by discriminate. set (p := the_path s t).
  assert (G : forall P : str -> Prop, (exists ty, item_type p ty /\ P ty) <-> P (guess_type p)).
  { intros P. split; [intros (ty & T & H); apply item_type_iff in T; now subst|]. intros H. eexists. split; [now apply item_type_iff|exact H]. }
  destruct (seqb_spec s (lit "http")) as [->|N1]; cbn [orb].
  { split; [intros [[H _]|[(_ & _ & _ & ->)|[(_ & H & _)|(_ & H & _)]]]; auto; discriminate|]. intros <-. right. left. repeat split; auto; discriminate. }
  destruct (seqb_spec s (lit "https")) as [->|N2]; cbn [orb].
  { split; [intros [[H _]|[(_ & _ & _ & ->)|[(_ & H & _)|(_ & H & _)]]]; auto; discriminate|]. intros <-. right. left. repeat split; auto; discriminate. }
  destruct (seqb_spec s (lit "gopher")) as [->|N3].
  - split.
    + intros [[H _]|[(_ & _ & H & _)|[(_ & H & _)|(_ & _ & q & Q & H)]]]; try discriminate; [congruence|]. apply port_of_iff in Q. rewrite Q. destruct q as [q|e]; cbn [bind]; auto.
      destruct H as (ty & ho & T & HO & ->). apply item_type_iff in T. apply host_of_iff in HO. now subst.
    + intros H. right. right. right. split; auto. split; auto. exists (port n). split; [now apply port_of_iff|]. destruct (port n) as [q|e]; cbn [bind] in H; auto.
      exists (guess_type p), (hostname n). split; [now apply item_type_iff|]. split; [now apply host_of_iff|]. auto.
  - destruct (seqb_spec s []) as [->|N4].
    + split.
      * intros [[H _]|[(_ & H & _)|[(_ & _ & H)|(_ & H & _)]]]; try congruence. apply G in H. auto.
      * intros H. right. right. left. split; auto. split; auto. apply G. auto.
    + split; [intros [[H _]|[(_ & _ & _ & ->)|[(_ & H & _)|(_ & H & _)]]]; auto; congruence|]. intros <-. right. left. repeat split; auto.
Qed.
End Href.
Close Scope N_scope.
