(** The fields of a gophermap record and the reference in an entry. *)
From Verif Require Import BaseFacts StrFacts UrlFacts ElemFacts ElemText LinkFacts.
From Verif Require Export LinkSpec.
Open Scope N_scope.

Section Url.
Context `{U : Uni}.
Definition inc (a b : str) : Prop := forall x, In x a -> In x b.
Lemma inc_refl : forall a, inc a a. Proof. intros a x; auto. Qed.
Lemma inc_trans : forall a b c, inc a b -> inc b c -> inc a c. Proof. unfold inc; auto. Qed.
Lemma part_inc : forall c s, inc (fst (fst (partition c s))) s /\ inc (snd (partition c s)) s.
Proof.
  intros c s. destruct (partition_spec c s) as [[_ ->]|(a & b & -> & _ & ->)]; cbn; split; intros x I; auto; try contradiction.
  - apply in_or_app; auto.
  - apply in_or_app; right; right; auto.
Qed.
Lemma rpart_inc : forall c s, inc (fst (fst (rpartition c s))) s /\ inc (snd (rpartition c s)) s.
Proof.
  intros c s. unfold rpartition. destruct (partition_spec c (rev s)) as [[_ ->]|(a & b & E & _ & ->)]; cbn.
  - split; intros x I; [contradiction|]. try rewrite rev_involutive in I; auto.
  - assert (ES : s = rev b ++ c :: rev a).
    { rewrite <- (rev_involutive s), E, rev_app_distr. cbn [rev]. now rewrite <- app_assoc. }
    subst s. split; intros x I; apply in_or_app; [left|right; right]; auto.
Qed.
Lemma rpart_true : forall c s, snd (fst (rpartition c s)) = true -> In c s.
Proof.
  intros c s. unfold rpartition. destruct (partition_spec c (rev s)) as [[_ ->]|(a & b & E & _ & ->)]; cbn; [discriminate|].
  intros _. rewrite in_rev, E. apply in_or_app; right; now left.
Qed.
Lemma scheme_inc : forall u, inc (snd (split_scheme u)) u.
Proof.
  intros u. unfold split_scheme. destruct (part_inc 58 u) as [_ H]. destruct (partition 58 u) as [[h f] t]. cbn [snd] in H.
  destruct h; [apply inc_refl|]. destruct (_ && _)%bool; [exact H|apply inc_refl].
Qed.
Lemma authority_inc : forall u n u' b, authority u = (n, u', b) -> inc n u /\ inc u' u.
Proof.
  assert (T : forall (f : N -> bool) s, inc (take_while f s) s) by (intros f s x; apply take_while_incl).
  assert (D : forall (f : N -> bool) s, inc (drop_while f s) s).
  { intros f s x. induction s as [|y s IH]; cbn [drop_while]; auto. destruct (f y); auto. intros I. right. auto. }
  intros u n u' b H. unfold authority in H.
  assert (X : (n, u', b) = ([], u, false) \/ exists r, u = 47 :: 47 :: r /\ (n, u', b) = (fst (split_netloc r), snd (split_netloc r), true)).
  { destruct u as [|x [|y r]]; try (left; rewrite <- H; reflexivity).
    - left. rewrite <- H. destruct x as [|[[[[[[]|[]|]|[[]|[]|]|]|[[]|[]|]|]|[[]|[]|]|]|[[]|[]|]|]]; reflexivity.
    - destruct (N.eq_dec x 47) as [->|NX]; [destruct (N.eq_dec y 47) as [->|NY]|].
      + right. exists r. split; [reflexivity|]. rewrite <- H. reflexivity.
      + left. rewrite <- H. destruct y as [|[[[[[[]|[]|]|[[]|[]|]|]|[[]|[]|]|]|[[]|[]|]|]|[[]|[]|]|]]; try reflexivity; congruence.
      + left. rewrite <- H. destruct x as [|[[[[[[]|[]|]|[[]|[]|]|]|[[]|[]|]|]|[[]|[]|]|]|[[]|[]|]|]]; try reflexivity; congruence. }
  destruct X as [X|(r & -> & X)].
  - injection X as -> -> _. split; intros x I; [contradiction|auto].
  - injection X as -> -> _. unfold split_netloc. cbn [fst snd]. split; intros x I; right; right; [eapply T|eapply D]; exact I.
Qed.
Lemma params_inc : forall u, inc (split_params u) u.
Proof.
  intros u. unfold split_params. pose proof (rpart_inc 47 u) as [R1 R2]. pose proof (rpart_true 47 u) as R3.
  destruct (rpartition 47 u) as [[h f] t]. cbn [fst snd] in *. destruct f.
  - intros x I. apply in_app_or in I as [I|I]; auto. apply in_app_or in I as [[<-|[]]|I]; [now apply R3|]. apply R2. exact (proj1 (part_inc 59 t) x I).
  - apply part_inc.
Qed.
Lemma url_rest_inc : forall s u p, url_rest s u = Ok p -> inc (pu_path p) u /\ inc (pu_netloc p) u.
Proof.
  intros s u p H. unfold url_rest in H. destruct (authority u) as [[n u'] b] eqn:A. destruct (authority_inc _ _ _ _ A) as [A1 A2].
  destruct (xorb _ _); [discriminate|]. destruct (_ && negb (u_bracket_ok _))%bool; [discriminate|].
  destruct (_ && u_nfkc_bad n)%bool; [discriminate|]. injection H as <-. cbn [pu_path pu_netloc]. split; auto.
  assert (Q : inc (fst (fst (partition 63 (fst (fst (partition 35 u')))))) u).
  { eapply inc_trans; [apply part_inc|]. eapply inc_trans; [apply part_inc|]. exact A2. }
  destruct (_ && _)%bool; auto. eapply inc_trans; [apply params_inc|exact Q].
Qed.
Lemma remove_no : forall c s, ~ In c (remove_char c s).
Proof. intros c s I. unfold remove_char in I. apply filter_In in I as [_ I]. rewrite N.eqb_refl in I. discriminate. Qed.
Lemma remove_inc : forall c s, inc (remove_char c s) s.
Proof. intros c s x I. unfold remove_char in I. now apply filter_In in I as [I _]. Qed.
(** The path and the authority of a URL have no tab and no line break. *)
Lemma urlparse_fields : forall h p, urlparse h = Ok p -> one_field (pu_path p) /\ one_field (pu_netloc p) /\ inc (pu_netloc p) h.
Proof.
  intros h p H. unfold urlparse in H.
  set (u1 := drop_while (fun c => c <=? 32) h) in *. set (u := remove_char 10 (remove_char 13 (remove_char 9 u1))) in *.
  assert (N10 : ~ In 10 u) by apply remove_no.
  assert (N9 : ~ In 9 u) by (intros I; apply remove_inc in I; apply remove_inc in I; revert I; apply remove_no).
  assert (IU : inc u h).
  { unfold u. eapply inc_trans; [apply remove_inc|]. eapply inc_trans; [apply remove_inc|]. eapply inc_trans; [apply remove_inc|].
    unfold u1. clear. intros x. induction h as [|y s IH]; cbn [drop_while]; auto. destruct (y <=? 32); auto. intros I. right. auto. }
  clearbody u. pose proof (scheme_inc u) as SI. destruct (split_scheme u) as [sc rest]. cbn [snd] in SI.
  change (url_rest sc rest = Ok p) in H. destruct (url_rest_inc _ _ _ H) as [I1 I2].
  split; [split; intros X; [apply N9|apply N10]; auto|]. split; [split; intros X; [apply N9|apply N10]; auto|]. intros x X. auto.
Qed.
Lemma hostinfo_inc : forall n, inc (fst (hostinfo n)) n.
Proof.
  intros n. unfold hostinfo. pose proof (rpart_inc 64 n) as [_ R]. set (hi := snd (rpartition 64 n)) in *. clearbody hi.
  pose proof (part_inc 91 hi) as [_ P]. destruct (partition 91 hi) as [[a f] br]. cbn [snd] in P. destruct f.
  - pose proof (part_inc 93 br) as [Q _]. destruct (partition 93 br) as [[h x] q]. cbn [fst] in *. intros y I. apply R, P, Q, I.
  - pose proof (part_inc 58 hi) as [Q _]. destruct (partition 58 hi) as [[h x] q]. cbn [fst] in *. intros y I. apply R, Q, I.
Qed.
Lemma lower_field : forall s, Forall (fun c => c < 128) s -> one_field s -> one_field (lower s).
Proof.
  assert (G : forall k s, k < 65 -> Forall (fun c => c < 128) s -> ~ In k s -> ~ In k (lower s)).
  { intros k s K F NI I. unfold lower in I. apply in_flat_map in I as (c & I1 & I2). rewrite Forall_forall in F. specialize (F c I1).
    unfold lower_c in I2. assert (L : (c <? 128) = true) by now apply N.ltb_lt. rewrite L in I2.
    destruct (is_upper_ascii c) eqn:E; cbn in I2; destruct I2 as [I2|[]]; [|subst; contradiction].
    unfold is_upper_ascii in E. apply andb_true_iff in E as [E _]. apply N.leb_le in E. lia. }
  intros s F [H1 H2]. split; apply G; auto; lia.
Qed.
Lemma guess_field : forall p, one_field (guess_type p) /\ ~ In 91 (guess_type p).
Proof.
  intros p. unfold guess_type. destruct (rpartition 46 p) as [[h f] e]. destruct h; [split; [split|]; vm_compute; intuition discriminate|].
  repeat match goal with |- context [if ?b then _ else _] => destruct b end; (split; [split|]; vm_compute; intuition discriminate).
Qed.
Lemma type_field : forall href host prt l, parse_href href host prt = Ok l -> one_field (gl_type l) /\ ~ In 91 (gl_type l).
Proof.
  assert (W : one_field (lit "h") /\ ~ In 91 (lit "h")) by (split; [split|]; vm_compute; intuition discriminate).
  intros [h|] host prt l H; cbn [parse_href] in H; [|injection H as <-; exact W].
  destruct (urlparse h) as [p|]; [|discriminate]. cbn [bind] in H.
  destruct (_ || _)%bool; [injection H as <-; exact W|]. destruct (seqb _ (lit "gopher")).
  - destruct (port (pu_netloc p)); [|discriminate]. cbn [bind] in H. injection H as <-. apply guess_field.
  - destruct (seqb _ []); injection H as <-; [apply guess_field|exact W].
Qed.
Lemma selector_field : forall href host prt l, parse_href href host prt = Ok l -> (forall h, href = Some h -> one_field h) -> one_field (gl_selector l).
Proof.
  assert (W : forall h, one_field h -> one_field (lit "URL:" ++ h)).
  { intros h [H1 H2]. split; intros I; apply in_app_or in I as [I|I]; auto; revert I; vm_compute; intuition discriminate. }
  intros [h|] host prt l H F; cbn [parse_href] in H.
  2: { injection H as <-. apply W. split; vm_compute; intuition discriminate. }
  specialize (F h eq_refl). destruct (urlparse h) as [p|] eqn:E; [|discriminate]. cbn [bind] in H. destruct (urlparse_fields _ _ E) as (P1 & P2 & _).
  destruct (_ || _)%bool; [injection H as <-; now apply W|]. destruct (seqb _ (lit "gopher")).
  - destruct (port (pu_netloc p)); [|discriminate]. cbn [bind] in H. injection H as <-. exact P1.
  - destruct (seqb _ []); injection H as <-; [exact P1|now apply W].
Qed.
Lemma host_field : forall href host prt l, parse_href href host prt = Ok l -> one_field host ->
  (forall h, href = Some h -> Forall (fun c => c < 128) h \/ gl_host l = Some host) -> one_field (shown (gl_host l)).
Proof.
  intros [h|] host prt l H HH F; cbn [parse_href] in H; [|injection H as <-; exact HH].
  destruct (F h eq_refl) as [A| ->]; [|exact HH]. clear F.
  destruct (urlparse h) as [p|] eqn:E; [|discriminate]. cbn [bind] in H. destruct (urlparse_fields _ _ E) as (P1 & P2 & P3).
  destruct (_ || _)%bool; [injection H as <-; exact HH|]. destruct (seqb _ (lit "gopher")).
  - destruct (port (pu_netloc p)); [|discriminate]. cbn [bind] in H. injection H as <-. cbn [gl_host].
    unfold hostname. pose proof (hostinfo_inc (pu_netloc p)) as HI. destruct (fst (hostinfo (pu_netloc p))) as [|c r].
    { cbn [shown]. split; vm_compute; intuition discriminate. }
    set (hst := c :: r) in *. clearbody hst. pose proof (part_inc 37 hst) as [Q1 Q2]. destruct (partition 37 hst) as [[aa f] z]. cbn [fst snd] in Q1, Q2. cbn [shown].
    assert (LA : one_field (lower aa)).
    { apply lower_field; [rewrite Forall_forall in *; intros x I; apply A, P3, HI, Q1, I|]. split; intros I; [apply (proj1 P2)|apply (proj2 P2)]; auto. }
    assert (LF : one_field (if f then [37] else [])) by (destruct f; split; cbn; intuition discriminate).
    assert (LZ : one_field z) by (split; intros I; [apply (proj1 P2)|apply (proj2 P2)]; auto).
    destruct LA, LF, LZ. split; rewrite !in_app_iff; tauto.
  - destruct (seqb _ []); injection H as <-; exact HH.
Qed.
Lemma digits_field : forall z k, k < 45 -> ~ In k (str_of_Z z).
Proof.
  assert (G : forall u k, k < 45 -> ~ In k (uint_str u)).
  { induction u; intros k K; cbn [uint_str]; intros I; try (destruct I as [I|I]; [subst; vm_compute in K; discriminate K|revert I; now apply IHu]). contradiction. }
  intros z k K. unfold str_of_Z. destruct (Z.to_int z); [now apply G|].
  intros [I|I]; [subst; vm_compute in K; discriminate K|revert I; now apply G].
Qed.
Lemma port_field : forall p, one_field (shown_port p).
Proof. intros [z|]; cbn [shown_port]; [split; apply digits_field; lia|]. split; vm_compute; intuition discriminate. Qed.

(** Four fields. *)
Definition label_text (ty : str) (ref : Z) (desc : str) : str := ty ++ lit "[" ++ str_of_Z ref ++ lit "] " ++ desc.
Lemma record_split : forall ref desc l, one_field (gl_type l) -> one_field desc -> one_field (gl_selector l) -> one_field (shown (gl_host l)) ->
  split_on 9 (record_text ref desc l) = [label_text (gl_type l) ref desc; gl_selector l; shown (gl_host l); shown_port (gl_port l)]
  /\ ~ In 10 (record_text ref desc l).
Proof.
  intros ref desc l T D S0 H. pose proof (port_field (gl_port l)) as PF. pose proof (digits_field ref) as DF.
  assert (LF : one_field (label_text (gl_type l) ref desc)).
  { unfold label_text. destruct T, D. pose proof (DF 9 eq_refl). pose proof (DF 10 eq_refl).
    split; rewrite !in_app_iff; change (lit "[") with [91]; change (lit "] ") with [93; 32]; cbn [In]; intuition discriminate. }
  assert (E : record_text ref desc l = label_text (gl_type l) ref desc ++ 9 :: gl_selector l ++ 9 :: shown (gl_host l) ++ 9 :: shown_port (gl_port l)).
  { unfold record_text, label_text, tab. rewrite <- !app_assoc. cbn [app]. reflexivity. }
  rewrite E. destruct LF, S0, H, PF. split.
  - rewrite !split_on_app_sep by auto. rewrite split_on_none; auto.
  - intros I. repeat (apply in_app_or in I as [I|[I|I]]; [auto|discriminate|]). auto.
Qed.
End Url.

Open Scope Z_scope.
(** The first line of what is laid out. *)
Lemma split_app_head : forall a b, ~ In 10%N a -> exists x r, split_on 10%N (a ++ b) = (a ++ x) :: r.
Proof.
  induction a as [|c a IH]; intros b H.
  - destruct (split_on_cons 10%N b) as (x & r & E). exists x, r. exact E.
  - cbn [app split_on]. destruct (IH b) as (x & r & E); [intros I; apply H; now right|]. rewrite E.
    destruct (N.eqb_spec c 10); [elim H; now left|]. exists x, r. reflexivity.
Qed.
Lemma rows_head : forall w a b, ~ In 10%N a -> exists rest, rows w (split_on 10%N (a ++ b)) = a ++ rest.
Proof.
  intros w a b H. destruct (split_app_head a b H) as (x & r & ->). unfold rows. cbn [map]. destruct (map (pad w) r) as [|y l].
  - change (join nl [pad w (a ++ x)]) with (pad w (a ++ x)). unfold pad. rewrite <- app_assoc. eauto.
  - rewrite join_cons2. unfold pad at 1. rewrite <- !app_assoc. eauto.
Qed.
Lemma rows_blank_head : forall w a b, ~ In 10%N a -> exists rest, rows w (split_on 10%N (nl ++ a ++ b)) = spaces w ++ nl ++ a ++ rest.
Proof.
  intros w a b H. destruct (rows_head w a b H) as (rest & E). exists rest. rewrite <- E.
  change (split_on 10%N (nl ++ a ++ b)) with ([] :: split_on 10%N (a ++ b)). unfold rows. cbn [map].
  destruct (split_app_head a b H) as (x & r & ->). cbn [map]. rewrite join_cons2. f_equal. unfold pad. change (len []) with 0. now rewrite Z.sub_0_r.
Qed.
Close Scope Z_scope.
Close Scope N_scope.
