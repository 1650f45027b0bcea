(** Link targets: facts. *)
From Verif Require Import BaseFacts StrFacts.
From Verif Require Export UrlSpec.
Open Scope N_scope.

Lemma partition_at : forall c a b, ~ In c a -> partition c (a ++ c :: b) = (a, true, b).
Proof.
  induction a as [|x a IH]; intros b H; cbn [app partition].
  - now rewrite N.eqb_refl.
  - destruct (N.eqb_spec x c); [exfalso; apply H; now left|]. rewrite IH by (intros I; apply H; now right). reflexivity.
Qed.
Lemma partition_none : forall c s, ~ In c s -> partition c s = (s, false, []).
Proof.
  induction s as [|x s IH]; intros H; auto. cbn [partition].
  destruct (N.eqb_spec x c); [exfalso; apply H; now left|]. rewrite IH by (intros I; apply H; now right). reflexivity.
Qed.
Lemma partition_spec : forall c s, (~ In c s /\ partition c s = (s, false, []))
  \/ exists a b, s = a ++ c :: b /\ ~ In c a /\ partition c s = (a, true, b).
Proof.
  induction s as [|x s IH]; [left; split; auto|]. cbn [partition]. destruct (N.eqb_spec x c) as [->|NE].
  - right. exists [], s. auto.
  - destruct IH as [[H ->]|(a & b & -> & H & ->)].
    + left. split; auto. intros [|]; auto.
    + right. exists (x :: a), b. split; auto. split; auto. intros [|]; auto.
Qed.
Lemma rpartition_at : forall c a b, ~ In c b -> rpartition c (a ++ c :: b) = (a, true, b).
Proof.
  intros. unfold rpartition.
  assert (E : rev (a ++ c :: b) = rev b ++ c :: rev a) by (rewrite rev_app_distr; cbn [rev]; now rewrite <- app_assoc).
  rewrite E, partition_at by now rewrite <- in_rev. now rewrite !rev_involutive.
Qed.
Lemma rpartition_none : forall c s, ~ In c s -> rpartition c s = ([], false, s).
Proof. intros. unfold rpartition. rewrite partition_none by now rewrite <- in_rev. reflexivity. Qed.

Section Url.
Context `{U : Uni}.

Lemma remove_absent : forall c s, ~ In c s -> remove_char c s = s.
Proof.
  induction s as [|x s IH]; intros H; auto. unfold remove_char in *. cbn [filter].
  destruct (N.eqb_spec x c); [exfalso; apply H; now left|]. cbn [negb]. f_equal. apply IH. intros I; apply H; now right.
Qed.
Lemma clean_url : forall h, clean h ->
  remove_char 10 (remove_char 13 (remove_char 9 (drop_while (fun c => c <=? 32) h))) = h.
Proof.
  intros h (H9 & H10 & H13 & HF).
  assert (E : drop_while (fun c => c <=? 32) h = h).
  { destruct h as [|c r]; auto. apply drop_while_head. specialize (HF c r eq_refl). apply N.leb_gt. exact HF. }
  rewrite E. rewrite (remove_absent 9) by auto. rewrite (remove_absent 13) by auto. apply remove_absent; auto.
Qed.

Lemma letter_alpha : forall c, letter c -> is_alpha_ascii c = true.
Proof.
  intros c H. unfold is_alpha_ascii, is_upper_ascii, is_lower_ascii. apply orb_true_iff.
  destruct H; [left|right]; apply andb_true_iff; split; apply N.leb_le; lia.
Qed.
Lemma alpha_letter : forall c, is_alpha_ascii c = true -> letter c.
Proof.
  intros c H. unfold is_alpha_ascii, is_upper_ascii, is_lower_ascii in H. apply orb_true_iff in H as [H|H];
    apply andb_true_iff in H as [H1 H2]; apply N.leb_le in H1, H2; [left|right]; lia.
Qed.
Lemma scheme_char_iff : forall c, scheme_char c = true <-> scheme_letter c.
Proof.
  intros c. unfold scheme_char, scheme_letter. rewrite !orb_true_iff, !N.eqb_eq. unfold is_digit_ascii.
  rewrite andb_true_iff, !N.leb_le. split.
  - intros [[[[H|H]|H]|H]|H]; auto 6. left. now apply alpha_letter.
  - intros [H|[H|[H|[H|H]]]]; auto 6. do 4 left. now apply letter_alpha.
Qed.
Lemma scheme_no_colon : forall s, is_scheme s -> ~ In 58 s.
Proof.
  intros s (c & r & -> & HC & HR) [E|I].
  - subst. destruct HC; lia.
  - rewrite Forall_forall in HR. apply HR in I. destruct I as [[I|I]|[I|[I|[I|I]]]]; lia.
Qed.
Lemma scheme_bool : forall c r, (is_alpha_ascii c && forallb scheme_char (c :: r))%bool = true <-> is_scheme (c :: r).
Proof.
  intros c r. rewrite andb_true_iff. cbn [forallb]. rewrite andb_true_iff. split.
  - intros (H1 & _ & H3). exists c, r. split; auto. split; [now apply alpha_letter|].
    apply Forall_forall. intros x I. rewrite forallb_forall in H3. now apply scheme_char_iff, H3.
  - intros (c' & r' & E & H1 & H2). injection E as <- <-. pose proof (letter_alpha c H1) as A. split; auto. split.
    + unfold scheme_char. now rewrite A.
    + apply forallb_forall. intros x I. rewrite Forall_forall in H2. now apply scheme_char_iff, H2.
Qed.
Lemma split_scheme_some : forall h s rest, with_scheme h s rest -> split_scheme h = (lower s, rest).
Proof.
  intros h s rest [-> HS]. unfold split_scheme. rewrite partition_at by now apply scheme_no_colon.
  pose proof HS as (c & r & -> & _). apply scheme_bool in HS. cbn [andb]. rewrite HS. reflexivity.
Qed.
Lemma split_scheme_none : forall h, (forall s rest, ~ with_scheme h s rest) -> split_scheme h = ([], h).
Proof.
  intros h H. unfold split_scheme. destruct (partition_spec 58 h) as [[N ->]|(a & b & -> & N & ->)].
  - destruct h; reflexivity.
  - destruct a as [|c r]; [reflexivity|]. cbn [andb].
    destruct (is_alpha_ascii c && forallb scheme_char (c :: r))%bool eqn:E; [|reflexivity].
    exfalso. apply (H (c :: r) b). split; [reflexivity|]. now apply scheme_bool.
Qed.

(** Brackets do not occur or are rejected; ASCII passes the netloc check. *)
Lemma path_cut : forall h p, path_then h p ->
  fst (fst (partition 63 (fst (fst (partition 35 h))))) = p.
Proof.
  intros h p (rest & -> & H63 & H35 & HR). destruct HR as [->|(c & r & -> & HC)].
  - rewrite app_nil_r. rewrite (partition_none 35), (partition_none 63) by assumption. reflexivity.
  - destruct HC as [-> | ->].
    + destruct (partition_spec 35 r) as [[N _]|(a & b & -> & N & _)].
      * rewrite (partition_none 35).
        -- cbn [fst]. rewrite partition_at by exact H63. reflexivity.
        -- intros I. apply in_app_or in I as [I|[I|I]]; auto. discriminate.
      * replace (p ++ 63 :: a ++ 35 :: b) with ((p ++ 63 :: a) ++ 35 :: b) by (rewrite <- app_assoc; reflexivity).
        rewrite partition_at. 2:{ intros I. apply in_app_or in I as [I|[I|I]]; auto. discriminate. }
        cbn [fst]. rewrite partition_at by exact H63. reflexivity.
    + rewrite partition_at by exact H35. cbn [fst]. rewrite partition_none by exact H63. reflexivity.
Qed.
Lemma has_char_iff : forall c s, has_char c s = true <-> In c s.
Proof.
  intros. unfold has_char. rewrite existsb_exists. split.
  - intros (x & I & E). apply N.eqb_eq in E. now subst.
  - intros I. exists c. split; auto. apply N.eqb_refl.
Qed.
Lemma has_char_absent : forall c s, ~ In c s -> has_char c s = false.
Proof. intros. destruct (has_char c s) eqn:E; auto. apply has_char_iff in E. contradiction. Qed.

Lemma decimal_val : forall ds acc n, decimal (Z.of_N acc) ds = Some n ->
  exists m, digits_val 10 acc dec_digit ds = Some m /\ n = Z.of_N m.
Proof.
  induction ds as [|c r IH]; intros acc n H; cbn [decimal digits_val] in *.
  - injection H as <-. eauto.
  - unfold dec_digit, is_digit_ascii. destruct ((48 <=? c) && (c <=? 57))%bool eqn:E; [|discriminate].
    apply IH. apply andb_true_iff in E as [E1 E2]. apply N.leb_le in E1, E2. rewrite <- H. f_equal. lia.
Qed.

(** After the scheme: authority, query and path. *)
Definition authority (url : str) : str * str * bool :=
    match url with
    | 47 :: 47 :: r => let '(n, u) := split_netloc r in (n, u, true)
    | _ => ([], url, false)
    end.
Definition url_rest (scheme url : str) : res parsed_url :=
  let '(netloc, url, has_netloc) := authority url in
  let op := has_char 91 netloc in
  let cl := has_char 93 netloc in
  if xorb op cl then Err EValue
  else if op && cl
          && negb (u_bracket_ok (fst (fst (partition 93 (snd (partition 91 netloc))))))
  then Err EValue
  else
    let url := fst (fst (partition 35 url)) in
    let url := fst (fst (partition 63 url)) in
    if negb (is_ascii netloc) && u_nfkc_bad netloc then Err EValue
    else
      let path := if smem scheme uses_params && has_char 59 url
                  then split_params url else url in
      Ok (PUrl scheme netloc path).
Lemma urlparse_clean : forall h, clean h ->
  urlparse h = url_rest (fst (split_scheme h)) (snd (split_scheme h)).
Proof.
  intros h H. unfold urlparse. rewrite (clean_url h H). destruct (split_scheme h) as [s u]. reflexivity.
Qed.
Lemma url_rest_scheme : forall s u p, url_rest s u = Ok p -> pu_scheme p = s.
Proof.
  intros s u p H. unfold url_rest in H.
  destruct (authority u) as [[n u'] b].
  destruct (xorb _ _); [discriminate|]. destruct (_ && negb (u_bracket_ok _))%bool; [discriminate|].
  destruct (_ && u_nfkc_bad n)%bool; [discriminate|]. injection H as <-. reflexivity.
Qed.
Lemma take_while_incl : forall (f : N -> bool) s x, In x (take_while f s) -> In x s.
Proof.
  induction s as [|y s IH]; intros x H; cbn [take_while] in H; [contradiction|].
  destruct (f y); [|contradiction]. destruct H as [->|H]; [now left|right; now apply IH].
Qed.
Lemma url_rest_ok : forall s u, Forall (fun c => c < 128) u -> ~ In 91 u -> ~ In 93 u ->
  exists p, url_rest s u = Ok p.
Proof.
  intros s u HA H1 H3. unfold url_rest.
  assert (X : exists n u' b, authority u = (n, u', b) /\ forall x, In x n -> In x u).
  { assert (D : forall t : str * str * bool, t = ([], u, false) ->
      exists n u' b, t = (n, u', b) /\ forall x, In x n -> In x u).
    { intros t ->. exists [], u, false. split; auto. intros x []. }
    destruct u as [|a [|b r]]; try (apply D; reflexivity).
    - destruct a as [|[[[[[[]|[]|]|[[]|[]|]|]|[[]|[]|]|]|[[]|[]|]|]|[[]|[]|]|]]; apply D; reflexivity.
    - destruct (N.eq_dec a 47) as [->|NA]; [destruct (N.eq_dec b 47) as [->|NB]|].
      + unfold authority, split_netloc. eexists _, _, _. split; [reflexivity|]. intros x I. right. right. revert I. apply take_while_incl.
      + apply D. destruct b as [|[[[[[[]|[]|]|[[]|[]|]|]|[[]|[]|]|]|[[]|[]|]|]|[[]|[]|]|]]; try reflexivity; congruence.
      + apply D. destruct a as [|[[[[[[]|[]|]|[[]|[]|]|]|[[]|[]|]|]|[[]|[]|]|]|[[]|[]|]|]]; try reflexivity; congruence. }
  destruct X as (n & u' & b & -> & HI).
  rewrite (has_char_absent 91), (has_char_absent 93) by auto. cbn [xorb andb].
  assert (A : is_ascii n = true).
  { apply forallb_forall. intros x I. apply N.ltb_lt. rewrite Forall_forall in HA. auto. }
  rewrite A. cbn [negb andb]. eauto.
Qed.
Lemma lower_alpha : forall s, is_scheme s -> lower s <> [].
Proof.
  intros s (c & r & -> & HC & _). unfold lower. cbn [flat_map]. unfold lower_c.
  assert (L : (c <? 128) = true) by (apply N.ltb_lt; destruct HC; lia). rewrite L. discriminate.
Qed.

(** A URL with an authority. *)
Lemma url_rest_netloc : forall s n u p, Forall (fun c => host_char c \/ c = 58) n ->
  (u = [] \/ exists c r, u = c :: r /\ netloc_delim c = true) -> path_then u p ->
  (In s uses_params -> ~ In 59 p) ->
  url_rest s (47 :: 47 :: n ++ u) = Ok (PUrl s n p).
Proof.
  intros s n u p HN HU HP HS. unfold url_rest, authority, split_netloc.
  assert (HD : forall c, host_char c \/ c = 58 -> negb (netloc_delim c) = true).
  { intros c [[_ H]| ->]; [|reflexivity]. unfold netloc_delim. cbn [In] in H.
    destruct (N.eqb_spec c 47), (N.eqb_spec c 63), (N.eqb_spec c 35); cbn; auto; exfalso; apply H; auto. }
  assert (E : take_while (fun c => negb (netloc_delim c)) (n ++ u) = n
    /\ drop_while (fun c => negb (netloc_delim c)) (n ++ u) = u).
  { clear HP. induction HN as [|c n HC HN IH].
    - cbn [app]. destruct HU as [->|(c & r & -> & D)]; [split; reflexivity|]. cbn [take_while drop_while]. rewrite D. auto.
    - cbn [app take_while drop_while]. rewrite (HD c HC). destruct IH as [-> ->]. auto. }
  destruct E as [-> ->].
  assert (HX : forall c, In c [91; 93] -> ~ In c n).
  { intros c HC I. rewrite Forall_forall in HN. apply HN in I as [[_ I]| ->].
    - apply I. cbn [In] in *. tauto.
    - cbn [In] in HC. destruct HC as [HC|[HC|[]]]; discriminate. }
  rewrite (has_char_absent 91), (has_char_absent 93) by (apply HX; cbn [In]; auto). cbn [xorb andb].
  assert (A : is_ascii n = true).
  { apply forallb_forall. intros x I. apply N.ltb_lt. rewrite Forall_forall in HN. apply HN in I as [[I _]| ->]; lia. }
  rewrite A. cbn [negb andb]. rewrite (path_cut u p HP).
  destruct (smem s uses_params) eqn:E; cbn [andb]; [|reflexivity].
  rewrite has_char_absent; [reflexivity|]. apply HS. now apply smem_In.
Qed.

Lemma hostinfo_plain : forall h ds, is_host h -> Forall (fun c => 48 <= c <= 57) ds ->
  hostinfo (h ++ 58 :: ds) = (h, match ds with [] => None | _ => Some ds end)
  /\ hostinfo h = (h, None).
Proof.
  intros h ds [HE HC] HD.
  assert (NH : forall c, In c [47; 63; 35; 64; 58; 91; 93; 37] -> ~ In c h).
  { intros c I J. rewrite Forall_forall in HC. apply HC in J as [_ J]. contradiction. }
  assert (ND : forall c, c < 48 \/ 57 < c -> ~ In c ds).
  { intros c I J. rewrite Forall_forall in HD. apply HD in J. lia. }
  assert (NB : forall c, In c [64; 91] -> ~ In c (h ++ 58 :: ds)).
  { intros c I J. apply in_app_or in J as [J|[J|J]].
    - revert J. apply NH. cbn [In] in *. tauto.
    - subst. cbn in I. destruct I as [I|[I|[]]]; discriminate.
    - revert J. apply ND. cbn in I. lia. }
  unfold hostinfo. rewrite !rpartition_none by (try apply NB; try apply NH; cbn [In]; auto). cbn [snd].
  rewrite !(partition_none 91) by (try apply NB; try apply NH; cbn [In]; auto 10). cbn [snd].
  rewrite partition_at by (apply NH; cbn [In]; auto 10). rewrite (partition_none 58 h) by (apply NH; cbn [In]; auto 10). auto.
Qed.
Lemma hostname_plain : forall h, is_host h -> forall n, fst (hostinfo n) = h -> hostname n = Some (lower h).
Proof.
  intros h [HE HC] n E. unfold hostname. rewrite E. destruct h as [|c h]; [congruence|]. rewrite partition_none.
  - now rewrite !app_nil_r.
  - intros I. rewrite Forall_forall in HC. apply HC in I as [_ I]. apply I. cbn [In]. auto 10.
Qed.

Lemma guess_ext : forall stem ext, stem <> [] -> ~ In 46 ext ->
  guess_type (stem ++ 46 :: ext) = type_of item_types ext.
Proof.
  intros stem ext HS HE. unfold guess_type. rewrite rpartition_at by exact HE. destruct stem; [congruence|].
  unfold smem, item_types. cbn [map existsb type_of].
  repeat match goal with |- context [seqb ext ?l] => destruct (seqb ext l); [reflexivity|] end. reflexivity.
Qed.
Lemma guess_none : forall path, (forall stem ext, path = stem ++ 46 :: ext -> ~ In 46 ext -> stem = []) ->
  guess_type path = lit "1".
Proof.
  intros path H. unfold guess_type. destruct (in_dec N.eq_dec 46 path) as [I|I].
  - destruct (partition_spec 46 (rev path)) as [[N _]|(a & b & E & N & _)]; [exfalso; apply N; now rewrite <- in_rev|].
    assert (E' : path = rev b ++ 46 :: rev a).
    { rewrite <- (rev_involutive path), E, rev_app_distr. cbn [rev]. now rewrite <- app_assoc. }
    assert (NA : ~ In 46 (rev a)) by now rewrite <- in_rev.
    rewrite E', rpartition_at by exact NA. rewrite (H _ _ E' NA). reflexivity.
  - rewrite rpartition_none by exact I. reflexivity.
Qed.
End Url.
Close Scope N_scope.
