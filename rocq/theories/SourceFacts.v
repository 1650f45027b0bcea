(** The tokenizer reads source text as the document it denotes. *)
From Verif Require Import BaseFacts StrFacts TreeFacts TokFacts CrashFacts.
From Verif Require Export SourceSpec Feed.
Open Scope N_scope.

(** ** Characters *)
Ltac nb := unfold ascii_letter, digit, name_part, html_blank, quote_mark, hex_char in *;
  repeat match goal with
  | |- context [?a <=? ?b] => destruct (N.leb_spec a b); try lia
  | |- context [?a =? ?b] => destruct (N.eqb_spec a b); try lia
  end; try reflexivity; try lia.
Lemma blank_facts : forall c, html_blank c -> is_space c = true /\ name_char c = false /\ end_name_char c = false /\ slash_or_space c = true /\ c <> 62 /\ c <> 61 /\ c <> 47 /\ c <> 60.
Proof. intros c [->|[->|[->|[->| ->]]]]; vm_compute; repeat split; discriminate. Qed.
Lemma name_facts : forall c, name_part c -> is_space c = false /\ name_char c = true /\ end_name_char c = true /\ c <> 62 /\ c <> 61 /\ c <> 47 /\ c <> 60 /\ (c <? 128) = true.
Proof.
  intros c H. assert (K : name_part c) by exact H. unfold name_part, ascii_letter, digit in H. split; [unfold is_space; nb|]. split; [unfold name_char; nb|].
  split; [unfold end_name_char, is_alpha_ascii, is_upper_ascii, is_lower_ascii, is_digit_ascii; nb|]. repeat split; try lia. apply N.ltb_lt. lia.
Qed.
Lemma letter_part : forall c, ascii_letter c -> name_part c.
Proof. intros. now left. Qed.
Lemma letter_alpha : forall c, ascii_letter c -> is_alpha_ascii c = true.
Proof. intros c H. unfold is_alpha_ascii, is_upper_ascii, is_lower_ascii. nb. Qed.
Section L.
Context `{U : Uni}.
Lemma lower_small : forall s, Forall name_part s -> lower s = map small s.
Proof.
  induction 1 as [|c s H _ IH]; [reflexivity|]. unfold lower in *. cbn [flat_map map]. rewrite IH. unfold lower_c. destruct (name_facts c H) as (_ & _ & _ & _ & _ & _ & _ & ->). reflexivity.
Qed.
End L.
Lemma spells_parts : forall nm t, spells nm t -> Forall name_part nm.
Proof. intros nm t (c & r & -> & L & F & _). constructor; auto. now apply letter_part. Qed.

(** ** Runs of characters *)
Lemma take_app : forall p a r, Forall (fun c => p c = true) a -> (r = [] \/ exists c r', r = c :: r' /\ p c = false) -> take_while p (a ++ r) = a /\ drop_while p (a ++ r) = r.
Proof.
  intros p a r F H. induction F as [|c a HC _ IH]; cbn [app take_while drop_while].
  - destruct H as [->|(c & r' & -> & P)]; [split; reflexivity|]. cbn [take_while drop_while]. rewrite P. split; reflexivity.
  - destruct IH as [E1 E2]. rewrite HC, E1, E2. split; reflexivity.
Qed.
Lemma blanks_space : forall w, Forall html_blank w -> Forall (fun c => is_space c = true) w.
Proof. intros w F. eapply Forall_impl; [|exact F]. intros c H. apply (blank_facts c H). Qed.
Lemma after_app : forall c a r, ~ In c a -> after_char c (a ++ c :: r) = Some r.
Proof.
  induction a as [|x a IH]; intros r H; cbn [app after_char]; [now rewrite N.eqb_refl|]. destruct (N.eqb_spec x c); [elim H; now left|]. apply IH. intros I. apply H. now right.
Qed.
Lemma blanks_not : forall c w, Forall html_blank w -> ~ html_blank c -> ~ In c w.
Proof. intros c w F H I. rewrite Forall_forall in F. apply H. auto. Qed.
Lemma last_default : forall (w : str) p q, w <> [] -> last w p = last w q.
Proof. induction w as [|x [|y w] IH]; intros p q H; [now elim H|reflexivity|]. change (last (x :: y :: w) p) with (last (y :: w) p). change (last (x :: y :: w) q) with (last (y :: w) q). apply IH. discriminate. Qed.
Lemma last_cons_default : forall (w : str) c p, last (c :: w) p = last w c.
Proof. induction w as [|x w IH]; intros c p; [reflexivity|]. change (last (c :: x :: w) p) with (last (x :: w) p). rewrite IH. symmetry. apply IH. Qed.
Lemma last_blank : forall w p, Forall html_blank w -> w <> [] -> is_space (last w p) = true.
Proof.
  intros w p F H. induction w as [|c w IH]; [now elim H|]. inversion F; subst. rewrite last_cons_default. destruct w as [|d w]; [apply (blank_facts c H2)|].
  rewrite (last_default (d :: w) c p) by discriminate. apply IH; auto. discriminate.
Qed.

(** ** Character references *)
Definition name_ok (k : string) : bool :=
  let s := lit k in
  match rev s with
  | 59 :: r => (match rev r with c :: _ => negb (c =? 35) | [] => false end)
               && forallb ref_char r && (length r <=? 32)%nat && forallb (fun c => negb ((c =? 34) || (c =? 39) || (c =? 60) || (c =? 62) || is_space c)) r
  | _ => true
  end.
Lemma table_names : forallb (fun kv => name_ok (fst kv)) html5 = true.
Proof. vm_compute. reflexivity. Qed.
Lemma table_lookup : forallb (fun kv => match entity (lit (fst kv)) with Some v => seqb v (snd kv) | None => false end) html5 = true.
Proof. vm_compute. reflexivity. Qed.
Lemma entity_named : forall k v, In (k, v) html5 -> entity (lit k) = Some v.
Proof.
  intros k v I. pose proof table_lookup as T. rewrite forallb_forall in T. specialize (T _ I). cbn [fst snd] in T.
  destruct (entity (lit k)) as [x|]; [|discriminate]. destruct (seqb_spec x v); [now subst|discriminate].
Qed.
Lemma table_name : forall k v nm, In (k, v) html5 -> lit k = nm ++ [59] ->
  (exists c r, nm = c :: r /\ c <> 35) /\ Forall (fun c => ref_char c = true) nm /\ (length nm <= 32)%nat
  /\ Forall (fun c => c <> 34 /\ c <> 39 /\ c <> 60 /\ c <> 62 /\ is_space c = false) nm.
Proof.
  intros k v nm I E. pose proof table_names as T. rewrite forallb_forall in T. specialize (T _ I). cbn [fst] in T. unfold name_ok in T. rewrite E, rev_app_distr in T. cbn [rev app] in T.
  apply andb_true_iff in T. destruct T as [T T4]. apply andb_true_iff in T. destruct T as [T T3]. apply andb_true_iff in T. destruct T as [T1 T2]. rewrite rev_involutive in T1. rewrite rev_length in T3.
  apply Nat.leb_le in T3. rewrite forallb_forall in T2, T4. split; [destruct nm as [|c r]; [discriminate|]; exists c, r; split; auto; intros ->; discriminate|].
  split; [apply Forall_forall; intros x X; apply T2; now apply -> in_rev|]. split; [exact T3|]. apply Forall_forall. intros x X. specialize (T4 x (proj1 (in_rev _ _) X)).
  repeat split; try (intros ->; discriminate). destruct (is_space x); [|reflexivity]. rewrite orb_true_r in T4. discriminate.
Qed.
Lemma take_upto_app : forall n p a r, Forall (fun c => p c = true) a -> (length a <= n)%nat -> (exists c r', r = c :: r' /\ p c = false) -> take_upto n p (a ++ r) = a.
Proof.
  intros n p a r F. revert n. induction F as [|c a HC _ IH]; intros n L H; cbn [app].
  - destruct H as (c & r' & -> & P). destruct n; cbn [take_upto]; [reflexivity|]. now rewrite P.
  - destruct n; [cbn in L; lia|]. cbn [take_upto]. rewrite HC, IH; auto. cbn in L. lia.
Qed.
Definition named_part (s : str) : option (res str * str) :=
  match take_upto 32 ref_char s with
  | [] => None
  | nm => let '(sc, r) := semi (skipn (length nm) s) in Some (Ok (named_ref (nm ++ sc)), r)
  end.
Lemma charref_other : forall s, (forall r, s <> 35 :: r) -> charref s = named_part s.
Proof.
  intros s H. unfold charref, named_part. cbv zeta. destruct s as [|c s]; [reflexivity|]. destruct c as [|p]; [reflexivity|].
  repeat (destruct p as [p|p|]; try reflexivity). elim (H s eq_refl).
Qed.
Lemma unescape_go_fuel : forall f f' s, (length s < f)%nat -> (length s < f')%nat -> unescape_go f s = unescape_go f' s.
Proof.
  induction f as [|f IH]; intros f' s L L'; [lia|]. destruct f' as [|f']; [lia|]. destruct s as [|c r]; [reflexivity|]. cbn [length unescape_go] in *.
  rewrite (IH f' r) by lia. destruct (c =? 38); [|reflexivity]. destruct (charref r) as [[v r']|] eqn:C; [|reflexivity].
  apply charref_shorter in C. destruct C as [C _]. rewrite (IH f' r') by lia. reflexivity.
Qed.
Lemma unescape_cons : forall c r, unescape (c :: r) =
  if c =? 38 then match charref r with
    | Some (v, r') => let* x := v in let* y := unescape r' in Ok (x ++ y)
    | None => let* y := unescape r in Ok (c :: y) end
  else let* y := unescape r in Ok (c :: y).
Proof.
  intros c r. unfold unescape. change (length (c :: r)) with (S (length r)). 
  assert (G : forall f, (length r < f)%nat -> unescape_go (S f) (c :: r) = if c =? 38 then match charref r with
    | Some (v, r') => let* x := v in let* y := unescape_go f r' in Ok (x ++ y)
    | None => let* y := unescape_go f r in Ok (c :: y) end
    else let* y := unescape_go f r in Ok (c :: y)) by reflexivity.
  assert (L : (length r < S (length r))%nat) by lia. rewrite (G _ L). clear G. set (f := S (length r)) in L |- * at 1 2 3. clearbody f.
  rewrite (unescape_go_fuel f (S (length r)) r) by lia. destruct (c =? 38); [|reflexivity].
  destruct (charref r) as [[v r']|] eqn:C; [|reflexivity]. apply charref_shorter in C. destruct C as [C _]. now rewrite (unescape_go_fuel f (S (length r')) r') by lia.
Qed.
Definition bad_point (n : N) : bool :=
  negb (((n =? 9) || (n =? 10) || (n =? 12) || ((32 <=? n) && (n <=? 126)) || ((160 <=? n) && (n <=? 55295)) || ((57344 <=? n) && (n <=? 1114111)))
        && negb ((64976 <=? n) && (n <=? 65007)) && (n mod 65536 <? 65534)).
Lemma tables_bad : forallb bad_point (map fst invalid_charrefs ++ invalid_codepoints) = true.
Proof. vm_compute. reflexivity. Qed.
Lemma ordinary_charref : forall n, plain_point n -> charref_num n = [n].
Proof.
  intros n [H1 [H2 H3]]. assert (B : bad_point n = false).
  { unfold bad_point. apply negb_false_iff. apply andb_true_iff. split; [|now apply N.ltb_lt]. apply andb_true_iff. split; [|apply negb_true_iff, not_true_is_false; rewrite andb_true_iff, !N.leb_le; tauto].
    rewrite !orb_true_iff, !andb_true_iff, !N.eqb_eq, !N.leb_le. tauto. }
  pose proof tables_bad as T. rewrite forallb_app, andb_true_iff, !forallb_forall in T. destruct T as [T1 T2].
  unfold charref_num. assert (F : find (fun p => fst p =? n) invalid_charrefs = None).
  { destruct (find (fun p => fst p =? n) invalid_charrefs) as [[k c]|] eqn:E; [|reflexivity]. apply find_some in E. destruct E as [I E]. cbn [fst] in E. apply N.eqb_eq in E. subst k.
    rewrite (T1 n) in B; [discriminate|]. apply in_map_iff. exists (n, c). auto. }
  rewrite F. replace (((55296 <=? n) && (n <=? 57343)) || (1114111 <? n)) with false by (symmetry; apply not_true_is_false; rewrite orb_true_iff, andb_true_iff, !N.leb_le, N.ltb_lt; lia).
  replace (existsb (N.eqb n) invalid_codepoints) with false; [reflexivity|]. symmetry. apply not_true_is_false. intros E. apply existsb_exists in E. destruct E as (x & I & E). apply N.eqb_eq in E. subst x. rewrite (T2 n I) in B. discriminate.
Qed.
Lemma dec_number : forall ds n, Forall digit ds -> digits_val 10 n dec_digit ds = Some (fold_left (fun n c => n * 10 + hex_value c) ds n).
Proof.
  induction ds as [|c ds IH]; intros n F; [reflexivity|]. inversion F; subst. cbn [digits_val fold_left]. unfold dec_digit at 1, is_digit_ascii. unfold digit in H1.
  replace ((48 <=? c) && (c <=? 57)) with true by (symmetry; apply andb_true_iff; rewrite !N.leb_le; lia). rewrite IH by assumption. do 3 f_equal. unfold hex_value. destruct (N.leb_spec c 57); lia.
Qed.
Lemma hex_digit_value : forall c, hex_char c -> hex_digit c = Some (hex_value c).
Proof. intros c H. unfold hex_digit, hex_value, is_digit_ascii. unfold hex_char, digit in H. destruct (N.leb_spec 48 c), (N.leb_spec c 57), (N.leb_spec 97 c), (N.leb_spec c 102), (N.leb_spec 65 c), (N.leb_spec c 70); cbn [andb]; try reflexivity; try lia. Qed.
Lemma hex_number : forall ds n, Forall hex_char ds -> digits_val 16 n hex_digit ds = Some (fold_left (fun n c => n * 16 + hex_value c) ds n).
Proof. induction ds as [|c ds IH]; intros n F; [reflexivity|]. inversion F; subst. cbn [digits_val fold_left]. rewrite hex_digit_value by assumption. now rewrite IH. Qed.
Lemma digit_ascii : forall c, digit c -> is_digit_ascii c = true.
Proof. intros c H. unfold is_digit_ascii. unfold digit in H. apply andb_true_iff. rewrite !N.leb_le. lia. Qed.

Lemma text_unescape {sm} : forall ok m s, text_as sm ok m s -> unescape s = Ok m.
Proof.
  intros ok m s H. induction H as [|c m s K N38 H IH|m s H IH NR|k nm v m s I E H IH|ds m s NE F L O H IH|x ds m s X NE F L O H IH]; [reflexivity|..]; rewrite unescape_cons.
  - destruct (N.eqb_spec c 38); [contradiction|]. now rewrite IH.
  - change (38 =? 38) with true. cbv iota. replace (charref s) with (@None (res str * str)); [now rewrite IH|]. symmetry. destruct NR as [->|(c & r & -> & NR)]; [reflexivity|].
    destruct NR as [->|[->|[->|[->|[->| ->]]]]]; reflexivity.
  - change (38 =? 38) with true. cbv iota. destruct (table_name _ _ _ I E) as ((c & r & -> & N35) & FR & LN & _).
    rewrite charref_other by (intros r'; cbn [app]; congruence). unfold named_part.
    rewrite take_upto_app; auto; [|exists 59, s; split; reflexivity]. cbv iota. replace (skipn (length (c :: r)) ((c :: r) ++ 59 :: s)) with (59 :: s) by (symmetry; rewrite skipn_app, skipn_all, Nat.sub_diag; reflexivity).
    change (semi (59 :: s)) with ([59], s). cbv iota beta. unfold named_ref. rewrite <- E, (entity_named _ _ I). cbn [bind]. rewrite IH. reflexivity.
  - change (38 =? 38) with true. cbv iota. assert (C : charref (35 :: ds ++ 59 :: s) = Some (Ok [number 10 ds], s)).
    { unfold charref. cbv zeta. destruct (take_app is_digit_ascii ds (59 :: s)) as [E1 E2]; [eapply Forall_impl; [|exact F]; apply digit_ascii|right; exists 59, s; split; reflexivity|].
      rewrite E1, E2. destruct ds as [|d ds]; [now elim NE|]. change (snd (semi (59 :: s))) with s. replace (max_digits <? len (d :: ds))%Z with false by (symmetry; apply Z.ltb_ge; unfold max_digits; destruct sm; lia).
      unfold num_of. rewrite dec_number by assumption. fold (number 10 (d :: ds)). now rewrite ordinary_charref. }
    rewrite C. cbn [bind]. rewrite IH. reflexivity.
  - change (38 =? 38) with true. cbv iota. assert (C : charref (35 :: x :: ds ++ 59 :: s) = Some (Ok [number 16 ds], s)).
    { unfold charref. cbv zeta. replace (take_while is_digit_ascii (x :: ds ++ 59 :: s)) with (@nil N) by (destruct X; subst x; reflexivity). cbv iota.
      replace ((x =? 120) || (x =? 88)) with true by (destruct X; subst x; reflexivity). cbv iota.
      destruct (take_app is_hex ds (59 :: s)) as [E1 E2]; [eapply Forall_impl; [|exact F]; intros c HC; unfold is_hex; now rewrite hex_digit_value|right; exists 59, s; split; reflexivity|].
      rewrite E1, E2. destruct ds as [|d ds]; [now elim NE|]. change (snd (semi (59 :: s))) with s. unfold num_of. rewrite hex_number by assumption. fold (number 16 (d :: ds)). now rewrite ordinary_charref. }
    rewrite C. cbn [bind]. rewrite IH. reflexivity.
Qed.
(** Source characters of a text: allowed ones, or those of references. *)
Lemma text_chars {sm} : forall (ok P : N -> Prop) m s, text_as sm ok m s -> (forall c, ok c -> P c) ->
  P 38 -> P 35 -> P 59 -> P 88 -> P 120 -> (forall c, hex_char c -> P c) ->
  (forall c, c <> 34 /\ c <> 39 /\ c <> 60 /\ c <> 62 /\ is_space c = false -> P c) -> Forall P s.
Proof.
  intros ok P m s H POK P38 P35 P59 P88 P120 PH PN.
  induction H as [|c m s K N38 H IH|m s H IH NR|k nm v m s I E H IH|ds m s NE F L O H IH|x ds m s X NE F L O H IH]; auto.
  - constructor; auto. apply Forall_app. split; [|constructor; auto]. destruct (table_name _ _ _ I E) as (_ & _ & _ & T). eapply Forall_impl; [|exact T]. apply PN.
  - constructor; auto. constructor; auto. apply Forall_app. split; [|constructor; auto]. eapply Forall_impl; [|exact F]. intros c D. apply PH. now left.
  - constructor; auto. constructor; auto. constructor; [destruct X; subst; auto|]. apply Forall_app. split; [|constructor; auto]. eapply Forall_impl; [|exact F]. apply PH.
Qed.
Close Scope N_scope.
