(** Character references: the model against the expression and RefSpec. *)
From Verif Require Import SourceFacts RefSpec RegexSpec RegexFacts RegexText Tokenizer TokFacts StrFacts BaseFacts.
From Coq Require Import Lia.
Open Scope N_scope.

(** ** Code points *)
Lemma charrefs_keys : map fst invalid_charrefs = 0 :: 13 :: map N.of_nat (seq 128 32). Proof. vm_compute. reflexivity. Qed.
Definition nothing_b (n : N) : bool :=
  ((1 <=? n) && (n <=? 8)) || (n =? 11) || ((14 <=? n) && (n <=? 31)) || (n =? 127) || ((64976 <=? n) && (n <=? 65007)) || (65534 <=? n mod 65536).
Lemma nothing_is : forall n, nothing_b n = true <-> no_character n.
Proof. intros n. unfold nothing_b, no_character. rewrite !orb_true_iff, !andb_true_iff, !N.eqb_eq, !N.leb_le. tauto. Qed.
Lemma in_range : forall a k n, a <= n < a + N.of_nat k -> In n (map (fun i => a + N.of_nat i) (seq 0 k)).
Proof. intros a k n H. apply in_map_iff. exists (N.to_nat (n - a)). split; [rewrite N2Nat.id; lia|]. apply in_seq. lia. Qed.
Definition nothing_list : list N :=
  map (fun i => 1 + N.of_nat i) (seq 0 8) ++ [11] ++ map (fun i => 14 + N.of_nat i) (seq 0 18) ++ [127] ++ map (fun i => 64976 + N.of_nat i) (seq 0 32)
  ++ flat_map (fun i => [65536 * N.of_nat i + 65534; 65536 * N.of_nat i + 65535]) (seq 0 17).
Lemma nothing_listed : forall n, n <= 1114111 -> no_character n -> In n nothing_list.
Proof.
  intros n L H. unfold nothing_list. rewrite !in_app_iff. destruct H as [H|[->|[H|[->|[H|H]]]]].
  - left. apply in_range. lia.
  - right. left. now left.
  - right. right. left. apply in_range. lia.
  - right. right. right. left. now left.
  - right. right. right. right. left. apply in_range. lia.
  - right. right. right. right. right. apply in_flat_map. pose proof (N.div_mod' n 65536) as D. pose proof (N.mod_lt n 65536 ltac:(lia)) as M. exists (N.to_nat (n / 65536)). rewrite N2Nat.id. split.
    + apply in_seq. assert (n / 65536 < 17) by (apply N.div_lt_upper_bound; lia). lia.
    + destruct (N.eq_dec (n mod 65536) 65534) as [E|E]; [left|right; left]; lia.
Qed.
Lemma listed_table : forallb (fun n => existsb (N.eqb n) invalid_codepoints) nothing_list = true. Proof. vm_compute. reflexivity. Qed.
Lemma table_listed : forallb (fun n => nothing_b n || ((128 <=? n) && (n <=? 159))) invalid_codepoints = true. Proof. vm_compute. reflexivity. Qed.
Lemma windows_table : forallb (fun i => match find (fun p => fst p =? 128 + N.of_nat i) invalid_charrefs with Some (_, c) => c =? nth i windows 0 | None => false end) (seq 0 32) = true. Proof. vm_compute. reflexivity. Qed.
Lemma code_is : forall n, code_text n (charref_num n).
Proof.
  intros n. destruct (N.eq_dec n 0) as [->|N0]; [apply ct_zero|].
  destruct (N.leb_spec 128 n) as [L1|L1]; [destruct (N.leb_spec n 159) as [L2|L2]|].
  - pose proof windows_table as T. rewrite forallb_forall in T. specialize (T (N.to_nat (n - 128)) ltac:(apply in_seq; lia)). rewrite N2Nat.id in T. replace (128 + (n - 128)) with n in T by lia.
    unfold charref_num. destruct (find (fun p => fst p =? n) invalid_charrefs) as [[k c]|]; [|discriminate]. apply N.eqb_eq in T. subst c. now apply ct_windows.
  - assert (F : find (fun p => fst p =? n) invalid_charrefs = None).
    { destruct (find (fun p => fst p =? n) invalid_charrefs) as [[k c]|] eqn:E; auto. apply find_some in E as [I E]. cbn [fst] in E. apply N.eqb_eq in E. subst k. apply (in_map fst) in I. rewrite charrefs_keys in I. cbn [fst] in I.
      destruct I as [I|[I|I]]; try lia. apply in_map_iff in I as (i & <- & I). apply in_seq in I. lia. }
    unfold charref_num. rewrite F. destruct (((55296 <=? n) && (n <=? 57343)) || (1114111 <? n)) eqn:S0.
    + apply orb_prop in S0 as [S0|S0]; [apply andb_prop in S0 as [A B]; apply N.leb_le in A, B; now apply ct_surrogate|apply N.ltb_lt in S0; now apply ct_large].
    + apply orb_false_iff in S0 as [A B]. apply N.ltb_ge in B. apply andb_false_iff in A. destruct (existsb (N.eqb n) invalid_codepoints) eqn:E.
      * apply existsb_exists in E as (x & I & E). apply N.eqb_eq in E. subst x. pose proof table_listed as T. rewrite forallb_forall in T. specialize (T n I). apply orb_prop in T as [T|T]; [apply ct_nothing; auto; now apply nothing_is|].
        apply andb_prop in T as [_ T]. apply N.leb_le in T. lia.
      * apply ct_plain; try lia.
        -- intros [X Y]. destruct A as [A|A]; apply N.leb_gt in A; lia.
        -- intros NC. pose proof listed_table as T. rewrite forallb_forall in T. rewrite (T n (nothing_listed n B NC)) in E. discriminate.
  - destruct (N.eq_dec n 13) as [->|N13]; [apply ct_plain; try lia; rewrite <- nothing_is; discriminate|].
    assert (F : find (fun p => fst p =? n) invalid_charrefs = None).
    { destruct (find (fun p => fst p =? n) invalid_charrefs) as [[k c]|] eqn:E; auto. apply find_some in E as [I E]. cbn [fst] in E. apply N.eqb_eq in E. subst k. apply (in_map fst) in I. rewrite charrefs_keys in I. cbn [fst] in I.
      destruct I as [I|[I|I]]; try lia. apply in_map_iff in I as (i & <- & I). apply in_seq in I. lia. }
    unfold charref_num. rewrite F. replace (((55296 <=? n) && (n <=? 57343)) || (1114111 <? n)) with false by (symmetry; apply not_true_is_false; rewrite orb_true_iff, andb_true_iff, !N.leb_le, N.ltb_lt; lia).
    destruct (existsb (N.eqb n) invalid_codepoints) eqn:E.
    + apply existsb_exists in E as (x & I & E). apply N.eqb_eq in E. subst x. pose proof table_listed as T. rewrite forallb_forall in T. specialize (T n I). apply orb_prop in T as [T|T]; [apply ct_nothing; [lia|now apply nothing_is]|].
      apply andb_prop in T as [T _]. apply N.leb_le in T. lia.
    + apply ct_plain; try lia. intros NC. pose proof listed_table as T. rewrite forallb_forall in T. rewrite (T n (nothing_listed n ltac:(lia) NC)) in E. discriminate.
Qed.
Lemma code_one : forall n a b, code_text n a -> code_text n b -> a = b.
Proof.
  assert (W : forall n, 128 <= n <= 159 -> ~ no_character n). { intros n H C. assert (n mod 65536 = n) by (apply N.mod_small; lia). unfold no_character in C. lia. }
  assert (S0 : forall n, 55296 <= n <= 57343 -> ~ no_character n). { intros n H C. assert (n mod 65536 = n) by (apply N.mod_small; lia). unfold no_character in C. lia. }
  assert (Z0 : ~ no_character 0). { intros C. unfold no_character in C. change (0 mod 65536) with 0 in C. lia. }
  intros n a b A B. inversion A; subst; inversion B; subst; auto; try lia; exfalso; first [now apply Z0 | now apply (W n) | now apply (S0 n) | tauto | lia].
Qed.

(** ** Names *)
Lemma entity_in_some : forall t n v, entity_in t n = Some v -> exists k, In (k, v) t /\ lit k = n.
Proof.
  induction t as [|[k w] t IH]; intros n v H; [discriminate|]. cbn [entity_in] in H. destruct (seqb_spec (lit k) n) as [E|E]; [injection H as <-; exists k; split; [now left|exact E]|].
  destruct (IH n v H) as (k' & I & E'). exists k'. split; [now right|exact E'].
Qed.
Lemma entity_is : forall n v, entity n = Some v <-> entity_name n v.
Proof. intros n v. split; [apply entity_in_some|]. intros (k & I & <-). now apply entity_named. Qed.
Lemma names_long : forallb (fun kv => Nat.leb 2 (length (lit (fst kv)))) html5 = true. Proof. vm_compute. reflexivity. Qed.
Lemma name_long : forall n v, entity_name n v -> (2 <= length n)%nat.
Proof. intros n v (k & I & <-). pose proof names_long as T. rewrite forallb_forall in T. specialize (T _ I). now apply Nat.leb_le in T. Qed.
Lemma prefix_is : forall n s, (n <= length s)%nat ->
  (exists p q v, s = p ++ q /\ (length p <= n)%nat /\ entity_name p v /\ (forall p' q' v', s = p' ++ q' -> (length p' <= n)%nat -> entity_name p' v' -> (length p' <= length p)%nat) /\ entity_prefix n s = v ++ q)
  \/ ((forall p q v, s = p ++ q -> (length p <= n)%nat -> ~ entity_name p v) /\ entity_prefix n s = 38 :: s).
Proof.
  induction n as [|n IH]; intros s L.
  - right. split; auto. intros p q v E L' H. apply name_long in H. lia.
  - destruct n as [|n]; [right; split; auto; intros p q v E L' H; apply name_long in H; lia|]. set (m := S n) in *. change (entity_prefix (S m) s) with (match entity (firstn (S m) s) with Some v => v ++ skipn (S m) s | None => entity_prefix m s end).
    destruct (entity (firstn (S m) s)) as [v|] eqn:E.
    + left. exists (firstn (S m) s), (skipn (S m) s), v. rewrite firstn_skipn. apply entity_is in E. rewrite firstn_length. split; auto. split; [lia|]. split; auto. split; auto. intros. lia.
    + assert (X : forall p q v, s = p ++ q -> (length p <= S m)%nat -> entity_name p v -> (length p <= m)%nat).
      { intros p q v ES LP H. destruct (Nat.eq_dec (length p) (S m)) as [EL|]; [|lia]. exfalso. apply entity_is in H. rewrite ES, <- EL, firstn_app, firstn_all, Nat.sub_diag, firstn_O, app_nil_r in E. congruence. }
      destruct (IH s ltac:(lia)) as [(p & q & v & E1 & E2 & E3 & E4 & E5)|[E1 E2]].
      * left. exists p, q, v. split; auto. split; [lia|]. split; auto. split; auto. intros p' q' v' ES LP H. eapply E4; eauto.
      * right. split; auto. intros p q v ES LP H. apply (E1 p q v ES); eauto.
Qed.
Lemma named_stands : forall c n, c <> 35 -> stands_for (c :: n) (named_ref (c :: n)).
Proof.
  intros c n NC. unfold named_ref. destruct (entity (c :: n)) as [v|] eqn:E; [apply sf_name; auto; now apply entity_is|].
  assert (NE : forall v', ~ entity_name (c :: n) v') by (intros v' H; apply entity_is in H; congruence).
  assert (LQ : forall p q : str, c :: n = p ++ q -> ((length p <= length (c :: n) - 1)%nat <-> q <> [])).
  { intros p q E2. apply (f_equal (@length N)) in E2. rewrite app_length in E2. cbn [length] in *. destruct q; cbn [length] in E2; split; intros; try discriminate; try lia. contradiction. }
  destruct (prefix_is (length (c :: n) - 1) (c :: n) ltac:(lia)) as [(p & q & v & E1 & E2 & E3 & E4 & E5)|[E1 E2]].
  - rewrite E5. apply sf_prefix with (p := p); auto; [now apply (LQ p q)|]. intros p' q' v' ES NQ H. apply (E4 p' q' v' ES); auto. now apply (LQ p' q').
  - rewrite E2. apply sf_nothing; auto. intros p q v ES H. destruct q as [|x q]; [rewrite app_nil_r in ES; subst p; exact (NE v H)|]. apply (E1 p (x :: q) v ES); auto. apply (LQ p (x :: q) ES). discriminate.
Qed.
Lemma entity_one : forall n v w, entity_name n v -> entity_name n w -> v = w.
Proof. intros n v w A B. apply entity_is in A, B. congruence. Qed.
Lemma hex_not_semi : ~ hex_char 59. Proof. unfold hex_char, digit. lia. Qed.
Lemma app_same : forall (a a' b b' : str), length a = length a' -> a ++ b = a' ++ b' -> a = a' /\ b = b'.
Proof. induction a as [|x a IH]; intros [|y a'] b b' L E; cbn [length] in L; try lia; [now split|]. injection E as -> E. destruct (IH a' b b' ltac:(lia) E) as [-> ->]. now split. Qed.
Lemma semi_cut : forall ds ds' s s', Forall hex_char ds -> Forall hex_char ds' -> semicolon s -> semicolon s' -> ds ++ s = ds' ++ s' -> ds = ds'.
Proof.
  induction ds as [|d ds IH]; intros ds' s s' F F' S0 S1 E.
  - destruct ds' as [|d' ds']; auto. cbn [app] in E. destruct S0 as [-> | ->]; [discriminate E|]. injection E as <- _. inversion F' as [|? ? H]. now apply hex_not_semi in H.
  - inversion F as [|? ? H FR]; subst. destruct ds' as [|d' ds'].
    + cbn [app] in E. destruct S1 as [-> | ->]; [discriminate E|]. injection E as -> _. now apply hex_not_semi in H.
    + injection E as <- E. inversion F' as [|? ? H2 FR2]; subst. f_equal. exact (IH ds' s s' FR FR2 S0 S1 E).
Qed.
Lemma digit_hex : forall ds, Forall digit ds -> Forall hex_char ds. Proof. intros ds F. eapply Forall_impl; [|exact F]. intros c H. now left. Qed.
Lemma stands_one : forall g a b, stands_for g a -> stands_for g b -> a = b.
Proof.
  intros g a b A. destruct A as [ds s t N1 F1 L1 S1 C1|x ds s t X1 N1 F1 S1 C1|c n v NC H1|c n p q v NC NE E1 Q1 H1 M1|c n NC NE]; intros B.
  - inversion B as [ds2 s2 t2 N2 F2 L2 S2 C2 E|x2 ds2 s2 t2 X2 N2 F2 S2 C2 E|? ? ? ? ? E|? ? ? ? ? NC2 ? ? ? ? ? E|? ? NC2 ? E]; subst; try congruence.
    + assert (ds2 = ds) as -> by (eapply semi_cut; [apply digit_hex; exact F2|apply digit_hex; exact F1|exact S2|exact S1|exact E]). eapply code_one; eauto.
    + destruct ds as [|d ds]; [congruence|]. cbn [app] in E. injection E as <- _. inversion F1 as [|? ? D]. unfold digit in D. lia.
  - inversion B as [ds2 s2 t2 N2 F2 L2 S2 C2 E|x2 ds2 s2 t2 X2 N2 F2 S2 C2 E|? ? ? ? ? E|? ? ? ? ? NC2 ? ? ? ? ? E|? ? NC2 ? E]; subst; try congruence.
    + destruct ds2 as [|d ds2]; [congruence|]. cbn [app] in E. injection E as -> _. inversion F2 as [|? ? D]. unfold digit in D. lia.
    + assert (ds2 = ds) as -> by (eapply semi_cut; [exact F2|exact F1|exact S2|exact S1|assumption]). eapply code_one; eauto.
  - inversion B as [| |? ? ? ? H2|? ? p2 q2 v2 NC2 NE2|? ? NC2 NE2]; subst; try congruence.
    + eapply entity_one; eauto.
    + exfalso. eapply NE2; eauto.
    + exfalso. apply (NE2 (c :: n) [] v); auto. now rewrite app_nil_r.
  - inversion B as [| |? ? ? ? H2|? ? p2 q2 v2 NC2 NE2 E2 Q2 H2 M2|? ? NC2 NE2]; subst; try congruence.
    + exfalso. eapply NE; eauto.
    + pose proof (M1 _ _ _ E2 Q2 H2) as G1. pose proof (M2 _ _ _ E1 Q1 H1) as G2. assert (EQ : length p = length p2) by lia. rewrite E1 in E2. apply app_same in E2; [|exact EQ]. destruct E2 as [<- <-]. f_equal. eapply entity_one; eauto.
    + exfalso. eapply (NE2 p q v); eauto.
  - inversion B as [| |? ? ? ? H2|? ? p2 q2 v2 NC2 NE2 E2 Q2 H2 M2|? ? NC2 NE2]; subst; try congruence.
    + exfalso. apply (NE (c :: n) [] b); auto. now rewrite app_nil_r.
    + exfalso. eapply (NE p2 q2 v2); eauto.
Qed.

(** ** The expression *)
Lemma semi_is : forall s, exists sc r, semi s = (sc, r) /\ s = sc ++ r /\ semicolon sc /\ (sc = [] -> forall t, s <> 59 :: t).
Proof.
  intros s. destruct s as [|c s]; [exists [], []; repeat split; [now left|discriminate]|]. destruct (N.eq_dec c 59) as [->|NE].
  - exists [59], s. repeat split; [now right|discriminate].
  - exists [], (c :: s). repeat split; [|now left|congruence]. unfold semi. destruct c as [|p]; [reflexivity|]. repeat (destruct p as [p|p|]; try reflexivity). now contradiction NE.
Qed.
Lemma semi_via : forall {A} (k : spot -> option A) b s g, (forall t, k t <> None) -> via (opt (chr 59)) k (Spot b s g) = k (Spot (rev (fst (semi s)) ++ b) (snd (semi s)) g).
Proof.
  intros A k b s g T. rewrite via_opt. unfold chr. rewrite via_cls. destruct s as [|c s]; [reflexivity|]. destruct (N.eqb_spec 59 c) as [<-|NE].
  - cbn [semi fst snd rev app]. destruct (k (Spot (59 :: b) s g)) eqn:E; auto. now contradiction (T _ E).
  - destruct (semi_is (c :: s)) as (sc & r & -> & E & SC & _). cbn [fst snd]. destruct SC as [-> | ->]; [cbn [app] in E; now subst r|]. cbn [app] in E. congruence.
Qed.
Lemma d09_is : forall c, d09 c = is_digit_ascii c. Proof. reflexivity. Qed.
Lemma dhex_is : forall c, (span 48 57 c || span 97 102 c || span 65 70 c) = is_hex c.
Proof. intros c. unfold is_hex, hex_digit, is_digit_ascii, span. destruct ((48 <=? c) && (c <=? 57)); [reflexivity|]. destruct ((97 <=? c) && (c <=? 102)); [reflexivity|]. now destruct ((65 <=? c) && (c <=? 70)). Qed.
Lemma refc_is : forall c, none_of [9; 10; 12; 32; 60; 38; 35; 59] c = ref_char c.
Proof. intros c. unfold none_of, one_of, ref_char. cbn [existsb]. rewrite orb_false_r, !orb_assoc. reflexivity. Qed.
Lemma take_upto_ext : forall p q n s, (forall c, p c = q c) -> take_upto n p s = take_upto n q s.
Proof. intros p q n s E. revert n. induction s as [|c s IH]; intros [|n]; cbn [take_upto]; auto. rewrite E, IH. reflexivity. Qed.
Lemma take_upto_cut : forall n p s, s = take_upto n p s ++ skipn (length (take_upto n p s)) s.
Proof. induction n as [|n IH]; intros p [|c s]; auto. cbn [take_upto]. destruct (p c); auto. cbn [app length skipn]. now rewrite <- IH. Qed.
Lemma take_all : forall p s, Forall (fun c => p c = true) (take_while p s).
Proof. intros p. induction s as [|c s IH]; cbn [take_while]; auto. destruct (p c) eqn:E; auto. Qed.
Lemma ascii_digit : forall c, is_digit_ascii c = true -> digit c.
Proof. intros c H. unfold is_digit_ascii in H. apply andb_prop in H as [A B]. apply N.leb_le in A, B. unfold digit. lia. Qed.
Lemma hex_hex : forall c, is_hex c = true -> hex_char c.
Proof. intros c H. unfold is_hex, hex_digit, is_digit_ascii in H. unfold hex_char, digit. destruct ((48 <=? c) && (c <=? 57)) eqn:E1; [apply andb_prop in E1 as [A B]; apply N.leb_le in A, B; lia|]. destruct ((97 <=? c) && (c <=? 102)) eqn:E2; [apply andb_prop in E2 as [A B]; apply N.leb_le in A, B; lia|].
  destruct ((65 <=? c) && (c <=? 70)) eqn:E3; [apply andb_prop in E3 as [A B]; apply N.leb_le in A, B; lia|discriminate]. Qed.
Definition dec_re : re := seqs [chr 35; some_of (Cls d09); opt (chr 59)].
Definition hex_re : re := seqs [chr 35; Cls (one_of [120; 88]); some_of (Cls (fun c => span 48 57 c || span 97 102 c || span 65 70 c)); opt (chr 59)].
Definition name_re : re := seqs [Cls (none_of [9; 10; 12; 32; 60; 38; 35; 59]); up_to 31 (Cls (none_of [9; 10; 12; 32; 60; 38; 35; 59])); opt (chr 59)].
Section K.
Context {A : Type}.
Variable k : spot -> option A.
Hypothesis T : forall t, k t <> None.
Lemma ksome : forall t, exists x, k t = Some x. Proof. intros t. destruct (k t) eqn:E; [eauto|now contradiction (T t)]. Qed.
Lemma dec_via : forall b s g, via dec_re k (Spot b (35 :: s) g) = match take_while is_digit_ascii s with
  | [] => None | ds => let '(sc, r) := semi (drop_while is_digit_ascii s) in k (Spot (rev (35 :: ds ++ sc) ++ b) r g) end.
Proof.
  intros b s g. unfold dec_re. cbn [seqs]. rewrite via_seq. unfold chr at 1. rewrite via_cls. change (35 =? 35) with true. cbv iota. rewrite via_seq.
  destruct (take_while is_digit_ascii s) as [|d ds] eqn:E; [now apply some_none|]. destruct (semi (drop_while is_digit_ascii s)) as [sc r] eqn:ES. destruct (ksome (Spot (rev (35 :: (d :: ds) ++ sc) ++ b) r g)) as [x X]. rewrite X. apply some_total.
  - change d09 with is_digit_ascii. rewrite E. discriminate.
  - change d09 with is_digit_ascii. unfold spent. rewrite semi_via by exact T. rewrite ES, E. cbn [fst snd]. cbn [rev] in X. rewrite rev_app_distr in X. cbn [rev] in X. rewrite <- X. f_equal. f_equal. cbn [rev]. now rewrite <- !app_assoc.
Qed.
Lemma hex_via : forall b s g, via hex_re k (Spot b (35 :: s) g) = match s with
  | x :: s' => if (x =? 120) || (x =? 88) then match take_while is_hex s' with [] => None | ds => let '(sc, r) := semi (drop_while is_hex s') in k (Spot (rev (35 :: x :: ds ++ sc) ++ b) r g) end else None
  | [] => None end.
Proof.
  intros b s g. unfold hex_re. cbn [seqs]. rewrite via_seq. unfold chr at 1. rewrite via_cls. change (35 =? 35) with true. cbv iota. rewrite via_seq, via_cls. destruct s as [|x s]; [reflexivity|]. cbn [one_of existsb]. rewrite orb_false_r.
  destruct ((x =? 120) || (x =? 88)); [|reflexivity]. rewrite via_seq.
  destruct (take_while is_hex s) as [|d ds] eqn:E; [apply some_none; rewrite (take_ext _ is_hex); [exact E|apply dhex_is]|]. destruct (semi (drop_while is_hex s)) as [sc r] eqn:ES. destruct (ksome (Spot (rev (35 :: x :: (d :: ds) ++ sc) ++ b) r g)) as [y X]. rewrite X. apply some_total.
  - rewrite (take_ext _ is_hex) by apply dhex_is. rewrite E. discriminate.
  - rewrite (spent_ext _ is_hex) by apply dhex_is. unfold spent. rewrite semi_via by exact T. rewrite ES, E. cbn [fst snd]. cbn [rev] in X. rewrite rev_app_distr in X. cbn [rev] in X. rewrite <- X. f_equal. f_equal. cbn [rev]. now rewrite <- !app_assoc.
Qed.
Lemma name_via : forall b s g, via name_re k (Spot b s g) = match take_upto 32 ref_char s with
  | [] => None | nm => let '(sc, r) := semi (skipn (length nm) s) in k (Spot (rev (nm ++ sc) ++ b) r g) end.
Proof.
  intros b s g. unfold name_re. cbn [seqs]. rewrite via_seq, via_cls. destruct s as [|c s]; [reflexivity|]. rewrite refc_is. set (n := 31%nat). change 32%nat with (S n). cbn [take_upto]. destruct (ref_char c); [|reflexivity]. rewrite via_seq. cbn [length skipn].
  destruct (semi (skipn (length (take_upto n ref_char s)) s)) as [sc r] eqn:ES. destruct (ksome (Spot (rev ((c :: take_upto n ref_char s) ++ sc) ++ b) r g)) as [y X]. rewrite X. apply up_to_total. rewrite (take_upto_ext _ ref_char) by apply refc_is. rewrite semi_via by exact T. rewrite ES. cbn [fst snd].
  rewrite <- X. f_equal. f_equal. rewrite rev_app_distr. cbn [rev]. now rewrite <- !app_assoc.
Qed.
Lemma hash_only : forall c b s g, c <> 35 -> via dec_re k (Spot b (c :: s) g) = None /\ via hex_re k (Spot b (c :: s) g) = None.
Proof. intros c b s g NC. unfold dec_re, hex_re. cbn [seqs]. rewrite !via_seq. unfold chr at 1 3. rewrite !via_cls. destruct (N.eqb_spec 35 c); [congruence|]. now split. Qed.
Lemma hash_nil : forall b g, via dec_re k (Spot b [] g) = None /\ via hex_re k (Spot b [] g) = None.
Proof. intros b g. unfold dec_re, hex_re. cbn [seqs]. rewrite !via_seq. unfold chr at 1 3. rewrite !via_cls. now split. Qed.
Lemma ref_alts : forall b s g, via (alts [dec_re; hex_re; name_re]) k (Spot b s g) = match via dec_re k (Spot b s g) with Some x => Some x | None => match via hex_re k (Spot b s g) with Some x => Some x | None => via name_re k (Spot b s g) end end.
Proof. intros. cbn [alts]. now rewrite !via_alt. Qed.
End K.
Lemma charref_match : forall b s, match charref s with
  | None => match_at charref_re b (38 :: s) = None
  | Some (v, r) => exists x, s = x ++ r /\ match_at charref_re b (38 :: s) = Some (Spot (rev x ++ 38 :: b) r [(1%nat, x)])
      /\ match v with Ok t => stands_for x t | Err e => e = EValue /\ (exists ds sc, x = 35 :: ds ++ sc /\ Forall digit ds /\ semicolon sc /\ (4300 < len ds)%Z) end
  end.
Proof.
  intros b s. assert (M : match_at charref_re b (38 :: s) = via (alts [dec_re; hex_re; name_re]) (fun t => Some (Spot (seen t) (ahead t) ((1%nat, eaten (Spot (38 :: b) s []) t) :: groups t))) (Spot (38 :: b) s [])).
  { rewrite match_via. unfold charref_re. rewrite via_seq. unfold chr at 1. rewrite via_cls. change (38 =? 38) with true. cbv iota. now rewrite via_grp. }
  set (k := fun t => Some (Spot (seen t) (ahead t) ((1%nat, eaten (Spot (38 :: b) s []) t) :: groups t))) in M. assert (T : forall t, k t <> None) by (intros t; unfold k; discriminate).
  assert (KX : forall b' x r, s = x ++ r -> k (Spot b' r []) = Some (Spot b' r [(1%nat, x)])) by (intros b' x r E; unfold k; cbn [seen ahead groups]; now rewrite (eaten_cut _ _ x r _ _ _ E)).
  rewrite M, ref_alts. assert (D : s = [] \/ (exists s', s = 35 :: s') \/ exists c s', c <> 35 /\ s = c :: s') by (destruct s as [|c s']; [now left|right]; destruct (N.eq_dec c 35) as [->|]; [left|right]; eauto).
  destruct D as [->|[(s' & ->)|(c & s' & NC & ES)]].
  - cbn [charref take_upto]. destruct (hash_nil k (38 :: b) []) as [-> ->]. now rewrite name_via.
  - rewrite dec_via, hex_via, name_via by exact T. cbn [charref]. replace (take_upto 32 ref_char (35 :: s')) with (@nil N) by reflexivity. pose proof (take_drop is_digit_ascii s') as TD. pose proof (take_all is_digit_ascii s') as FA.
    destruct (take_while is_digit_ascii s') as [|d ds] eqn:E.
    + destruct s' as [|x s']; [reflexivity|]. destruct ((x =? 120) || (x =? 88)) eqn:EX; [|reflexivity]. clear TD FA. pose proof (take_drop is_hex s') as TD. pose proof (take_all is_hex s') as FA. destruct (take_while is_hex s') as [|d ds] eqn:E2; [reflexivity|].
      destruct (semi_is (drop_while is_hex s')) as (sc & r & ESM & ED & SC & _). rewrite ESM. cbn [snd]. assert (EX2 : 35 :: x :: s' = (35 :: x :: (d :: ds) ++ sc) ++ r) by (cbn [app]; rewrite <- app_assoc, <- ED; cbn [app] in TD; now rewrite TD).
      exists (35 :: x :: (d :: ds) ++ sc). split; [exact EX2|]. rewrite (KX _ _ _ EX2). split; [reflexivity|]. assert (FH : Forall hex_char (d :: ds)) by (eapply Forall_impl; [|exact FA]; apply hex_hex). unfold num_of. rewrite hex_number by exact FH. apply sf_hex; auto; [|discriminate|apply code_is].
      apply orb_prop in EX as [EX|EX]; apply N.eqb_eq in EX; auto.
    + destruct (semi_is (drop_while is_digit_ascii s')) as (sc & r & ESM & ED & SC & _). rewrite ESM. cbn [snd]. assert (EX2 : 35 :: s' = (35 :: (d :: ds) ++ sc) ++ r) by (cbn [app]; rewrite <- app_assoc, <- ED; cbn [app] in TD; now rewrite TD).
      exists (35 :: (d :: ds) ++ sc). split; [exact EX2|]. rewrite (KX _ _ _ EX2). split; [reflexivity|]. assert (FH : Forall digit (d :: ds)) by (eapply Forall_impl; [|exact FA]; apply ascii_digit). destruct (Z.ltb_spec max_digits (len (d :: ds))) as [L|L].
      * split; [reflexivity|]. exists (d :: ds), sc. auto.
      * unfold num_of. rewrite dec_number by exact FH. apply sf_decimal; auto; [discriminate|apply code_is].
  - rewrite charref_other by (intros r; rewrite ES; congruence). rewrite ES. destruct (hash_only k c (38 :: b) s' [] NC) as [-> ->]. rewrite name_via by exact T. unfold named_part. rewrite <- ES. pose proof (take_upto_cut 32 ref_char s) as TC. destruct (take_upto 32 ref_char s) as [|y nm] eqn:E; [reflexivity|].
    destruct (semi_is (skipn (length (y :: nm)) s)) as (sc & r & ESM & ED & SC & _). rewrite ESM. assert (EX2 : s = ((y :: nm) ++ sc) ++ r) by (rewrite <- app_assoc, <- ED; exact TC). exists ((y :: nm) ++ sc). split; [exact EX2|]. rewrite (KX _ _ _ EX2). split; [reflexivity|].
    assert (y = c) as -> by (rewrite ES in EX2; cbn [app] in EX2; congruence). now apply named_stands.
Qed.
Lemma charref_only : forall b c s, c <> 38 -> match_at charref_re b (c :: s) = None.
Proof. intros b c s NC. rewrite match_via. unfold charref_re. rewrite via_seq. unfold chr at 1. rewrite via_cls. destruct (N.eqb_spec 38 c); congruence. Qed.
Lemma charref_moves : moves charref_re.
Proof.
  intros b s m H. destruct s as [|c s]; [now rewrite match_via in H|]. destruct (N.eq_dec c 38) as [->|NC]; [|now rewrite charref_only in H]. pose proof (charref_match b s) as M. destruct (charref s) as [[v r]|]; [|congruence]. destruct M as (x & E & M & _).
  assert (m = Spot (rev x ++ 38 :: b) r [(1%nat, x)]) by congruence. subst m. cbn [ahead length]. rewrite E, app_length. lia.
Qed.
Definition too_long (i : item) : Prop := match i with
  | Found _ g => exists ds sc, find (fun x => Nat.eqb (fst x) 1) g = Some (1%nat, 35 :: ds ++ sc) /\ Forall digit ds /\ semicolon sc /\ (4300 < len ds)%Z
  | Other _ => False end.
Lemma unescape_go_re : forall n b s, (length s <= n)%nat ->
  match unescape s with
  | Ok t => decoded (items_at charref_re b s) t
  | Err e => e = EValue /\ Exists too_long (items_at charref_re b s)
  end.
Proof.
  induction n as [|n IH]; intros b s L; (destruct s as [|c s]; [constructor|]); cbn [length] in L; [lia|].
  rewrite unescape_cons, (items_cons _ charref_moves). destruct (N.eqb_spec c 38) as [->|NC].
  - pose proof (charref_match b s) as M. destruct (charref s) as [[v r]|].
    + destruct M as (x & E & M & V). rewrite M. cbn [groups seen ahead]. destruct v as [t|e].
      * cbn [bind]. specialize (IH (rev x ++ 38 :: b) r ltac:(rewrite E, app_length in L; lia)). destruct (unescape r) as [y|e]; cbn [bind].
        -- eapply de_found; [reflexivity|exact V|exact IH].
        -- destruct IH as [-> IH]. split; auto.
      * cbn [bind]. destruct V as [-> (ds & sc & -> & F & SC & LD)]. split; [reflexivity|]. left. cbn [too_long]. exists ds, sc. auto.
    + rewrite M. specialize (IH (38 :: b) s ltac:(lia)). destruct (unescape s) as [y|e]; cbn [bind]; [now constructor|]. destruct IH as [-> IH]. split; auto.
  - rewrite charref_only by exact NC. specialize (IH (c :: b) s ltac:(lia)). destruct (unescape s) as [y|e]; cbn [bind]; [now constructor|]. destruct IH as [-> IH]. split; auto.
Qed.
Lemma decoded_one : forall l a b, decoded l a -> decoded l b -> a = b.
Proof.
  intros l a b A. revert b. induction A as [|c l t A IH|m g r l v t F SF A IH]; intros b B; inversion B; subst; auto; [f_equal; auto|]. assert (r0 = r) as -> by congruence. f_equal; [eapply stands_one; eauto|auto].
Qed.
Lemma long_undecoded : forall l t, Exists too_long l -> ~ decoded l t.
Proof.
  intros l t X. revert t. induction X as [i l H|i l H IH]; intros t D.
  - inversion D as [|? ? ? D2|m g r l' v t' F SF D2]; subst; [exact H|]. destruct H as (ds & sc & F' & FD & SC & L). assert (r = 35 :: ds ++ sc) by congruence. subst r. inversion SF as [ds2 s2 t2 N2 F2 L2 S2 C2 E|x2 ds2 s2 t2 X2 N2 F2 S2 C2 E|? ? ? NC|? ? ? ? ? NC|? ? NC]; subst; try congruence.
    + assert (ds2 = ds) as -> by (eapply semi_cut; [apply digit_hex; exact F2|apply digit_hex; exact FD|exact S2|exact SC|exact E]). lia.
    + destruct ds as [|d ds]; [cbn in L; lia|]. cbn [app] in E. injection E as -> _. inversion FD as [|? ? DG]. unfold digit in DG. lia.
  - inversion D; subst; eapply IH; eauto.
Qed.
Theorem unescape_re : forall s t, unescape s = Ok t <-> decoded (items charref_re s) t.
Proof.
  intros s t. pose proof (unescape_go_re (length s) [] s ltac:(lia)) as H. change (items charref_re s) with (items_at charref_re [] s). split; [intros E; now rewrite E in H|]. intros D. destruct (unescape s) as [y|e].
  - f_equal. eapply decoded_one; eauto.
  - destruct H as [_ H]. now apply long_undecoded with (t := t) in H.
Qed.
Theorem unescape_fails : forall s e, unescape s = Err e <-> e = EValue /\ Exists too_long (items charref_re s).
Proof.
  intros s e. pose proof (unescape_go_re (length s) [] s ltac:(lia)) as H. change (items charref_re s) with (items_at charref_re [] s). split; [intros E; now rewrite E in H|]. intros [-> X]. destruct (unescape s) as [y|e'].
  - now apply long_undecoded with (t := y) in X.
  - destruct H as [-> _]. reflexivity.
Qed.
Close Scope N_scope.
