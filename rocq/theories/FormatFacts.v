(** Templates: numbers, names, conversions and format specifications. *)
From Verif Require Export FormatSpec.
From Coq Require Import Lia.
Open Scope N_scope.

Lemma one_of_dec : forall s c, {one_of s c} + {~ one_of s c}.
Proof. intros. apply in_dec, N.eq_dec. Qed.

Section F.
Context `{U : Uni}.

(** ** Numbers *)
Fixpoint dv (acc : N) (s : str) : option N :=
  match s with
  | [] => Some acc
  | c :: r => match uni_decimal c with Some d => dv (acc * 10 + d) r | None => None end
  end.
Lemma dv_app : forall s t acc, dv acc (s ++ t) = match dv acc s with Some n => dv n t | None => None end.
Proof. induction s as [|c s IH]; intros; cbn [dv app]; auto. destruct (uni_decimal c); auto. Qed.
Lemma dv_le : forall s acc n, dv acc s = Some n -> acc <= n.
Proof. induction s as [|c s IH]; cbn [dv]; intros acc n H; [injection H as <-; lia|]. destruct (uni_decimal c); [|discriminate]. apply IH in H. lia. Qed.
Lemma numeral_dv : forall s n, numeral s n <-> s <> [] /\ dv 0 s = Some n.
Proof.
  split.
  - induction 1 as [c d H|s n c d H [I1 I2] D].
    + split; [discriminate|]. cbn [dv]. rewrite H. reflexivity.
    + split; [now destruct s|]. rewrite dv_app, I2. cbn [dv]. rewrite D. f_equal. lia.
  - revert n. induction s as [|c s IH] using rev_ind; intros n [H1 H2]; [now elim H1|]. rewrite dv_app in H2.
    destruct (dv 0 s) as [k|] eqn:E; [|discriminate]. cbn [dv] in H2. destruct (uni_decimal c) as [d|] eqn:D; [|discriminate]. injection H2 as <-.
    destruct s as [|a s].
    + cbn [dv] in E. injection E as <-. cbn [app]. replace (0 * 10 + d) with d by lia. now constructor.
    + replace (k * 10 + d) with (10 * k + d) by lia. constructor; auto. apply IH. split; [discriminate|reflexivity].
Qed.
Lemma get_integer_is : forall s acc, acc <= max_size ->
  match get_integer acc s with
  | NIs n => dv acc s = Some n /\ n <= max_size
  | NBig => exists p q n, s = p ++ q /\ p <> [] /\ dv acc p = Some n /\ max_size < n
  | NNot => dv acc s = None /\ forall p q n, s = p ++ q -> dv acc p = Some n -> n <= max_size
  end.
Proof.
  induction s as [|c s IH]; intros acc H; cbn [get_integer].
  - cbn [dv]. auto.
  - destruct (uni_decimal c) as [d|] eqn:D.
    + cbv zeta. destruct (N.ltb_spec max_size (acc * 10 + d)) as [L|L].
      * exists [c], s, (acc * 10 + d). cbn [dv app]. rewrite D. repeat split; auto. discriminate.
      * specialize (IH _ L). cbn [dv]. rewrite D. destruct (get_integer (acc * 10 + d) s) as [| |n]; auto.
        -- destruct IH as [I1 I2]. split; auto. intros [|e p] q n E V; [cbn [dv] in V; injection V as <-; auto|].
           cbn [app] in E. injection E as <- E. cbn [dv] in V. rewrite D in V. eauto.
        -- destruct IH as (p & q & n & -> & P & V & Q). exists (c :: p), q, n. cbn [dv app]. rewrite D. repeat split; auto. discriminate.
    + cbn [dv]. rewrite D. split; auto. intros [|e p] q n E V; [cbn [dv] in V; injection V as <-; auto|].
      cbn [app] in E. injection E as <- E. cbn [dv] in V. rewrite D in V. discriminate.
Qed.
Lemma field_integer_is : forall s,
  match field_integer s with
  | NIs n => small_numeral s n
  | NBig => overlong s
  | NNot => no_number s
  end.
Proof.
  intros [|c r].
  - cbn. split; [intros (p & q & n & E & H & _)|intros n H]; [|apply numeral_dv in H; tauto].
    destruct p; [|discriminate]. apply numeral_dv in H. tauto.
  - unfold field_integer. set (s := c :: r). assert (NE : s <> []) by discriminate. clearbody s.
    pose proof (get_integer_is s 0 ltac:(unfold max_size; lia)) as H. destruct (get_integer 0 s) as [| |n].
    + destruct H as [H1 H2]. split.
      * intros (p & q & n & E & V & L). apply numeral_dv in V as [V1 V2]. specialize (H2 _ _ _ E V2). lia.
      * intros n V. apply numeral_dv in V. destruct V. congruence.
    + destruct H as (p & q & n & E & NP & V & L). exists p, q, n. split; auto. split; auto. apply numeral_dv. auto.
    + destruct H as [H1 H2]. split; auto. apply numeral_dv. auto.
Qed.
Lemma numeral_fun : forall s n n', numeral s n -> numeral s n' -> n = n'.
Proof. intros s n n' A B. apply numeral_dv in A as [_ A], B as [_ B]. congruence. Qed.
Lemma overlong_small : forall s n, overlong s -> small_numeral s n -> False.
Proof.
  intros s n (p & q & k & -> & P & L) [H1 H2]. apply numeral_dv in H1 as [_ H1], P as [_ P]. rewrite dv_app, P in H1. apply dv_le in H1. lia.
Qed.
Lemma integer_is : forall s n, small_numeral s n -> field_integer s = NIs n.
Proof.
  intros s n H. pose proof (field_integer_is s) as F. destruct (field_integer s) as [| |k].
  - destruct H as [H _]. destruct F as [_ F]. now elim (F n).
  - elim (overlong_small _ _ F H).
  - f_equal. destruct F as [F _], H as [H _]. eapply numeral_fun; eauto.
Qed.
Lemma integer_big : forall s, overlong s -> field_integer s = NBig.
Proof.
  intros s H. pose proof (field_integer_is s) as F. destruct (field_integer s) as [| |k]; auto; [now destruct F|]. elim (overlong_small _ _ H F).
Qed.
Lemma integer_not : forall s, no_number s -> field_integer s = NNot.
Proof.
  intros s [H1 H2]. pose proof (field_integer_is s) as F. destruct (field_integer s) as [| |k]; auto; [now elim H1|]. destruct F as [F _]. now elim (H2 k).
Qed.
Lemma numeral_ne : forall s n, numeral s n -> s <> [].
Proof. intros s n H. apply numeral_dv in H. tauto. Qed.
Lemma overlong_ne : forall s, overlong s -> s <> [].
Proof. intros s (p & q & n & -> & H & _) E. apply app_eq_nil in E as [-> _]. now apply numeral_ne in H. Qed.
Lemma numeral_no93 : forall s n, numeral s n -> ~ In 93 s.
Proof.
  induction 1 as [c d H|s n c d H IH D]; rewrite ?in_app_iff; cbn [In]; intros E.
  - destruct E as [->|[]]. discriminate.
  - destruct E as [E|[->|[]]]; [tauto|discriminate].
Qed.
Lemma nth_big_is : forall A (l : list A) i, nth_big l i = nth_error l (N.to_nat i).
Proof.
  intros A l i. unfold nth_big. destruct (N.leb_spec (N.of_nat (length l)) i) as [H|H]; auto. symmetry. apply nth_error_None. lia.
Qed.

(** ** Names *)
Section A.
Variables (args : list farg) (kws : dict farg).
Definition pick (first : str) (m : fmode) : res (farg * fmode) :=
    match first with
    | [] => match m with
            | FManual => Err EValue
            | FUnset => match nth_error args 0 with Some a => Ok (a, FAuto 1) | None => Err EIndex end
            | FAuto n => match nth_error args n with Some a => Ok (a, FAuto (S n)) | None => Err EIndex end
            end
    | _ => match field_integer first with
           | NBig => Err EValue
           | NIs i => match m with
                      | FAuto _ => Err EValue
                      | _ => match nth_big args i with Some a => Ok (a, FManual) | None => Err EIndex end
                      end
           | NNot => match dget first kws with Some a => Ok (a, m) | None => Err EKey end
           end
    end.
Lemma pick_sound : forall s m, match pick s m with Ok (a, m') => picked args kws m s a m' | Err ex => unpicked args kws m s ex end.
Proof.
  intros s m. destruct s as [|c r]; cbn [pick].
  - destruct m as [|n|].
    + destruct (nth_error args 0) eqn:E; now constructor.
    + destruct (nth_error args n) eqn:E; now constructor.
    + constructor.
  - set (s := c :: r). assert (NE : s <> []) by discriminate. clearbody s. pose proof (field_integer_is s) as F. destruct (field_integer s) as [| |i].
    + destruct (dget s kws) eqn:E; now constructor.
    + now constructor.
    + rewrite nth_big_is. destruct m as [|n|].
      * destruct (nth_error args (N.to_nat i)) eqn:E; [eapply pk_number|eapply up_number]; eauto.
      * eapply up_counted; eauto.
      * destruct (nth_error args (N.to_nat i)) eqn:E; [eapply pk_number|eapply up_number]; eauto.
Qed.
Lemma pick_ne : forall s m, s <> [] -> pick s m = match field_integer s with
           | NBig => Err EValue
           | NIs i => match m with
                      | FAuto _ => Err EValue
                      | _ => match nth_error args (N.to_nat i) with Some a => Ok (a, FManual) | None => Err EIndex end
                      end
           | NNot => match dget s kws with Some a => Ok (a, m) | None => Err EKey end
           end.
Proof. intros [|c r] m H; [congruence|]. cbn [pick]. destruct (field_integer (c :: r)); auto. rewrite nth_big_is. reflexivity. Qed.
Lemma pick_ok : forall m s a m', picked args kws m s a m' -> pick s m = Ok (a, m').
Proof.
  intros m s a m' H. destruct H as [a H|k a H|m s n a M N H|m s a NE N H].
  - cbn [pick]. now rewrite H.
  - cbn [pick]. now rewrite H.
  - rewrite pick_ne by (destruct N; eapply numeral_ne; eauto). rewrite (integer_is _ _ N), H. now destruct M as [->| ->].
  - rewrite pick_ne by auto. now rewrite integer_not, H.
Qed.
Lemma pick_err : forall m s ex, unpicked args kws m s ex -> pick s m = Err ex.
Proof.
  intros m s a H. destruct H as [|H|k H|m s H|k s n N|m s n M N H|m s NE N H].
  - reflexivity.
  - cbn [pick]. now rewrite H.
  - cbn [pick]. now rewrite H.
  - rewrite pick_ne by now apply overlong_ne. now rewrite integer_big.
  - rewrite pick_ne by (destruct N; eapply numeral_ne; eauto). now rewrite (integer_is _ _ N).
  - rewrite pick_ne by (destruct N; eapply numeral_ne; eauto). rewrite (integer_is _ _ N), H. now destruct M as [->| ->].
  - rewrite pick_ne by auto. now rewrite integer_not, H.
Qed.

Lemma walk_item : forall i a acc r, ~ In 93 i ->
  walk_name a (Some acc) (i ++ 93 :: r) = match item_of a (rev acc ++ i) with Ok b => walk_name b None r | Err e => Err e end.
Proof.
  induction i as [|c i IH]; intros a acc r H; cbn [app walk_name].
  - rewrite N.eqb_refl, app_nil_r. reflexivity.
  - destruct (N.eqb_spec c 93) as [->|NC]; [elim H; now left|]. rewrite IH by (intros X; apply H; now right). cbn [rev]. now rewrite <- app_assoc.
Qed.
Lemma walk_unclosed : forall i a acc, ~ In 93 i -> walk_name a (Some acc) i = Err EValue.
Proof.
  induction i as [|c i IH]; intros a acc H; cbn [walk_name]; auto. destruct (N.eqb_spec c 93) as [->|NC]; [elim H; now left|]. apply IH. intros X. apply H. now right.
Qed.
Lemma split_93 : forall s, (~ In 93 s) \/ exists i r, s = i ++ 93 :: r /\ ~ In 93 i.
Proof.
  induction s as [|c s IH]; [left; auto|]. destruct (N.eq_dec c 93) as [->|NC]; [right; exists [], s; auto|].
  destruct IH as [IH|(i & r & -> & H)]; [left; intros [X|X]; auto|right]. exists (c :: i), r. split; auto. intros [X|X]; auto.
Qed.
Lemma dot_or : forall c, one_of ".[" c <-> (c = 46 \/ c = 91).
Proof. intros c. unfold one_of. change (lit ".[") with [46; 91]. cbn [In]. intuition congruence. Qed.
Lemma walk_sound : forall k r a, (length r <= k)%nat -> match walk_name a None r with Ok b => within a r b | Err ex => astray a r ex end.
Proof.
  induction k as [|k IH]; intros r a H; destruct r as [|c r]; cbn [walk_name]; try (now constructor); cbn [length] in H; [lia|].
  destruct (N.eqb_spec c 91) as [->|N1].
  - destruct (split_93 r) as [X|(i & r' & -> & X)].
    + rewrite walk_unclosed by auto. now apply ay_open.
    + rewrite walk_item by auto. cbn [rev app]. unfold item_of.
      change (91 :: i ++ 93 :: r') with (lit "[" ++ i ++ lit "]" ++ r').
      destruct i as [|c i]; [apply ay_empty|]. set (s := c :: i) in *. assert (NE : s <> []) by discriminate. clearbody s. clear c i.
      pose proof (field_integer_is s) as F. destruct (field_integer s) as [| |n]; [now apply ay_key|now apply ay_overlong|].
      destruct a as [u|z|]; [|apply ay_scalar with n; auto; discriminate|apply ay_scalar with n; auto; discriminate].
      rewrite nth_big_is. destruct (nth_error u (N.to_nat n)) as [d|] eqn:E; [|eapply ay_range; eauto].
      rewrite app_length in H. cbn [length] in H. specialize (IH r' (FStr [d]) ltac:(lia)). destruct (walk_name (FStr [d]) None r'); econstructor; eauto.
  - destruct (N.eqb_spec c 46) as [->|N2]; [|apply ay_other; rewrite dot_or; intuition].
    change (46 :: r) with (lit "." ++ r). destruct r as [|d r]; [apply ay_dots; auto|].
    destruct (N.eqb_spec d 46) as [->|M1]; [apply ay_dots; right; exists 46, r; rewrite dot_or; auto|].
    destruct (N.eqb_spec d 91) as [->|M2]; [apply ay_dots; right; exists 91, r; rewrite dot_or; auto|].
    apply ay_attribute. rewrite dot_or. intuition.
Qed.
Lemma walk_bracket : forall a i r, ~ In 93 i -> walk_name a None (lit "[" ++ i ++ lit "]" ++ r) = match item_of a i with Ok b => walk_name b None r | Err e => Err e end.
Proof. intros a i r H. change (lit "[" ++ i ++ lit "]" ++ r) with (91 :: i ++ 93 :: r). cbn [walk_name]. rewrite N.eqb_refl. now apply walk_item. Qed.
Lemma item_ne : forall a i, i <> [] -> item_of a i = match field_integer i with
         | NBig => Err EValue
         | NNot => Err EType
         | NIs n => match a with
                    | FStr s => match nth_error s (N.to_nat n) with Some c => Ok (FStr [c]) | None => Err EIndex end
                    | _ => Err EType
                    end
         end.
Proof. intros a [|c i] H; [congruence|]. unfold item_of. destruct (field_integer (c :: i)); auto. destruct a; auto. now rewrite nth_big_is. Qed.
Lemma walk_ok : forall a r b, within a r b -> walk_name a None r = Ok b.
Proof.
  induction 1 as [a|s i n c r b N E W IH]; [reflexivity|]. pose proof N as [N1 _]. rewrite walk_bracket by (eapply numeral_no93; eauto).
  rewrite item_ne by (eapply numeral_ne; eauto). now rewrite (integer_is _ _ N), E.
Qed.
Lemma walk_err : forall a r ex, astray a r ex -> walk_name a None r = Err ex.
Proof.
  induction 1 as [s i n c r ex N E W IH|a i H|a r|a i r H O|a i r NE H O|s i n r N E|a i n r NS N|a r H|a c r H|a c r H].
  - pose proof N as [N1 _]. rewrite walk_bracket by (eapply numeral_no93; eauto).
    rewrite item_ne by (eapply numeral_ne; eauto). now rewrite (integer_is _ _ N), E.
  - change (lit "[" ++ i) with (91 :: i). cbn [walk_name]. rewrite N.eqb_refl. now apply walk_unclosed.
  - reflexivity.
  - rewrite walk_bracket by auto. rewrite item_ne by now apply overlong_ne. now rewrite integer_big.
  - rewrite walk_bracket by auto. rewrite item_ne by auto. now rewrite integer_not.
  - pose proof N as [N1 _]. rewrite walk_bracket by (eapply numeral_no93; eauto).
    rewrite item_ne by (eapply numeral_ne; eauto). now rewrite (integer_is _ _ N), E.
  - pose proof N as [N1 _]. rewrite walk_bracket by (eapply numeral_no93; eauto).
    rewrite item_ne by (eapply numeral_ne; eauto). rewrite (integer_is _ _ N). destruct a as [u|z|]; auto. now elim (NS u).
  - change (lit "." ++ r) with (46 :: r). cbn [walk_name]. change (46 =? 91) with false. change (46 =? 46) with true. cbn iota.
    destruct H as [->|(c & r' & -> & H)]; [reflexivity|]. apply dot_or in H as [->| ->]; reflexivity.
  - change (lit "." ++ c :: r) with (46 :: c :: r). cbn [walk_name]. change (46 =? 91) with false. change (46 =? 46) with true. cbn iota.
    rewrite dot_or in H. destruct (N.eqb_spec c 46); [tauto|]. destruct (N.eqb_spec c 91); [tauto|]. reflexivity.
  - cbn [walk_name]. rewrite dot_or in H. destruct (N.eqb_spec c 91); [tauto|]. destruct (N.eqb_spec c 46); [tauto|]. reflexivity.
Qed.

Definition going (c : N) : bool := negb ((c =? 46) || (c =? 91)).
Lemma going_or : forall c, going c = true <-> ~ one_of ".[" c.
Proof. intros c. unfold going. rewrite dot_or, negb_true_iff, orb_false_iff, !N.eqb_neq. tauto. Qed.
Lemma field_value_is : forall name m, field_value name args kws m =
  let* (a, m') := pick (take_while going name) m in let* b := walk_name a None (drop_while going name) in Ok (b, m').
Proof. reflexivity. Qed.
Lemma parted_is : forall name, parted name (take_while going name) (drop_while going name).
Proof.
  intros name. split; [|split].
  - induction name as [|c s IH]; cbn [take_while drop_while]; auto. destruct (going c); cbn [app]; congruence.
  - induction name as [|d s IH]; cbn [take_while]; [intros ? []|]. destruct (going d) eqn:E; cbn [In]; [|tauto]. intros c [->|H]; auto. now apply going_or.
  - induction name as [|d s IH]; cbn [drop_while]; auto. destruct (going d) eqn:E; auto. right. exists d, s. split; auto.
    destruct (one_of_dec ".[" d) as [H|H]; auto. apply going_or in H. congruence.
Qed.
Lemma parted_fun : forall name f r, parted name f r -> take_while going name = f /\ drop_while going name = r.
Proof.
  intros name f r (-> & F & R). induction f as [|c f IH]; cbn [app].
  - destruct R as [->|(c & r' & -> & H)]; [auto|]. cbn [take_while drop_while]. destruct (going c) eqn:E; auto. apply going_or in E. tauto.
  - cbn [take_while drop_while]. assert (E : going c = true) by (apply going_or; apply F; now left). rewrite E. destruct IH as [-> ->]; auto. intros d D. apply F. now right.
Qed.
Lemma value_sound : forall name m, match field_value name args kws m with
  | Ok (b, m') => valued args kws m name b m' | Err ex => unvalued args kws m name ex end.
Proof.
  intros name m. rewrite field_value_is. pose proof (parted_is name) as P. pose proof (pick_sound (take_while going name) m) as Q.
  destruct (pick (take_while going name) m) as [[a m']|ex]; cbn [bind].
  - pose proof (walk_sound _ (drop_while going name) a (le_n _)) as W. destruct (walk_name a None (drop_while going name)) as [b|ex]; cbn [bind].
    + eexists _, _, _. eauto.
    + eexists _, _. split; eauto.
  - eexists _, _. split; eauto.
Qed.
Lemma value_ok : forall name m b m', valued args kws m name b m' -> field_value name args kws m = Ok (b, m').
Proof.
  intros name m b m' (f & r & a & P & Q & W). rewrite field_value_is. destruct (parted_fun _ _ _ P) as [-> ->].
  rewrite (pick_ok _ _ _ _ Q). cbn [bind]. now rewrite (walk_ok _ _ _ W).
Qed.
Lemma value_err : forall name m ex, unvalued args kws m name ex -> field_value name args kws m = Err ex.
Proof.
  intros name m ex (f & r & P & H). rewrite field_value_is. destruct (parted_fun _ _ _ P) as [-> ->].
  destruct H as [Q|(a & m' & Q & W)].
  - now rewrite (pick_err _ _ _ Q).
  - rewrite (pick_ok _ _ _ _ Q). cbn [bind]. now rewrite (walk_err _ _ _ W).
Qed.
End A.

(** ** Conversions *)
Lemma convert_sound : forall c a, match convert c a with Ok b => converted c a b | Err ex => unconverted c a ex end.
Proof.
  intros [c|] a; cbn [convert]; [|constructor].
  destruct (N.eqb_spec c 115) as [->|N1]; [constructor|].
  destruct (N.eqb_spec c 114) as [->|N2]; cbn [orb].
  { destruct a; constructor; try discriminate; unfold one_of; cbn; tauto. }
  destruct (N.eqb_spec c 97) as [->|N3]; cbn [orb].
  { destruct a; constructor; try discriminate; unfold one_of; cbn; tauto. }
  constructor. unfold one_of. cbn. intuition congruence.
Qed.
Lemma convert_ok : forall c a b, converted c a b -> convert c a = Ok b.
Proof.
  intros c a b [x|x|x d H NS]; auto. unfold one_of in H. cbn in H. destruct H as [<-|[<-|[]]]; cbn; destruct x; auto; now elim (NS s).
Qed.
Lemma convert_err : forall c a ex, unconverted c a ex -> convert c a = Err ex.
Proof.
  intros c a ex [s d H|x d H].
  - unfold one_of in H. cbn in H. destruct H as [<-|[<-|[]]]; reflexivity.
  - unfold one_of in H. cbn in H. cbn [convert]. destruct (N.eqb_spec d 115); [intuition congruence|]. destruct (N.eqb_spec d 114); [intuition congruence|].
    destruct (N.eqb_spec d 97); [intuition congruence|]. reflexivity.
Qed.

(** ** Format specifications *)
Lemma opt_char_is : forall (p : N -> bool) (P : N -> Prop) s, (forall c, p c = true <-> P c) -> optional P s (fst (opt_char p s)) (snd (opt_char p s)).
Proof.
  intros p P s H. destruct s as [|c s]; cbn; auto. destruct (p c) eqn:E; cbn; [split; auto; now apply H|]. split; auto. rewrite <- H. congruence.
Qed.
Lemma optional_fun : forall (p : N -> bool) (P : N -> Prop) s x r, (forall c, p c = true <-> P c) -> optional P s x r -> opt_char p s = (x, r).
Proof.
  intros p P s x r H O. destruct x as [c|]; cbn in O.
  - destruct O as [O ->]. cbn. apply H in O. now rewrite O.
  - destruct O as [O ->]. destruct s as [|c s]; auto. cbn in *. destruct (p c) eqn:E; auto. apply H in E. tauto.
Qed.
Lemma digits_front_is : forall s acc, acc <= max_size ->
  match digits_front acc s with
  | Some (n, r) => exists d, s = d ++ r /\ dv acc d = Some n /\ n <= max_size /\ begins_not is_decimal r
  | None => forall d r n, s = d ++ r -> dv acc d = Some n -> begins_not is_decimal r -> max_size < n
  end.
Proof.
  induction s as [|c s IH]; intros acc H; cbn [digits_front].
  - exists []. cbn. auto.
  - destruct (uni_decimal c) as [d|] eqn:D.
    + cbv zeta. destruct (N.ltb_spec max_size (acc * 10 + d)) as [L|L].
      * intros [|e p] r n E V B; cbn [app] in E.
        -- subst r. cbn in B. elim B. exists d. auto.
        -- injection E as <- E. cbn [dv] in V. rewrite D in V. apply dv_le in V. lia.
      * specialize (IH _ L). destruct (digits_front (acc * 10 + d) s) as [[n r]|].
        -- destruct IH as (p & -> & I1 & I2 & I3). exists (c :: p). cbn [app dv]. rewrite D. auto.
        -- intros [|e p] r n E V B; cbn [app] in E.
           ++ subst r. cbn in B. elim B. exists d. auto.
           ++ injection E as <- E. cbn [dv] in V. rewrite D in V. eauto.
    + exists []. cbn. repeat split; auto. intros [d X]. congruence.
Qed.
Lemma digits_front_ok : forall d r acc n, dv acc d = Some n -> n <= max_size -> begins_not is_decimal r -> digits_front acc (d ++ r) = Some (n, r).
Proof.
  induction d as [|c d IH]; intros r acc n V L B; cbn [app dv] in *.
  - injection V as <-. destruct r as [|c r]; cbn; auto. cbn in B. destruct (uni_decimal c) eqn:E; auto. elim B. eexists; eauto.
  - cbn [digits_front]. destruct (uni_decimal c) as [k|]; [|discriminate]. cbv zeta. pose proof (dv_le _ _ _ V). destruct (N.ltb_spec max_size (acc * 10 + k)); [lia|]. auto.
Qed.
Lemma number_front_is : forall s, match number_front s with Ok (x, r) => counted s x r | Err ex => ex = EValue /\ forall x r, ~ counted s x r end.
Proof.
  intros [|c s].
  - cbn. auto.
  - unfold number_front. destruct (uni_decimal c) as [d|] eqn:D.
    + pose proof (digits_front_is (c :: s) 0 ltac:(unfold max_size; lia)) as H. destruct (digits_front 0 (c :: s)) as [[n r]|].
      * destruct H as (p & E & V & L & B). exists p. split; auto. split; auto. apply numeral_dv. split; auto. intros ->. cbn in E. subst r. cbn in B. elim B. eexists; eauto.
      * split; auto. intros [n|] r C; cbn in C.
        -- destruct C as (p & [N L] & E & B). apply numeral_dv in N as [_ N]. specialize (H _ _ _ E N B). lia.
        -- destruct C as [C _]. elim C. eexists; eauto.
    + cbn. split; auto. intros [d X]. congruence.
Qed.
Lemma counted_fun : forall s x r, counted s x r -> number_front s = Ok (x, r).
Proof.
  intros s [n|] r C; cbn in C.
  - destruct C as (d & [N L] & -> & B). apply numeral_dv in N as [NE V]. destruct d as [|c d]; [congruence|]. cbn [app]. unfold number_front.
    pose proof (digits_front_ok _ _ _ _ V L B) as DF. cbn [app] in DF. rewrite DF. cbn [dv] in V. destruct (uni_decimal c); [reflexivity|discriminate].
  - destruct C as [C ->]. destruct s as [|c s]; auto. cbn in *. destruct (uni_decimal c) as [d|] eqn:E; auto. elim C. eexists; eauto.
Qed.

Definition read_front (s : str) : option N * option N * str :=
    match s with
    | f :: a :: r => if is_align a then (Some f, Some a, r)
                     else if is_align f then (None, Some f, a :: r) else (None, None, s)
    | [f] => if is_align f then (None, Some f, []) else (None, None, s)
    | [] => (None, None, s)
    end.
Lemma is_align_is : forall c, is_align c = true <-> alignment c.
Proof. intros c. unfold is_align, alignment, one_of. cbn. rewrite !orb_true_iff, !N.eqb_eq. intuition congruence. Qed.
Lemma align_not : forall c, is_align c = false <-> ~ alignment c.
Proof. intros c. rewrite <- is_align_is. destruct (is_align c); intuition congruence. Qed.
Lemma read_front_is : forall s, let '(f, a, r) := read_front s in aligned s f a r.
Proof.
  intros [|f [|a r]]; cbn.
  - now apply al_none.
  - destruct (is_align f) eqn:E; [apply al_bare; [now apply is_align_is|exact I]|apply al_none; [now apply align_not|exact I]].
  - destruct (is_align a) eqn:E; [apply al_fill; now apply is_align_is|]. destruct (is_align f) eqn:F.
    + apply al_bare; [now apply is_align_is|now apply align_not].
    + apply al_none; now apply align_not.
Qed.
Lemma aligned_fun : forall s f a r, aligned s f a r -> read_front s = (f, a, r).
Proof.
  intros s f a r [f' a' r' H|a' r' H B|s' B1 B2].
  - cbn. apply is_align_is in H. now rewrite H.
  - destruct r' as [|c r']; cbn; apply is_align_is in H; rewrite ?H; auto. cbn in B. apply align_not in B. now rewrite B.
  - destruct s' as [|c [|d s']]; cbn in *; auto.
    + apply align_not in B1. now rewrite B1.
    + apply align_not in B1, B2. now rewrite B1, B2.
Qed.
Definition read_zero (fill : option N) (s : str) : option N * str :=
  match fill with Some _ => (None, s) | None => opt_char (N.eqb 48) s end.
Definition read_precision (dot : option N) (s : str) : res (option N * str) :=
  match dot with
  | None => Ok (None, s)
  | Some _ => let* (p, r) := number_front s in match p with None => Err EValue | Some _ => Ok (p, r) end
  end.
Definition is_group (c : N) : bool := (c =? 44) || (c =? 95).
Definition read_layout (s : str) : option layout :=
  let '(fill, align, s1) := read_front s in
  let '(sign, s2) := opt_char is_sign s1 in
  let '(z, s3) := opt_char (N.eqb 122) s2 in
  let '(alt, s4) := opt_char (N.eqb 35) s3 in
  let '(zero, s5) := read_zero fill s4 in
  match number_front s5 with
  | Err _ => None
  | Ok (w, s6) =>
      let '(g, s7) := opt_char is_group s6 in
      let '(dot, t) := opt_char (N.eqb 46) s7 in
      match read_precision dot t with
      | Err _ => None
      | Ok (p, s8) =>
          match s8 with
          | [] => Some (Layout fill align sign (is_some z) (is_some alt) (is_some zero) w g p None)
          | [c] => Some (Layout fill align sign (is_some z) (is_some alt) (is_some zero) w g p (Some c))
          | _ => None
          end
      end
  end.
Lemma eqb_is : forall a c, (a =? c) = true <-> a = c. Proof. intros. apply N.eqb_eq. Qed.
Lemma is_sign_is : forall c, is_sign c = true <-> one_of " +-" c.
Proof. intros c. unfold is_sign, one_of. cbn. rewrite !orb_true_iff, !N.eqb_eq. intuition congruence. Qed.
Lemma is_group_is : forall c, is_group c = true <-> one_of ",_" c.
Proof. intros c. unfold is_group, one_of. cbn. rewrite !orb_true_iff, !N.eqb_eq. intuition congruence. Qed.
Lemma flag_is : forall a s, flag a s (is_some (fst (opt_char (N.eqb a) s))) (snd (opt_char (N.eqb a) s)).
Proof.
  intros a s. unfold flag. pose proof (opt_char_is (N.eqb a) (eq a) s (eqb_is a)) as H. destruct (opt_char (N.eqb a) s) as [[c|] r]; cbn in *; auto.
  destruct H as [<- H]. auto.
Qed.
Lemma flag_fun : forall a s b r, flag a s b r -> opt_char (N.eqb a) s = (if b then Some a else None, r).
Proof. intros a s b r H. exact (optional_fun _ _ _ _ _ (eqb_is a) H). Qed.
Lemma read_ok : forall s l, described s l -> read_layout s = Some l.
Proof.
  intros s l (s1 & s2 & s3 & s4 & s5 & s6 & s7 & s8 & A & B & C & D & E & F & G & H & K). destruct l as [fill align sign z alt zero w g p ty]. cbn [la_fill la_align la_sign la_z la_alt la_zero la_width la_group la_precision la_type] in *.
  unfold read_layout. rewrite (aligned_fun _ _ _ _ A), (optional_fun _ _ _ _ _ is_sign_is B), (flag_fun _ _ _ _ C), (flag_fun _ _ _ _ D).
  assert (E' : exists zz, read_zero fill s4 = (zz, s5) /\ is_some zz = zero).
  { destruct fill; cbn [read_zero].
    - destruct E as [-> ->]. exists None. auto.
    - rewrite (flag_fun _ _ _ _ E). eexists. split; eauto. now destruct zero. }
  destruct E' as (zz & -> & <-). rewrite (counted_fun _ _ _ F), (optional_fun _ _ _ _ _ is_group_is G).
  assert (H' : exists dot t, opt_char (N.eqb 46) s7 = (dot, t) /\ read_precision dot t = Ok (p, s8)).
  { destruct p as [n|].
    - destruct H as (t & -> & H). exists (Some 46), t. split; auto. unfold read_precision. rewrite (counted_fun _ _ _ H). reflexivity.
    - destruct H as [H ->]. exists None, s7. split; [|reflexivity]. apply (optional_fun _ (eq 46) _ None _ (eqb_is 46)). cbn. auto. }
  destruct H' as (dot & t & -> & ->). subst s8. destruct ty; destruct z, alt; reflexivity.
Qed.
Lemma read_sound : forall s l, read_layout s = Some l -> described s l.
Proof.
  intros s l H. unfold read_layout in H. pose proof (read_front_is s) as A. destruct (read_front s) as [[fill align] s1].
  pose proof (opt_char_is _ _ s1 is_sign_is) as B. destruct (opt_char is_sign s1) as [sign s2]. cbn [fst snd] in B.
  pose proof (flag_is 122 s2) as C. destruct (opt_char (N.eqb 122) s2) as [z s3]. cbn [fst snd] in C.
  pose proof (flag_is 35 s3) as D. destruct (opt_char (N.eqb 35) s3) as [alt s4]. cbn [fst snd] in D.
  assert (E : let '(zero, s5) := read_zero fill s4 in if fill then is_some zero = false /\ s5 = s4 else flag 48 s4 (is_some zero) s5).
  { destruct fill; cbn [read_zero]; auto. pose proof (flag_is 48 s4) as E. destruct (opt_char (N.eqb 48) s4) as [zero s5]. exact E. }
  destruct (read_zero fill s4) as [zero s5]. pose proof (number_front_is s5) as F. destruct (number_front s5) as [[w s6]|]; [|discriminate].
  pose proof (opt_char_is _ _ s6 is_group_is) as G. destruct (opt_char is_group s6) as [g s7]. cbn [fst snd] in G.
  pose proof (opt_char_is _ _ s7 (eqb_is 46)) as K. destruct (opt_char (N.eqb 46) s7) as [dot t]. cbn [fst snd] in K.
  destruct (read_precision dot t) as [[p s8]|] eqn:RP; [|discriminate].
  assert (L : match p with Some n => exists t, s7 = 46 :: t /\ counted t (Some n) s8 | None => begins_not (eq 46) s7 /\ s8 = s7 end).
  { destruct dot as [c|]; cbn [read_precision] in RP; cbn in K.
    - destruct K as [<- ->]. pose proof (number_front_is t) as Q. destruct (number_front t) as [[[n|] r]|]; cbn [bind] in RP; try discriminate. injection RP as <- <-. exists t. auto.
    - injection RP as <- <-. destruct K as [K ->]. auto. }
  assert (T : exists ty, l = Layout fill align sign (is_some z) (is_some alt) (is_some zero) w g p ty /\ s8 = match ty with Some c => [c] | None => [] end).
  { destruct s8 as [|c [|d s8]]; [| |discriminate]; injection H as <-; eauto. }
  destruct T as (ty & -> & T). exists s1, s2, s3, s4, s5, s6, s7, s8. cbn [la_fill la_align la_sign la_z la_alt la_zero la_width la_group la_precision la_type]. auto 12.
Qed.
Definition double (l : layout) : bool :=
  match la_group l, la_precision l, la_type l with
  | Some g, None, Some t => (g =? 44) && (t =? 95) || (g =? 95) && (t =? 44)
  | _, _, _ => false
  end.
Definition settled (da dt : N) (l : layout) : fspec :=
  FSpec (fill_of l)
        (match la_align l with Some a => a | None => if la_zero l && (da =? 62) then 61 else da end)
        (la_sign l) (la_z l) (la_alt l) (la_width l)
        (match la_group l with Some g => g =? 44 | None => false end) (match la_group l with Some g => g =? 95 | None => false end)
        (la_precision l) (match la_type l with Some t => t | None => dt end).
Lemma parse_is : forall s da dt, parse_spec s da dt =
  match read_layout s with
  | None => Err EValue
  | Some l => if double l then Err EValue else Ok (settled da dt l)
  end.
Proof.
  intros s da dt. unfold parse_spec, read_layout. fold (read_front s). destruct (read_front s) as [[fill align] s1].
  destruct (opt_char is_sign s1) as [sign s2]. destruct (opt_char (N.eqb 122) s2) as [z s3]. destruct (opt_char (N.eqb 35) s3) as [alt s4].
  fold (read_zero fill s4). destruct (read_zero fill s4) as [zero s5] eqn:RZ.
  pose proof (number_front_is s5) as F. destruct (number_front s5) as [[w s6]|ex]; cbn [bind]; [|destruct F as [-> _]; reflexivity].
  clear F RZ s1 s2 s3 s4 s5.
  assert (OC : forall a e r, opt_char (N.eqb a) (e :: r) = if a =? e then (Some e, r) else (None, e :: r)) by reflexivity.
  assert (P : forall dot r, match read_precision dot r with Ok _ => True | Err e => e = EValue end).
  { intros dot r. destruct dot as [dd|]; cbn [read_precision]; auto. pose proof (number_front_is r) as Q. destruct (number_front r) as [[[n|] r']|ex]; cbn [bind]; auto. now destruct Q. }
  assert (PS : forall c r p s8, read_precision (Some c) r = Ok (p, s8) -> exists n, p = Some n).
  { intros c r p s8 H. cbn [read_precision] in H. destruct (number_front r) as [[[n|] r']|ex]; cbn [bind] in H; try discriminate. injection H as <- <-. eauto. }
  destruct s6 as [|c s6].
  { cbn. unfold double, settled. reflexivity. }
  change (opt_char is_group (c :: s6)) with (if (c =? 44) || (c =? 95) then (Some c, s6) else (None, c :: s6)).
  change (opt_char (N.eqb 44) (c :: s6)) with (if 44 =? c then (Some c, s6) else (None, c :: s6)). rewrite (N.eqb_sym c 44), (N.eqb_sym c 95).
  destruct (N.eqb_spec 44 c) as [<-|N1]; cbn [orb].
  - destruct s6 as [|d s6]; [reflexivity|]. rewrite !OC. destruct (N.eqb_spec 95 d) as [<-|N2].
    + change (46 =? 95) with false. cbn. destruct s6; reflexivity.
    + cbn [is_some andb]. rewrite !OC. destruct (46 =? d).
      * change (read_precision (Some d) s6) with (let* (p, r) := number_front s6 in match p with None => Err EValue | Some _ => Ok (p, r) end).
        pose proof (P (Some d) s6) as Q. pose proof (PS d s6) as R. cbn [read_precision] in Q, R.
        destruct (let* (p, r) := number_front s6 in match p with None => Err EValue | Some _ => Ok (p, r) end) as [[p s8]|e]; cbn [bind]; [|now rewrite Q].
        destruct (R p s8 eq_refl) as [pn ->]. destruct s8 as [|e [|e' s8]]; reflexivity.
      * cbn [bind read_precision]. destruct s6 as [|e s6]; cbn [bind]; [|reflexivity]. unfold double. cbn [la_group la_type la_precision].
        change (44 =? 44) with true. change (44 =? 95) with false. destruct (N.eqb_spec d 95); [congruence|]. reflexivity.
  - rewrite !OC. destruct (N.eqb_spec 95 c) as [<-|N2]; cbn [is_some andb].
    + destruct s6 as [|d s6]; [reflexivity|]. rewrite !OC. destruct (N.eqb_spec d 44) as [->|N3].
      * change (46 =? 44) with false. cbn. destruct s6; reflexivity.
      * destruct (46 =? d).
        -- change (read_precision (Some d) s6) with (let* (p, r) := number_front s6 in match p with None => Err EValue | Some _ => Ok (p, r) end).
           pose proof (P (Some d) s6) as Q. pose proof (PS d s6) as R. cbn [read_precision] in Q, R.
           destruct (let* (p, r) := number_front s6 in match p with None => Err EValue | Some _ => Ok (p, r) end) as [[p s8]|e]; cbn [bind]; [|now rewrite Q].
           destruct (R p s8 eq_refl) as [pn ->]. destruct s8 as [|e [|e' s8]]; reflexivity.
        -- cbn [bind read_precision]. destruct s6 as [|e s6]; cbn [bind]; [|reflexivity]. unfold double. cbn [la_group la_type la_precision].
           change (95 =? 44) with false. destruct (N.eqb_spec d 44); [congruence|]. reflexivity.
    + rewrite !OC. destruct (46 =? c).
      * change (read_precision (Some c) s6) with (let* (p, r) := number_front s6 in match p with None => Err EValue | Some _ => Ok (p, r) end).
        pose proof (P (Some c) s6) as Q. cbn [read_precision] in Q.
        destruct (let* (p, r) := number_front s6 in match p with None => Err EValue | Some _ => Ok (p, r) end) as [[p s8]|e]; cbn [bind]; [|now rewrite Q].
        destruct s8 as [|e [|e' s8]]; reflexivity.
      * cbn [bind read_precision]. destruct s6 as [|e s6]; cbn [bind]; reflexivity.
Qed.
End F.
