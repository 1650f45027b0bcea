(** Templates: what a format specification makes of an argument. *)
From Verif Require Export FormatFacts.
From Coq Require Import Lia.
Open Scope N_scope.

Definition mem (s : string) (c : N) : bool := existsb (N.eqb c) (lit s).
Lemma mem_is : forall s c, mem s c = true <-> one_of s c.
Proof.
  intros. unfold mem, one_of. rewrite existsb_exists. split; [intros (x & H & E); apply N.eqb_eq in E; now subst x|]. intros H. exists c. split; auto. apply N.eqb_refl.
Qed.
Lemma mem_not : forall s c, mem s c = false <-> ~ one_of s c.
Proof. intros. rewrite <- mem_is. destruct (mem s c); intuition congruence. Qed.

(** ** Columns *)
Lemma div2_parts : forall l r n, (l + r = n)%nat -> (l = r \/ r = S l) -> l = Nat.div2 n.
Proof.
  intros l r n <- [->| ->].
  - replace (r + r)%nat with (2 * r)%nat by lia. now rewrite Nat.div2_double.
  - replace (l + S l)%nat with (S (2 * l)) by lia. now rewrite Nat.div2_succ_double.
Qed.
Lemma div2_half : forall n, (Nat.div2 n = n - Nat.div2 n \/ n - Nat.div2 n = S (Nat.div2 n))%nat.
Proof.
  intros n. destruct (Nat.Even_or_Odd n) as [[k ->]|[k ->]].
  - rewrite Nat.div2_double. lia.
  - replace (2 * k + 1)%nat with (S (2 * k)) by lia. rewrite Nat.div2_succ_double. lia.
Qed.
Lemma div2_under : forall n, (Nat.div2 n <= n)%nat.
Proof. intros n. destruct (div2_half n); lia. Qed.
Lemma columns_is : forall fill align w x out, columns fill align w x out <->
  (align = 60 \/ align = 62 \/ align = 94) /\ out = padded fill align w x.
Proof.
  intros fill align w x out. unfold columns, padded. set (n := match w with Some w => (N.to_nat w - length x)%nat | None => O end). split.
  - intros (l & r & -> & E & [[-> ->]|[[-> ->]|[-> H]]]).
    + split; auto. cbn. repeat f_equal. lia.
    + split; auto. cbn. replace l with n by lia. now replace (n - n)%nat with O by lia.
    + split; auto. change (94 =? 62) with false. change (94 =? 94) with true. cbn iota. rewrite <- (div2_parts l r n) by auto. now replace (n - l)%nat with r by lia.
  - intros [[->|[->| ->]] ->].
    + exists O, n. cbn. replace (n - 0)%nat with n by lia. repeat split; auto.
    + exists n, O. change (62 =? 62) with true. cbn iota. replace (n - n)%nat with O by lia. split; [reflexivity|]. split; [lia|]. auto.
    + exists (Nat.div2 n), (n - Nat.div2 n)%nat. change (94 =? 62) with false. change (94 =? 94) with true. cbn iota. split; [reflexivity|].
      pose proof (div2_half n). pose proof (div2_under n). split; [lia|]. auto.
Qed.

(** ** Digits *)
Lemma digit_is : forall big d, d < 16 -> digit_char big d = nth (N.to_nat d) (lit (if big then "0123456789ABCDEF" else "0123456789abcdef")) 0.
Proof.
  intros big d H. assert (E : d = N.of_nat (N.to_nat d)) by lia. assert (L : (N.to_nat d < 16)%nat) by lia. rewrite E at 1. clear E H. revert L. generalize (N.to_nat d) as k. clear d.
  intros k L. do 16 (destruct k as [|k]; [destruct big; reflexivity|]). lia.
Qed.
Lemma base_digits_is : forall base big, 2 <= base <= 16 -> forall fuel n acc, n < 2 ^ N.of_nat (S fuel) ->
  exists s, in_digits base big n s /\ base_digits (S fuel) base big n acc = s ++ acc.
Proof.
  intros base big B. induction fuel as [|fuel IH]; intros n acc H; cbn [base_digits]; destruct (N.ltb_spec n base) as [L|L].
  1,3: exists [digit_char big n]; rewrite (N.mod_small _ _ L); split; [rewrite digit_is by lia; now constructor|reflexivity].
  - change (2 ^ N.of_nat 1) with 2 in H. lia.
  - assert (H' : n / base < 2 ^ N.of_nat (S fuel)).
    { apply N.div_lt_upper_bound; [lia|]. replace (N.of_nat (S (S fuel))) with (N.succ (N.of_nat (S fuel))) in H by lia. rewrite N.pow_succ_r' in H. nia. }
    destruct (IH (n / base) (digit_char big (n mod base) :: acc) H') as (s & D & E). cbn [base_digits] in E. rewrite E.
    assert (M : n mod base < base) by (apply N.mod_lt; lia).
    exists (s ++ [digit_char big (n mod base)]). split; [|now rewrite <- app_assoc]. apply dg_more; auto. rewrite digit_is by lia. now constructor.
Qed.
Lemma in_base_is : forall base big n, 2 <= base <= 16 -> in_digits base big n (in_base base big n).
Proof.
  intros base big n B. unfold in_base. assert (H : n < 2 ^ N.of_nat (S (N.to_nat (N.log2 n)))).
  { replace (N.of_nat (S (N.to_nat (N.log2 n)))) with (N.succ (N.log2 n)) by lia. destruct (N.eq_dec n 0) as [->|N0]; [reflexivity|]. apply N.log2_spec. lia. }
  destruct (base_digits_is base big B _ n [] H) as (s & D & ->). now rewrite app_nil_r.
Qed.
Lemma in_digits_fun : forall base big, 2 <= base -> forall n s, in_digits base big n s -> forall s', in_digits base big n s' -> s = s'.
Proof.
  intros base big B. induction 1 as [n L|n s t L H1 I1 H2 I2]; intros s' H; inversion H; subst; try lia; auto.
  f_equal; auto.
Qed.

Section F.
Context `{U : Uni}.
(** ** Strings *)
Definition str_by (s : str) (l : layout) : res str :=
  if (match la_group l with Some _ => true | None => false end)
     || negb (match la_type l with Some t => t =? 115 | None => true end) || is_some (la_sign l) || la_z l || la_alt l
     || match la_align l with Some a => a =? 61 | None => false end then Err EValue
  else Ok (padded (fill_of l) (match la_align l with Some a => a | None => 60 end) (la_width l)
             (match la_precision l with Some p => firstn (N.to_nat p) s | None => s end)).
Lemma described_align : forall spec l a, described spec l -> la_align l = Some a -> alignment a.
Proof. intros spec l a (s1 & _ & _ & _ & _ & _ & _ & _ & A & _) E. rewrite E in A. inversion A; auto. Qed.
Lemma described_group : forall spec l a, described spec l -> la_group l = Some a -> a = 44 \/ a = 95.
Proof.
  intros spec l a (s1 & s2 & s3 & s4 & s5 & s6 & s7 & s8 & _ & _ & _ & _ & _ & _ & G & _) E. rewrite E in G. cbn in G. destruct G as [G _].
  unfold one_of in G. cbn in G. intuition congruence.
Qed.
Lemma described_sign : forall spec l a, described spec l -> la_sign l = Some a -> a = 32 \/ a = 43 \/ a = 45.
Proof.
  intros spec l a (s1 & s2 & s3 & s4 & s5 & s6 & s7 & s8 & _ & G & _) E. rewrite E in G. cbn in G. destruct G as [G _].
  unfold one_of in G. cbn in G. intuition congruence.
Qed.
Lemma format_str_by : forall s spec l, spec <> [] -> described spec l -> format_str s spec = str_by s l.
Proof.
  intros s spec l NE D. unfold format_str. destruct spec as [|c r] eqn:ES; [congruence|]. rewrite <- ES in *. rewrite parse_is, (read_ok _ _ D). unfold str_by.
  assert (G : (match la_group l with Some g => g =? 44 | None => false end) || (match la_group l with Some g => g =? 95 | None => false end) = match la_group l with Some _ => true | None => false end).
  { destruct (la_group l) as [g|] eqn:E; auto. destruct (described_group _ _ _ D E) as [->| ->]; reflexivity. }
  destruct (double l) eqn:DB.
  - unfold double in DB. destruct (la_group l); [reflexivity|discriminate].
  - cbn [bind]. unfold settled. cbn [fs_comma fs_under fs_type fs_sign fs_z fs_alt fs_align fs_fill fs_width fs_precision]. rewrite G.
    change (60 =? 62) with false. rewrite andb_false_r.
    replace (match la_type l with Some t => t | None => 115 end =? 115) with (match la_type l with Some t => t =? 115 | None => true end) by (destruct (la_type l); reflexivity).
    replace (match la_align l with Some a => a | None => 60 end =? 61) with (match la_align l with Some a => a =? 61 | None => false end) by (destruct (la_align l); reflexivity).
    reflexivity.
Qed.
Lemma text_style_is : forall l, text_style l <->
  (match la_group l with Some _ => true | None => false end)
     || negb (match la_type l with Some t => t =? 115 | None => true end) || is_some (la_sign l) || la_z l || la_alt l
     || match la_align l with Some a => a =? 61 | None => false end = false.
Proof.
  intros l. unfold text_style. rewrite !orb_false_iff, negb_false_iff. split.
  - intros (-> & -> & -> & A & -> & T). repeat split; auto.
    + destruct T as [->| ->]; reflexivity.
    + destruct (la_align l); auto. apply N.eqb_neq. congruence.
  - intros (((((A & B) & C) & D) & E) & F). split; [destruct (la_sign l); [discriminate|auto]|]. split; auto. split; auto.
    split; [intros X; rewrite X in F; discriminate|]. split; [destruct (la_group l); [discriminate|auto]|].
    destruct (la_type l); auto. apply N.eqb_eq in B. subst. auto.
Qed.

(** ** Integers *)
Definition ty_of (l : layout) : N := match la_type l with Some t => t | None => 100 end.
Definition num_by (z : Z) (l : layout) : res str :=
  let ty := ty_of l in
  let comma := match la_group l with Some g => g =? 44 | None => false end in
  let under := match la_group l with Some g => g =? 95 | None => false end in
  if (comma && negb (float_type ty || (ty =? 100))) || (under && negb (float_type ty || is_some (int_type ty))) then Err EValue
  else if float_type ty then Err EUnsupported
  else match int_type ty with
  | None =>
      if (ty =? 99) || (ty =? 110)
      then if is_some (la_precision l) || la_z l || (ty =? 99) && (is_some (la_sign l) || la_alt l) then Err EValue else Err EUnsupported
      else Err EValue
  | Some (base, big, prefix) =>
      if is_some (la_precision l) || la_z l then Err EValue
      else if comma || under then Err EUnsupported
      else
        let align := match la_align l with Some a => a | None => if la_zero l then 61 else 62 end in
        let sign := if (z <? 0)%Z then [45] else match la_sign l with Some c => if c =? 45 then [] else [c] | None => [] end in
        let head := sign ++ (if la_alt l then prefix else []) in
        let body := in_base base big (Z.to_N (Z.abs z)) in
        if align =? 61
        then Ok (head ++ repeat (fill_of l)
                   (match la_width l with Some w => (N.to_nat w - length (head ++ body))%nat | None => O end) ++ body)
        else Ok (padded (fill_of l) align (la_width l) (head ++ body))
  end.
Lemma format_int_by : forall z spec l, spec <> [] -> described spec l -> format_int z spec = num_by z l.
Proof.
  intros z spec l NE D. unfold format_int. destruct spec as [|c r] eqn:ES; [congruence|]. rewrite <- ES in *. rewrite parse_is, (read_ok _ _ D).
  destruct (double l) eqn:DB.
  - unfold double in DB. unfold num_by, ty_of. destruct (la_group l) as [g|]; [|discriminate]. destruct (la_precision l); [discriminate|]. destruct (la_type l) as [t|]; [|discriminate].
    apply orb_prop in DB as [DB|DB]; apply andb_prop in DB as [D1 D2]; apply N.eqb_eq in D1, D2; subst g t; reflexivity.
  - cbn [bind]. unfold settled. cbn [fs_comma fs_under fs_type fs_sign fs_z fs_alt fs_align fs_fill fs_width fs_precision].
    change (62 =? 62) with true. rewrite andb_true_r. reflexivity.
Qed.
Lemma int_type_is : forall l b k p, number_type (la_type l) b k p <-> int_type (ty_of l) = Some (b, k, p).
Proof.
  intros l b k p. unfold number_type, int_type, ty_of. split.
  - intros [([->| ->] & -> & -> & ->)|[(-> & -> & -> & ->)|[(-> & -> & -> & ->)|[(-> & -> & -> & ->)|(-> & -> & -> & ->)]]]]; reflexivity.
  - destruct (la_type l) as [t|]; [|cbn; intros H; injection H as <- <- <-; auto 10].
    destruct (N.eqb_spec t 100) as [->|]; [intros H; injection H as <- <- <-; auto 10|].
    destruct (N.eqb_spec t 98) as [->|]; [intros H; injection H as <- <- <-; auto 10|].
    destruct (N.eqb_spec t 111) as [->|]; [intros H; injection H as <- <- <-; auto 10|].
    destruct (N.eqb_spec t 120) as [->|]; [intros H; injection H as <- <- <-; auto 10|].
    destruct (N.eqb_spec t 88) as [->|]; [intros H; injection H as <- <- <-; auto 10|]. discriminate.
Qed.
Lemma int_type_base : forall t b k p, int_type t = Some (b, k, p) -> 2 <= b <= 16.
Proof.
  intros t b k p. unfold int_type. repeat match goal with |- context [if ?x then _ else _] => destruct x end; intros H; try discriminate; inversion H; subst; lia.
Qed.
Lemma float_is : forall l, float_type (ty_of l) = true <-> float_style (la_type l).
Proof.
  intros l. unfold float_style, ty_of. split.
  - destruct (la_type l) as [t|]; [|discriminate]. intros H. exists t. split; auto. now apply mem_is.
  - intros (c & -> & H). now apply mem_is.
Qed.
Lemma float_not_int : forall t, float_type t = true -> int_type t = None.
Proof.
  intros t H. assert (O : one_of "eEfFgG%" t) by now apply mem_is. unfold one_of in O. cbn in O. destruct O as [<-|[<-|[<-|[<-|[<-|[<-|[<-|[]]]]]]]]; reflexivity.
Qed.
Lemma mem_d : forall c, mem "deEfFgG%" c = (c =? 100) || float_type c. Proof. reflexivity. Qed.
Lemma int_some : forall c, is_some (int_type c) = (c =? 100) || ((c =? 98) || ((c =? 111) || ((c =? 120) || (c =? 88)))).
Proof. intros c. unfold int_type. destruct (c =? 100), (c =? 98), (c =? 111), (c =? 120), (c =? 88); reflexivity. Qed.
Lemma mem_int : forall c, mem "dboxXeEfFgG%" c = is_some (int_type c) || float_type c.
Proof. intros c. rewrite int_some. unfold mem, float_type. cbn. rewrite <- !orb_assoc. reflexivity. Qed.
Lemma mem_all : forall c, mem "dboxXcneEfFgG%" c = is_some (int_type c) || ((c =? 99) || ((c =? 110) || float_type c)).
Proof. intros c. rewrite int_some. unfold mem, float_type. cbn. rewrite <- !orb_assoc. reflexivity. Qed.
Lemma signed_is : forall z l spec, described spec l ->
  (if (z <? 0)%Z then [45] else match la_sign l with Some c => if c =? 45 then [] else [c] | None => [] end) = signed z (la_sign l).
Proof.
  intros z l spec D. unfold signed. destruct (z <? 0)%Z; auto. destruct (la_sign l) as [c|] eqn:E; auto. destruct (described_sign _ _ _ D E) as [->|[->| ->]]; reflexivity.
Qed.
Lemma num_sound : forall z l spec, described spec l -> match num_by z l with Ok x => number_laid z l x | Err ex => number_wrong l ex end.
Proof.
  intros z l spec D. unfold num_by. rewrite (signed_is z l spec D). cbv zeta.
  assert (T100 : la_type l = None -> ty_of l = 100) by (unfold ty_of; now intros ->).
  assert (TS : forall c, la_type l = Some c -> ty_of l = c) by (unfold ty_of; now intros c ->).
  destruct (match la_group l with Some g => g =? 44 | None => false end) eqn:CM; cbn [andb orb].
  - destruct (la_group l) as [g|] eqn:G; [|discriminate]. apply N.eqb_eq in CM. subst g. change (44 =? 95) with false. cbn [andb orb].
    destruct (float_type (ty_of l)) eqn:F; cbn [orb negb].
    + apply nw_float. now apply float_is.
    + destruct (ty_of l =? 100) eqn:E; cbn [orb negb].
      * apply N.eqb_eq in E. rewrite E. cbn [int_type]. change (int_type 100) with (Some (10, false, @nil N)).
        assert (IT : int_type (ty_of l) = Some (10, false, [])) by now rewrite E.
        destruct (is_some (la_precision l) || la_z l) eqn:PZ.
        -- apply nw_precise; [intros X; apply float_is in X; congruence|]. apply orb_prop in PZ as [PZ|PZ]; auto. left. intros X. rewrite X in PZ. discriminate.
        -- cbn. apply orb_false_iff in PZ as [P1 P2]. eapply nw_group; [apply int_type_is; exact IT|destruct (la_precision l); [discriminate|auto]|auto|].
           left. split; auto. destruct (la_type l) as [t|] eqn:TT; auto. right. f_equal. rewrite <- E. symmetry. now apply TS.
      * destruct (la_type l) as [t|] eqn:TT; [|rewrite T100 in E by auto; discriminate]. rewrite (TS _ eq_refl) in *.
        eapply nw_comma; eauto. apply mem_not. rewrite mem_d, E, F. reflexivity.
  - destruct (match la_group l with Some g => g =? 95 | None => false end) eqn:UN; cbn [andb orb].
    + destruct (la_group l) as [g|] eqn:G; [|discriminate]. apply N.eqb_eq in UN. subst g.
      destruct (float_type (ty_of l)) eqn:F; cbn [orb negb].
      * apply nw_float. now apply float_is.
      * destruct (int_type (ty_of l)) as [[[b k] p]|] eqn:IT; cbn [is_some negb orb].
        -- destruct (is_some (la_precision l) || la_z l) eqn:PZ.
           ++ apply nw_precise; [intros X; apply float_is in X; congruence|]. apply orb_prop in PZ as [PZ|PZ]; auto. left. intros X. rewrite X in PZ. discriminate.
           ++ apply orb_false_iff in PZ as [P1 P2]. eapply nw_group; [apply int_type_is; exact IT|destruct (la_precision l); [discriminate|auto]|auto|auto].
        -- destruct (la_type l) as [t|] eqn:TT; [|rewrite T100 in IT by auto; discriminate]. rewrite (TS _ eq_refl) in *.
           eapply nw_under; eauto. apply mem_not. rewrite mem_int, F, IT. reflexivity.
    + assert (G : la_group l = None).
      { destruct (la_group l) as [g|] eqn:E; auto. destruct (described_group _ _ _ D E) as [->| ->]; discriminate. }
      destruct (float_type (ty_of l)) eqn:F; cbn [orb negb]; [apply nw_float; now apply float_is|].
      assert (NF : ~ float_style (la_type l)) by (intros X; apply float_is in X; congruence).
      destruct (int_type (ty_of l)) as [[[b k] p]|] eqn:IT.
      * destruct (is_some (la_precision l) || la_z l) eqn:PZ.
        -- apply nw_precise; auto. apply orb_prop in PZ as [PZ|PZ]; auto. left. intros X. rewrite X in PZ. discriminate.
        -- apply orb_false_iff in PZ as [P1 P2].
           assert (AL : forall a, la_align l = Some a -> a = 60 \/ a = 62 \/ a = 61 \/ a = 94).
           { intros a E. apply (described_align _ _ _ D) in E. unfold alignment, one_of in E. cbn in E. intuition congruence. }
           match goal with |- context [?x =? 61] => set (al := x) end.
           assert (AL' : al = 60 \/ al = 62 \/ al = 61 \/ al = 94) by (unfold al; destruct (la_align l); [auto|destruct (la_zero l); auto]).
           assert (X : forall out, (al <> 61 /\ columns (fill_of l) al (la_width l) ((signed z (la_sign l) ++ (if la_alt l then p else [])) ++ in_base b k (Z.to_N (Z.abs z))) out
               \/ al = 61 /\ exists n, out = (signed z (la_sign l) ++ (if la_alt l then p else [])) ++ repeat (fill_of l) n ++ in_base b k (Z.to_N (Z.abs z))
                 /\ n = match la_width l with Some w => (N.to_nat w - length ((signed z (la_sign l) ++ (if la_alt l then p else [])) ++ in_base b k (Z.to_N (Z.abs z))))%nat | None => O end) ->
               number_laid z l out).
           { intros out X. split; auto. split; [destruct (la_precision l); [discriminate|auto]|]. split; auto. exists b, k, p, (in_base b k (Z.to_N (Z.abs z))).
             split; [now apply int_type_is|]. split; [apply in_base_is; eapply int_type_base; eauto|]. exact X. }
           cbn [orb]. destruct (N.eqb_spec al 61) as [E|E]; apply X; [right; split; auto; eexists; eauto|left; split; auto]. apply columns_is. split; [tauto|reflexivity].
      * destruct (la_type l) as [t|] eqn:TT; [|rewrite T100 in IT by auto; discriminate]. rewrite (TS _ eq_refl) in *.
        destruct (N.eqb_spec t 99) as [->|N1]; cbn [orb andb].
        -- destruct (is_some (la_precision l) || la_z l) eqn:PZ; cbn [orb].
           ++ apply nw_precise; [now rewrite TT|]. apply orb_prop in PZ as [PZ|PZ]; auto. left. intros X. rewrite X in PZ. discriminate.
           ++ apply orb_false_iff in PZ as [P1 P2]. destruct (is_some (la_sign l) || la_alt l) eqn:SA.
              ** apply nw_character; auto. apply orb_prop in SA as [SA|SA]; auto. left. intros X. rewrite X in SA. discriminate.
              ** apply orb_false_iff in SA as [S1 S2]. apply nw_character_; auto; [destruct (la_precision l)|destruct (la_sign l)]; auto; discriminate.
        -- destruct (N.eqb_spec t 110) as [->|N2]; cbn [orb].
           ++ rewrite orb_false_r. destruct (is_some (la_precision l) || la_z l) eqn:PZ; cbn [orb].
              ** apply nw_precise; [now rewrite TT|]. apply orb_prop in PZ as [PZ|PZ]; auto. left. intros X. rewrite X in PZ. discriminate.
              ** apply orb_false_iff in PZ as [P1 P2]. apply nw_locale; auto. destruct (la_precision l); auto; discriminate.
           ++ eapply nw_type; eauto. apply mem_not. rewrite mem_all, IT, F. cbn. destruct (N.eqb_spec t 99); [congruence|]. destruct (N.eqb_spec t 110); [congruence|]. reflexivity.
Qed.
Lemma num_ok : forall z l x spec, described spec l -> number_laid z l x -> num_by z l = Ok x.
Proof.
  intros z l x spec D (Z1 & P1 & G1 & b & k & p & body & NT & DG & H). unfold num_by. rewrite (signed_is z l spec D). cbv zeta. rewrite Z1, P1, G1.
  apply int_type_is in NT. pose proof (int_type_base _ _ _ _ NT) as B. rewrite NT. cbn [andb orb is_some].
  assert (F : float_type (ty_of l) = false) by (destruct (float_type (ty_of l)) eqn:F; auto; apply float_not_int in F; congruence). rewrite F. cbn [orb].
  assert (E : in_base b k (Z.to_N (Z.abs z)) = body) by (eapply in_digits_fun; [|apply in_base_is; auto|exact DG]; lia). rewrite E.
  cbv zeta in H. match goal with |- context [?x =? 61] => set (al := x) in * end. destruct H as [[H1 H2]|[H1 (n & -> & ->)]].
  - apply columns_is in H2 as [_ ->]. destruct (N.eqb_spec al 61); [contradiction|]. reflexivity.
  - rewrite H1. reflexivity.
Qed.
Lemma num_err : forall z l ex spec, described spec l -> number_wrong l ex -> num_by z l = Err ex.
Proof.
  intros z l ex spec D H. unfold num_by. cbv zeta.
  assert (CU : (match la_group l with Some g => g =? 44 | None => false end && negb (float_type (ty_of l) || (ty_of l =? 100))
     || match la_group l with Some g => g =? 95 | None => false end && negb (float_type (ty_of l) || is_some (int_type (ty_of l))) = false) \/
     (exists t, la_type l = Some t /\ float_type t = false /\ (la_group l = Some 44 /\ (t =? 100) = false \/ la_group l = Some 95 /\ int_type t = None) /\
     (match la_group l with Some g => g =? 44 | None => false end && negb (float_type (ty_of l) || (ty_of l =? 100))
     || match la_group l with Some g => g =? 95 | None => false end && negb (float_type (ty_of l) || is_some (int_type (ty_of l))) = true))).
  { unfold ty_of. destruct (la_group l) as [g|] eqn:G; [|now left]. destruct (la_type l) as [t|] eqn:T.
    - destruct (described_group _ _ _ D G) as [->| ->].
      + change (44 =? 44) with true. change (44 =? 95) with false. cbn [andb orb]. rewrite orb_false_r. destruct (float_type t) eqn:F; [now left|]. destruct (t =? 100) eqn:E; [now left|]. right. exists t. repeat split; auto.
      + change (95 =? 44) with false. change (95 =? 95) with true. cbn [andb orb]. destruct (float_type t) eqn:F; [now left|]. destruct (int_type t) eqn:E; [now left|]. right. exists t. repeat split; auto.
    - left. change (float_type 100) with false. change (100 =? 100) with true. change (is_some (int_type 100)) with true. cbn. now rewrite !andb_false_r. }
  inversion H as [l0 c T NO|l0 c G T NO|l0 c G T NO|l0 NF PZ|l0 T SA|l0 F|l0 b k p NT P1 Z1 G|l0 T G P1 Z1 S1 A1|l0 T G P1 Z1]; subst.
  - destruct CU as [->|(t & T' & _ & _ & ->)]; auto. unfold ty_of. rewrite T. apply mem_not in NO. rewrite mem_all in NO. apply orb_false_iff in NO as [A NO]. apply orb_false_iff in NO as [B NO]. apply orb_false_iff in NO as [C E].
    rewrite E, B, C. destruct (int_type c); [discriminate|]. reflexivity.
  - destruct CU as [CU|(t & T' & _ & _ & ->)]; auto. exfalso. unfold ty_of in CU. rewrite G, T in CU. apply mem_not in NO. rewrite mem_d, orb_comm in NO. rewrite NO in CU. discriminate.
  - destruct CU as [CU|(t & T' & _ & _ & ->)]; auto. exfalso. unfold ty_of in CU. rewrite G, T in CU. apply mem_not in NO. rewrite mem_int, orb_comm in NO. rewrite NO in CU. discriminate.
  - destruct CU as [->|(t & T' & _ & _ & ->)]; auto.
    assert (F : float_type (ty_of l) = false) by (destruct (float_type (ty_of l)) eqn:F; auto; apply float_is in F; contradiction). rewrite F.
    assert (PZ' : is_some (la_precision l) || la_z l = true) by (destruct PZ as [PZ| ->]; [destruct (la_precision l); [reflexivity|congruence]|apply orb_true_r]). rewrite PZ'.
    destruct (int_type (ty_of l)) as [[[b k] p]|]; auto. cbn [orb]. destruct ((ty_of l =? 99) || (ty_of l =? 110)); auto.
  - destruct CU as [->|(t & T' & _ & _ & ->)]; auto. unfold ty_of. rewrite T. cbn.
    assert (SA' : is_some (la_sign l) || la_alt l = true) by (destruct SA as [PZ| ->]; [destruct (la_sign l); [reflexivity|congruence]|apply orb_true_r]). rewrite SA', orb_true_r. reflexivity.
  - apply float_is in F. destruct CU as [->|(t & T' & F' & _)]; [now rewrite F|]. unfold ty_of in F. rewrite T' in F. congruence.
  - apply int_type_is in NT. destruct CU as [->|(t & T' & F' & [[G' T1]|[G' T1]] & _)].
    + assert (F : float_type (ty_of l) = false) by (destruct (float_type (ty_of l)) eqn:F; auto; apply float_not_int in F; congruence). rewrite F, NT, P1, Z1. cbn [is_some orb].
      destruct G as [[-> _]| ->]; reflexivity.
    + destruct G as [[_ [TT|TT]]|TT]; try congruence. rewrite TT in T'. injection T' as <-. discriminate.
    + unfold ty_of in NT. rewrite T' in NT. congruence.
  - destruct CU as [->|(t & T' & _ & [[G' _]|[G' _]] & _)]; [|congruence|congruence]. unfold ty_of. rewrite T, P1, Z1, S1, A1. reflexivity.
  - destruct CU as [->|(t & T' & _ & [[G' _]|[G' _]] & _)]; [|congruence|congruence]. unfold ty_of. rewrite T, P1, Z1. reflexivity.
Qed.

(** ** All arguments *)
Lemma format_unread : forall a spec, a <> FNone -> spec <> [] -> read_layout spec = None -> format_arg a spec = Err EValue.
Proof.
  intros [s|z|] spec NA NE R; [| |congruence]; cbn [format_arg]; unfold format_str, format_int; destruct spec; try congruence; rewrite parse_is, R; reflexivity.
Qed.
Lemma format_arg_sound : forall a spec, match format_arg a spec with Ok x => presented a spec x | Err ex => unpresented a spec ex end.
Proof.
  intros a spec. destruct (list_eq_dec N.eq_dec spec []) as [->|NE]; [destruct a; cbn; apply pr_plain|].
  destruct a as [s|z|].
  - destruct (read_layout spec) as [l|] eqn:R.
    + pose proof (read_sound _ _ R) as D. cbn [format_arg]. rewrite (format_str_by _ _ _ NE D). unfold str_by. pose proof (text_style_is l) as TS.
      match goal with |- context [if ?b then _ else _] => destruct b end.
      * eapply ur_text; eauto. intros X. apply TS in X. discriminate.
      * apply proj2 in TS. specialize (TS eq_refl). eapply pr_text; eauto. apply columns_is. split; [|reflexivity].
        destruct (la_align l) as [a|] eqn:E; auto. pose proof (described_align _ _ _ D E) as A. destruct TS as (_ & _ & _ & A' & _). unfold alignment, one_of in A. cbn in A. intuition congruence.
    + rewrite format_unread by (auto; discriminate). apply ur_unread; auto; [discriminate|]. intros l D. apply read_ok in D. congruence.
  - destruct (read_layout spec) as [l|] eqn:R.
    + pose proof (read_sound _ _ R) as D. cbn [format_arg]. rewrite (format_int_by _ _ _ NE D). pose proof (num_sound z l spec D) as Q. destruct (num_by z l); [eapply pr_number|eapply ur_number]; eauto.
    + rewrite format_unread by (auto; discriminate). apply ur_unread; auto; [discriminate|]. intros l D. apply read_ok in D. congruence.
  - cbn. destruct spec; [congruence|]. now apply ur_none.
Qed.
Lemma format_arg_ok : forall a spec x, presented a spec x -> format_arg a spec = Ok x.
Proof.
  intros a spec x [b|s sp l out NE D T L|z sp l out NE D L].
  - destruct b; reflexivity.
  - cbn [format_arg]. rewrite (format_str_by _ _ _ NE D). unfold str_by. apply text_style_is in T. rewrite T. apply columns_is in L as [_ ->]. reflexivity.
  - cbn [format_arg]. rewrite (format_int_by _ _ _ NE D). eapply num_ok; eauto.
Qed.
Lemma format_arg_err : forall a spec ex, unpresented a spec ex -> format_arg a spec = Err ex.
Proof.
  intros a spec ex [sp NE|b sp NA NE ND|s sp l NE D T|z sp l ex' NE D W].
  - cbn. destruct sp; congruence.
  - apply format_unread; auto. destruct (read_layout sp) as [l|] eqn:R; auto. apply read_sound in R. now elim (ND l).
  - cbn [format_arg]. rewrite (format_str_by _ _ _ NE D). unfold str_by. pose proof (text_style_is l) as TS.
    match goal with |- context [if ?b then _ else _] => destruct b end; auto. elim T. now apply TS.
  - cbn [format_arg]. rewrite (format_int_by _ _ _ NE D). eapply num_err; eauto.
Qed.
End F.
Close Scope N_scope.
