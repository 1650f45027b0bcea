(** ANSI rendering: facts. *)
From Verif Require Import BaseFacts StrFacts.
From Verif Require Export AnsiSpec Ansi.
Open Scope N_scope.

Section A.
Context `{U : Uni}.

(** ** Hexadecimal *)
Lemma hex_facts : forall c n, hex c n ->
  int_space c = false /\ c <> 43 /\ c <> 45 /\ c <> 35 /\ hex_digit c = Some n /\ n < 16
  /\ forall p, (is_lower_ascii c && negb ((97 <=? c) && (c <=? 102)))%bool = p -> p = false.
Proof.
  intros c n H.
  assert (E : In n [0;1;2;3;4;5;6;7;8;9;10;11;12;13;14;15]).
  { assert (n < 16) by (destruct H as [[H _]|[H _]]; lia). simpl. lia. }
  assert (C : c = 48 + n /\ n < 10 \/ c = 55 + n /\ 10 <= n \/ c = 87 + n /\ 10 <= n).
  { destruct H as [[H ->]|[H [-> | ->]]]; lia. }
  simpl in E. repeat (destruct E as [<-|E]; [destruct C as [[-> C]|[[-> C]|[-> C]]]; (lia || (vm_compute; repeat split; congruence))|]).
  destruct E.
Qed.
Lemma int16_2 : forall a b m n, hex a m -> hex b n -> int16 [a; b] = Ok (Z.of_N (16 * m + n)).
Proof.
  intros a b m n HA HB.
  destruct (hex_facts a m HA) as (SA & A1 & A2 & _ & DA & _ & _).
  destruct (hex_facts b n HB) as (SB & _ & _ & _ & DB & _ & _).
  unfold int16.
  assert (ST : rev (drop_while int_space (rev (drop_while int_space [a; b]))) = [a; b]).
  { cbn [drop_while]. rewrite SA. cbn [rev app drop_while]. rewrite SB. reflexivity. }
  rewrite ST.
  assert (D1 : forall c v, hex c v -> int16_digit c = hex_digit c).
  { intros c v H. unfold int16_digit. replace (c <? 128) with true; auto. symmetry. apply N.ltb_lt. unfold hex in H. lia. }
  assert (G : forall (X : Type) (f g h : X), match a with 43 => f | 45 => g | _ => h end = h).
  { intros. destruct a as [|p]; auto. do 6 (destruct p as [p|p|]; auto); congruence. }
  transitivity (match digits_val 16 0 int16_digit [a; b] with Some n0 => Ok (Z.of_N n0) | None => Err EValue end).
  - destruct a as [|p]; [reflexivity|]. do 6 (destruct p as [p|p|]; try reflexivity); congruence.
  - cbn [digits_val]. rewrite (D1 a m HA), (D1 b n HB), DA, DB. f_equal. f_equal. lia.
Qed.
Lemma hashes_dropped : forall k c s, c <> 35 ->
  drop_while (fun x => x =? 35) (repeat 35 k ++ c :: s) = c :: s.
Proof.
  intros. induction k; cbn [repeat app drop_while].
  - destruct (c =? 35) eqn:E; auto. apply N.eqb_eq in E. contradiction.
  - exact IHk.
Qed.
Lemma parse_hex6 : forall k c1 c2 c3 c4 c5 c6 n1 n2 n3 n4 n5 n6,
  hex c1 n1 -> hex c2 n2 -> hex c3 n3 -> hex c4 n4 -> hex c5 n5 -> hex c6 n6 ->
  parse_html_colour (repeat 35 k ++ [c1; c2; c3; c4; c5; c6])
  = Ok (Z.of_N (16 * n1 + n2), Z.of_N (16 * n3 + n4), Z.of_N (16 * n5 + n6)).
Proof.
  intros. unfold parse_html_colour.
  rewrite hashes_dropped by (apply (hex_facts c1 n1); assumption).
  cbn [firstn skipn]. rewrite (int16_2 c1 c2 n1 n2), (int16_2 c3 c4 n3 n4), (int16_2 c5 c6 n5 n6) by assumption. reflexivity.
Qed.
Lemma parse_hex3 : forall k c1 c2 c3 n1 n2 n3,
  hex c1 n1 -> hex c2 n2 -> hex c3 n3 ->
  parse_html_colour (repeat 35 k ++ [c1; c2; c3])
  = Ok (Z.of_N (17 * n1), Z.of_N (17 * n2), Z.of_N (17 * n3)).
Proof.
  intros. unfold parse_html_colour.
  rewrite hashes_dropped by (apply (hex_facts c1 n1); assumption).
  cbn [firstn skipn]. rewrite (int16_2 c1 c1 n1 n1), (int16_2 c2 c2 n2 n2), (int16_2 c3 c3 n3 n3) by assumption.
  cbn [bind]. replace (17 * n1) with (16 * n1 + n1) by lia. replace (17 * n2) with (16 * n2 + n2) by lia.
  replace (17 * n3) with (16 * n3 + n3) by lia. reflexivity.
Qed.

(** A string of hexadecimal digits is not a colour name. *)
Definition hexish (c : N) : bool := match hex_digit c with Some _ => true | None => c =? 35 end.
Lemma not_a_name : forall s, s <> [] -> forallb hexish s = true -> dget s ansi_colours = None.
Proof.
  intros s HS H.
  assert (G : forall t : dict Z, dget s t = None \/ exists k v, In (k, v) t /\ s = k).
  { induction t as [|[k v] t IH]; cbn [dget]; auto. destruct (seqb s k) eqn:E.
    - right. exists k, v. apply seqb_eq in E. simpl. auto.
    - destruct IH as [IH|(k' & v' & I & E')]; auto. right. exists k', v'. simpl. auto. }
  destruct (G ansi_colours) as [|(k & v & I & ->)]; auto. exfalso.
  assert (forallb (fun p => negb (forallb hexish (fst p))) ansi_colours = true) as F by (vm_compute; reflexivity).
  rewrite forallb_forall in F. apply F in I. cbn [fst] in I. rewrite H in I. discriminate.
Qed.
Lemma hexish_hex : forall c n, hex c n -> hexish c = true.
Proof. intros c n H. destruct (hex_facts c n H) as (_ & _ & _ & _ & D & _). unfold hexish. now rewrite D. Qed.

(** ** Numbers on the terminal *)
Definition read_num (cur : option N) (ds : str) : option N :=
  fold_left (fun cur c => Some (10 * param cur + (c - 48))) ds cur.
Lemma terminal_digits : forall ds ps cur s r, forallb is_digit_ascii ds = true ->
  terminal (Csi ps cur) s (ds ++ r) = terminal (Csi ps (read_num cur ds)) s r.
Proof.
  induction ds as [|c ds IH]; intros ps cur s r H; auto. cbn [forallb] in H. apply andb_true_iff in H as [H1 H2].
  cbn [app terminal]. rewrite H1. rewrite IH by exact H2. reflexivity.
Qed.
Lemma byte_digits : forall z, (0 <= z <= 255)%Z ->
  forallb is_digit_ascii (str_of_Z z) = true /\ read_num None (str_of_Z z) = Some (Z.to_N z).
Proof.
  intros z HZ.
  assert (F : forallb (fun k => forallb is_digit_ascii (str_of_Z (Z.of_nat k))
              && match read_num None (str_of_Z (Z.of_nat k)) with Some n => n =? N.of_nat k | None => false end) (seq 0 256) = true)
    by (vm_compute; reflexivity).
  rewrite forallb_forall in F. specialize (F (Z.to_nat z)).
  rewrite Z2Nat.id in F by lia.
  assert (I : In (Z.to_nat z) (seq 0 256)) by (apply in_seq; lia).
  apply F in I. apply andb_true_iff in I as [I1 I2]. split; [exact I1|].
  destruct (read_num None (str_of_Z z)); [|discriminate]. apply N.eqb_eq in I2. f_equal. subst n.
  rewrite Z_nat_N. reflexivity.
Qed.
Lemma terminal_byte : forall z ps s r, (0 <= z <= 255)%Z ->
  terminal (Csi ps None) s (str_of_Z z ++ r) = terminal (Csi ps (Some (Z.to_N z))) s r.
Proof. intros z ps s r H. destruct (byte_digits z H) as [H1 H2]. rewrite terminal_digits by exact H1. now rewrite H2. Qed.

Lemma ansi_seq_app : forall x r, ansi_seq x ++ r = 27 :: 91 :: x ++ 109 :: r.
Proof. intros. unfold ansi_seq. cbn [app]. rewrite <- app_assoc. reflexivity. Qed.

Lemma triple_shown : forall (bg : bool) r g b s rest,
  (0 <= r <= 255)%Z -> (0 <= g <= 255)%Z -> (0 <= b <= 255)%Z ->
  terminal Text s (ansi_seq ((if bg then lit "48" else lit "38") ++ lit ";2;" ++ str_of_Z r ++ lit ";" ++ str_of_Z g ++ lit ";" ++ str_of_Z b) ++ rest)
  = terminal Text ((if bg then set_bg else set_fg) (CRgb (Z.to_N r) (Z.to_N g) (Z.to_N b)) s) rest.
Proof.
  intros bg r g b s rest HR HG HB. rewrite ansi_seq_app. repeat rewrite <- app_assoc.
  assert (S : forall ps n x, terminal (Csi ps (Some n)) s (lit ";" ++ x) = terminal (Csi (ps ++ [n]) None) s x) by reflexivity.
  assert (M : forall ps n, terminal (Csi ps (Some n)) s (109 :: rest) = terminal Text (sgr (ps ++ [n]) s) rest) by reflexivity.
  destruct bg.
  - change (terminal Text s (27 :: 91 :: lit "48" ++ lit ";2;" ++ str_of_Z r ++ lit ";" ++ str_of_Z g ++ lit ";" ++ str_of_Z b ++ 109 :: rest))
      with (terminal (Csi [48; 2] None) s (str_of_Z r ++ lit ";" ++ str_of_Z g ++ lit ";" ++ str_of_Z b ++ 109 :: rest)).
    rewrite terminal_byte, S, terminal_byte, S, terminal_byte, M by assumption. reflexivity.
  - change (terminal Text s (27 :: 91 :: lit "38" ++ lit ";2;" ++ str_of_Z r ++ lit ";" ++ str_of_Z g ++ lit ";" ++ str_of_Z b ++ 109 :: rest))
      with (terminal (Csi [38; 2] None) s (str_of_Z r ++ lit ";" ++ str_of_Z g ++ lit ";" ++ str_of_Z b ++ 109 :: rest)).
    rewrite terminal_byte, S, terminal_byte, S, terminal_byte, M by assumption. reflexivity.
Qed.
Lemma palette_shown : forall (bg : bool) z s rest, (0 <= z <= 255)%Z ->
  terminal Text s (ansi_seq ((if bg then lit "48" else lit "38") ++ lit ";5;" ++ str_of_Z z) ++ rest)
  = terminal Text ((if bg then set_bg else set_fg) (CPalette (Z.to_N z)) s) rest.
Proof.
  intros bg z s rest HZ. rewrite ansi_seq_app. repeat rewrite <- app_assoc. destruct bg.
  - change (terminal Text s (27 :: 91 :: lit "48" ++ lit ";5;" ++ str_of_Z z ++ 109 :: rest))
      with (terminal (Csi [48; 5] None) s (str_of_Z z ++ 109 :: rest)). rewrite terminal_byte by exact HZ. reflexivity.
  - change (terminal Text s (27 :: 91 :: lit "38" ++ lit ";5;" ++ str_of_Z z ++ 109 :: rest))
      with (terminal (Csi [38; 5] None) s (str_of_Z z ++ 109 :: rest)). rewrite terminal_byte by exact HZ. reflexivity.
Qed.

(** The sequence for a colour selects exactly that colour. *)
Lemma colour_shown : forall v c bg, colour_value v c -> v <> VNone ->
  exists x, colour_sequence v bg = Ok x
  /\ forall s rest, terminal Text s (ansi_seq x ++ rest) = terminal Text ((if bg then set_bg else set_fg) c s) rest.
Proof.
  intros v c bg H NV.
  assert (RGB : forall n1 n2, n1 < 16 -> n2 < 16 -> (0 <= Z.of_N (16 * n1 + n2) <= 255)%Z) by (intros; lia).
  assert (RGB3 : forall n, n < 16 -> (0 <= Z.of_N (17 * n) <= 255)%Z) by (intros; lia).
  inversion H; subst; try congruence.
  - (* names *)
    assert (K : (k < 16)%nat) by (change 16%nat with (length colour_names); apply nth_error_Some; rewrite H0; discriminate).
    do 16 (destruct k as [|k]; [injection H0 as <-; destruct bg; eexists; (split; [vm_compute; reflexivity|]; intros [] rest; reflexivity)|]).
    lia.
  - destruct bg; eexists; (split; [reflexivity|]); intros; [apply (palette_shown true)|apply (palette_shown false)]; assumption.
  - destruct bg; eexists; (split; [reflexivity|]); intros; [apply (triple_shown true)|apply (triple_shown false)]; assumption.
  - assert (exists k, hash = repeat 35 k) as [k ->] by (destruct H0 as [-> | ->]; [exists 0%nat|exists 1%nat]; reflexivity).
    assert (F : forallb hexish (repeat 35 k ++ [c1; c2; c3; c4; c5; c6]) = true).
    { rewrite forallb_app. apply andb_true_iff. split; [clear; induction k; auto|]. cbn [forallb].
      rewrite (hexish_hex c1 n1), (hexish_hex c2 n2), (hexish_hex c3 n3), (hexish_hex c4 n4), (hexish_hex c5 n5), (hexish_hex c6 n6) by assumption. reflexivity. }
    unfold colour_sequence. cbn [hashable negb]. rewrite not_a_name by (auto; destruct k; discriminate).
    rewrite (parse_hex6 k c1 c2 c3 c4 c5 c6 n1 n2 n3 n4 n5 n6) by assumption. cbn [bind].
    assert (L : forall c n, hex c n -> n < 16) by (intros c n HX; apply (hex_facts c n HX)).
    eexists. split; [reflexivity|]. intros s rest. rewrite (triple_shown bg) by (apply RGB; eapply L; eassumption).
    rewrite !N2Z.id. reflexivity.
  - assert (exists k, hash = repeat 35 k) as [k ->] by (destruct H0 as [-> | ->]; [exists 0%nat|exists 1%nat]; reflexivity).
    assert (F : forallb hexish (repeat 35 k ++ [c1; c2; c3]) = true).
    { rewrite forallb_app. apply andb_true_iff. split; [clear; induction k; auto|]. cbn [forallb].
      rewrite (hexish_hex c1 n1), (hexish_hex c2 n2), (hexish_hex c3 n3) by assumption. reflexivity. }
    unfold colour_sequence. cbn [hashable negb]. rewrite not_a_name by (auto; destruct k; discriminate).
    rewrite (parse_hex3 k c1 c2 c3 n1 n2 n3) by assumption. cbn [bind].
    assert (L : forall c n, hex c n -> n < 16) by (intros c n HX; apply (hex_facts c n HX)).
    eexists. split; [reflexivity|]. intros s rest. rewrite (triple_shown bg) by (apply RGB3; eapply L; eassumption).
    rewrite !N2Z.id. reflexivity.
Qed.
End A.
Close Scope N_scope.
