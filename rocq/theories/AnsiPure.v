(** What ANSI rendering adds is invisible. *)
From Verif Require Import BaseFacts StrFacts WrapFacts.
From Verif Require Export WrapSpec AnsiStyle.
Open Scope N_scope.

Section Pure.
Context `{U : Uni}.

Definition params (x : str) : bool := forallb (fun c => (c =? 59) || is_digit_ascii c) x.
Lemma params_esc : forall x, params x = true -> forallb esc_param x = true.
Proof.
  intros x H. unfold params in H. rewrite forallb_forall in *. intros c I. apply H in I. unfold esc_param, is_digit.
  apply orb_true_iff in I as [->|I]; auto. rewrite I.
  assert (c <? 128 = true) as ->. { unfold is_digit_ascii in I. apply andb_true_iff in I as [_ I]. apply N.leb_le in I. apply N.ltb_lt. lia. }
  now rewrite orb_true_r.
Qed.
Lemma params_app : forall a b, params (a ++ b) = params a && params b.
Proof. intros. unfold params. apply forallb_app. Qed.
Lemma digits_params : forall x, forallb is_digit_ascii x = true -> params x = true.
Proof. intros x H. unfold params. rewrite forallb_forall in *. intros c I. rewrite (H c I). now rewrite orb_true_r. Qed.
Lemma byte_params : forall z, (0 <= z <= 255)%Z -> params (str_of_Z z) = true.
Proof. intros. apply digits_params. now apply byte_digits. Qed.

(** A list of complete escape sequences. *)
Definition escapes (l : list str) : Prop := Forall (fun e : str => exists x, e = ansi_seq x /\ params x = true) l.
Lemma escapes_app : forall a b, escapes a -> escapes b -> escapes (a ++ b).
Proof. intros. now apply Forall_app. Qed.
Lemma escapes_styled : forall l, escapes l -> styled (concat l) [].
Proof.
  induction 1 as [|e l (x & -> & HX) _ IH]; [constructor|]. cbn [concat].
  rewrite ansi_seq_app. constructor; auto. now apply params_esc.
Qed.

Lemma colour_params : forall v c bg x, colour_value v c -> colour_sequence v bg = Ok x -> params x = true.
Proof.
  intros v c bg x H E.
  assert (T : forall r g b, (0 <= r <= 255)%Z -> (0 <= g <= 255)%Z -> (0 <= b <= 255)%Z ->
      params ((if bg then lit "48" else lit "38") ++ lit ";2;" ++ str_of_Z r ++ lit ";" ++ str_of_Z g ++ lit ";" ++ str_of_Z b) = true).
  { intros r g b HR HG HB. rewrite !params_app, (byte_params r), (byte_params g), (byte_params b) by assumption. destruct bg; reflexivity. }
  assert (L : forall c n, hex c n -> n < 16) by (intros ? ? HX; apply (hex_facts _ _ HX)).
  inversion H; subst.
  - discriminate.
  - assert (K : (k < length colour_names)%nat) by (apply nth_error_Some; rewrite H0; discriminate). cbn [length colour_names] in K.
    do 16 (destruct k as [|k]; [injection H0 as <-; destruct bg; vm_compute in E; injection E as <-; reflexivity|]). lia.
  - cbn [colour_sequence hashable negb val_str bind] in E. injection E as <-.
    apply byte_params in H0. destruct bg; exact H0.
  - unfold colour_sequence in E. cbn in E. injection E as <-. now apply T.
  - assert (exists k, hash = repeat 35 k) as [k ->] by (destruct H0 as [-> | ->]; [exists 0%nat|exists 1%nat]; reflexivity).
    unfold colour_sequence in E. cbn [hashable negb] in E.
    rewrite not_a_name in E.
    + rewrite (parse_hex6 k c1 c2 c3 c4 c5 c6 n1 n2 n3 n4 n5 n6) in E by assumption. cbn [bind] in E. injection E as <-.
      apply L in H1, H2, H3, H4, H5, H6. apply (T (Z.of_N (16 * n1 + n2)) (Z.of_N (16 * n3 + n4)) (Z.of_N (16 * n5 + n6))); lia.
    + destruct k; discriminate.
    + rewrite forallb_app. apply andb_true_iff. split; [clear; induction k; auto|]. cbn [forallb].
      rewrite (hexish_hex c1 n1), (hexish_hex c2 n2), (hexish_hex c3 n3), (hexish_hex c4 n4), (hexish_hex c5 n5), (hexish_hex c6 n6) by assumption. reflexivity.
  - assert (exists k, hash = repeat 35 k) as [k ->] by (destruct H0 as [-> | ->]; [exists 0%nat|exists 1%nat]; reflexivity).
    unfold colour_sequence in E. cbn [hashable negb] in E.
    rewrite not_a_name in E.
    + rewrite (parse_hex3 k c1 c2 c3 n1 n2 n3) in E by assumption. cbn [bind] in E. injection E as <-.
      apply L in H1, H2, H3. apply (T (Z.of_N (17 * n1)) (Z.of_N (17 * n2)) (Z.of_N (17 * n3))); lia.
    + destruct k; discriminate.
    + rewrite forallb_app. apply andb_true_iff. split; [clear; induction k; auto|]. cbn [forallb].
      rewrite (hexish_hex c1 n1), (hexish_hex c2 n2), (hexish_hex c3 n3) by assumption. reflexivity.
Qed.

Lemma effect_escapes : forall s norm effects en dis,
  Forall (fun e : str * (Z * Z) => (0 <= fst (snd e) <= 255)%Z /\ (0 <= snd (snd e) <= 255)%Z) effects ->
  effect_seqs s norm effects = Ok (en, dis) -> escapes en /\ escapes dis.
Proof.
  intros s norm. induction effects as [|[name [on off]] effects IH]; intros en dis HB H.
  - injection H as <- <-. split; constructor.
  - inversion HB as [|? ? [B1 B2] HB']; subst. cbn [fst snd] in *. cbn [effect_seqs] in H. inv_bind H. inv_bind H. destruct x0 as [e d].
    destruct (IH e d HB' E0) as [I1 I2].
    destruct (truth x); injection H as <- <-; auto. split.
    + constructor; auto. exists (str_of_Z on). split; auto. now apply byte_params.
    + destruct norm; auto. constructor; auto. exists (str_of_Z off). split; auto. now apply byte_params.
Qed.
Lemma colour_escapes : forall v c bg norm en dis, colour_value v c ->
  colour_seqs v bg norm = Ok (en, dis) -> escapes en /\ escapes dis.
Proof.
  intros v c bg norm en dis HC H. unfold colour_seqs in H. destruct (truth v).
  - inv_bind H. injection H as <- <-. split.
    + repeat constructor. exists x. split; auto. eapply colour_params; eassumption.
    + destruct norm, bg; repeat constructor; eexists; (split; [reflexivity|reflexivity]).
  - injection H as <- <-. split; constructor.
Qed.

Lemma ansi_render_pure : forall s inner out fg bg vf vb,
  dget (lit "foreground_colour") s = Some vf -> dget (lit "background_colour") s = Some vb ->
  colour_value vf fg -> colour_value vb bg ->
  ansi_render s inner = Ok out ->
  exists en dis, escapes en /\ escapes dis /\ out = concat en ++ inner ++ concat dis.
Proof.
  intros s inner out fg bg vf vb LF LB HF HB H. unfold ansi_render in H.
  inv_bind H. inv_bind H. destruct x0 as [en dis]. inv_bind H. inv_bind H. unfold sattr in H. rewrite LF in H. cbn [bind] in H.
  inv_bind H. destruct x2 as [en1 dis1]. rewrite LB in H. cbn [bind] in H. inv_bind H. destruct x2 as [en2 dis2].
  injection H as <-.
  apply effect_escapes in E0 as [P1 P2].
  2:{ unfold ansi_effects. cbn [map fst snd]. repeat (constructor; [cbn [fst snd]; lia|]). constructor. }
  eapply colour_escapes in E3 as [P3 P4]; [|eassumption]. eapply colour_escapes in E4 as [P5 P6]; [|eassumption].
  eexists _, _. split; [|split; [|reflexivity]]; repeat apply escapes_app; auto.
  destruct (truth x); repeat constructor. exists (lit "0"). split; reflexivity.
Qed.

Lemma esc_tail_none : forall r b, esc_tail r = None -> esc_tail (r ++ 27 :: b) = None.
Proof.
  induction r as [|c r IH]; intros b H; [reflexivity|]. cbn [app esc_tail] in *.
  destruct (c =? 109); [discriminate|]. destruct (esc_param c); auto.
  destruct (esc_tail r); [discriminate|]. now rewrite IH.
Qed.
Lemma strip_esc_esc : forall a b, strip_esc (a ++ 27 :: b) = strip_esc a ++ strip_esc (27 :: b).
Proof.
  assert (G : forall n a b, (length a <= n)%nat -> strip_esc (a ++ 27 :: b) = strip_esc a ++ strip_esc (27 :: b)).
  { induction n as [|n IH]; intros a b L; [destruct a; [reflexivity|simpl in L; lia]|].
    destruct a as [|c a]; [reflexivity|].
    destruct (esc_len (c :: a)) eqn:EL.
    - assert (E2 : esc_len ((c :: a) ++ 27 :: b) = 0%nat).
      { destruct a as [|d a].
        - cbn [app esc_len]. destruct (c =? 27); reflexivity.
        - cbn [app esc_len] in *. destruct ((c =? 27) && (d =? 91)); auto.
          destruct (esc_tail a) eqn:T; [discriminate|]. now rewrite esc_tail_none. }
      cbn [app] in *. rewrite strip_cons by exact E2. rewrite IH by (simpl in L; lia). rewrite (strip_cons c a) by exact EL. reflexivity.
    - assert (NZ : esc_len (c :: a) <> 0%nat) by lia.
      rewrite strip_esc_at by (rewrite esc_len_app by exact NZ; exact NZ).
      rewrite esc_len_app by exact NZ. rewrite (strip_esc_at (c :: a)) by exact NZ.
      pose proof (esc_len_le (c :: a)) as LE.
      rewrite skipn_app. replace (esc_len (c :: a) - length (c :: a))%nat with 0%nat by lia. cbn [skipn].
      apply IH. rewrite skipn_length. cbn [length] in *. lia. }
  intros. apply (G (length a)). lia.
Qed.
Lemma strip_esc_between : forall en inner dis, escapes en -> escapes dis ->
  strip_esc (concat en ++ inner ++ concat dis) = strip_esc inner.
Proof.
  intros en inner dis HE HD. rewrite (styled_strip_app _ _ (escapes_styled _ HE)). cbn [app].
  destruct dis as [|e dis]; [cbn [concat]; now rewrite app_nil_r|].
  inversion HD as [|? ? (x & -> & _) _]; subst.
  pose proof (styled_strip _ _ (escapes_styled _ HD)) as SD.
  cbn [concat] in *. rewrite ansi_seq_app in *. rewrite strip_esc_esc, SD, app_nil_r. reflexivity.
Qed.
End Pure.
Close Scope N_scope.
