(** ANSI spans close what they open. *)
From Verif Require SgrFacts AnsiFacts.
From Verif Require Import BaseFacts StrFacts.
From Verif Require Export TermStyle.
Open Scope Z_scope.

Section T.
Context `{U : Uni}.
Import AnsiSpec.
Local Open Scope Z_scope.

Lemma control_reads : forall c, forallb par c = true -> reads (SgrSpec.control c) [c].
Proof. intros c H. unfold SgrSpec.control. change ([27%N; 91%N] ++ c ++ [109%N]) with (27 :: 91 :: c ++ [109])%N. apply re_esc; [exact H|apply re_nil]. Qed.
Lemma controls_read : forall cs, Forall (fun c => forallb par c = true) cs -> reads (concat (map SgrSpec.control cs)) cs.
Proof. intros cs H. induction H; [apply re_nil|]. cbn [map concat]. change (x :: l) with ([x] ++ l). apply reads_app; [now apply control_reads|assumption]. Qed.
(** Opening and closing sequences. *)
Definition pair_of (ons offs : list str) : Prop :=
  exists os cs, ons = map SgrSpec.control os /\ offs = map SgrSpec.control cs /\ bracket os cs
    /\ Forall (fun c => forallb par c = true) os /\ Forall (fun c => forallb par c = true) cs /\ Forall (fun a => In a off_codes) cs.
Lemma pair_app : forall a b a' b', pair_of a b -> pair_of a' b' -> pair_of (a ++ a') (b ++ b').
Proof.
  intros a b a' b' (os & cs & -> & -> & B & P1 & P2 & I) (os' & cs' & -> & -> & B' & P1' & P2' & I'). exists (os ++ os'), (cs ++ cs'). rewrite !map_app.
  split; [reflexivity|]. split; [reflexivity|]. split; [now apply bracket_app|]. split; [now apply Forall_app|]. split; now apply Forall_app.
Qed.
Lemma pair_nil : pair_of [] [].
Proof. exists [], []. split; [reflexivity|]. split; [reflexivity|]. split; [exact bracket_nil|]. repeat split; constructor. Qed.
Lemma effects_pair : forall s l ons offs, SgrSpec.effect_codes s l ons offs -> Forall good_effect l -> pair_of ons offs.
Proof.
  intros s l ons offs H. induction H as [|name on off v l ons offs D T H IH|name on off v l ons offs D T H IH]; intros G.
  - exact pair_nil.
  - inversion G as [|? ? G1 G2]; subst. destruct G1 as (B & I & P1 & P2).
    change (SgrSpec.control (lit on) :: ons) with ([SgrSpec.control (lit on)] ++ ons). change (SgrSpec.control (lit off) :: offs) with ([SgrSpec.control (lit off)] ++ offs).
    apply pair_app; [|now apply IH]. exists [lit on], [lit off]. split; [reflexivity|]. split; [reflexivity|]. split; [exact B|]. repeat split; constructor; auto.
  - inversion G; subst. now apply IH.
Qed.

(** ** Colours *)
Lemma digits_par : forall x, forallb is_digit_ascii x = true -> forallb par x = true.
Proof. intros x H. rewrite forallb_forall in *. intros c I. unfold par. now rewrite (H c I). Qed.
Lemma byte_par : forall z, 0 <= z <= 255 -> forallb par (str_of_Z z) = true.
Proof. intros z H. apply digits_par, AnsiFacts.byte_digits, H. Qed.
Lemma triple_par : forall (bg : bool) r g b, 0 <= r <= 255 -> 0 <= g <= 255 -> 0 <= b <= 255 ->
  forallb par (SgrSpec.layer bg ++ lit ";2;" ++ str_of_Z r ++ lit ";" ++ str_of_Z g ++ lit ";" ++ str_of_Z b) = true.
Proof. intros bg r g b R G B. rewrite !forallb_app, !byte_par by assumption. destruct bg; reflexivity. Qed.
Lemma colour_par : forall v c bg cc, colour_value v c -> SgrSpec.colour_code bg v cc -> forallb par cc = true.
Proof.
  intros v c bg cc V C. destruct C as [k name K|x r g b NI H|z|b|r g b rest x y z NU SR SG SB].
  - assert (L : (k < 16)%nat) by (change 16%nat with (length colour_names); apply nth_error_Some; rewrite K; discriminate).
    do 16 (destruct k as [|k]; [destruct bg; vm_compute; reflexivity|]). lia.
  - apply SgrFacts.html_iff in H. 
    assert (RGB : (0 <= r <= 255) /\ (0 <= g <= 255) /\ (0 <= b <= 255)).
    { assert (HX : forall c n, hex c n -> (n < 16)%N) by (intros d n Hd; apply (AnsiFacts.hex_facts d n Hd)).
      inversion V as [|k name K| | |hash c1 c2 c3 c4 c5 c6 n1 n2 n3 n4 n5 n6 HS H1 H2 H3 H4 H5 H6|hash c1 c2 c3 n1 n2 n3 HS H1 H2 H3]; subst.
      - elim NI. apply in_map. now apply nth_error_In in K.
      - assert (exists k, hash = repeat 35%N k) as [k ->] by (destruct HS as [-> | ->]; [exists 0%nat|exists 1%nat]; reflexivity).
        rewrite (AnsiFacts.parse_hex6 k c1 c2 c3 c4 c5 c6 n1 n2 n3 n4 n5 n6) in H by assumption. assert (E : r = Z.of_N (16 * n1 + n2) /\ g = Z.of_N (16 * n3 + n4) /\ b = Z.of_N (16 * n5 + n6)) by (repeat split; congruence). clear H.
        apply HX in H1, H2, H3, H4, H5, H6. lia.
      - assert (exists k, hash = repeat 35%N k) as [k ->] by (destruct HS as [-> | ->]; [exists 0%nat|exists 1%nat]; reflexivity).
        rewrite (AnsiFacts.parse_hex3 k c1 c2 c3 n1 n2 n3) in H by assumption. assert (E : r = Z.of_N (17 * n1) /\ g = Z.of_N (17 * n2) /\ b = Z.of_N (17 * n3)) by (repeat split; congruence). clear H. apply HX in H1, H2, H3. lia. }
    destruct RGB as (R & G & B). now apply triple_par.
  - inversion V; subst. rewrite !forallb_app, byte_par by assumption. destruct bg; reflexivity.
  - inversion V.
  - inversion V; subst. inversion SR; subst. inversion SG; subst. inversion SB; subst. now apply triple_par.
Qed.
Lemma colour_after : forall v c bg cc, colour_value v c -> v <> VNone -> SgrSpec.colour_code bg v cc -> forall s, after [cc] s = (if bg then set_bg else set_fg) c s.
Proof.
  intros v c bg cc V N C s. pose proof (colour_par _ _ _ _ V C) as P. apply SgrFacts.code_iff in C. destruct (AnsiFacts.colour_shown v c bg V N) as (x & E & T). rewrite C in E. injection E as <-.
  destruct (reads_display _ _ (control_reads cc P) s) as (sh & D & _). unfold display in D. specialize (T s []). rewrite app_nil_r in T. change (Ansi.ansi_seq cc) with (SgrSpec.control cc) in T. rewrite T in D. cbn [terminal] in D. now injection D.
Qed.
Lemma colour_pair : forall (bg : bool) v on off, (truth v = true -> exists c, colour_value v c) -> SgrSpec.colour_on bg v on off -> pair_of on off.
Proof.
  intros bg v on off R [(T & -> & ->)|(T & cc & C & -> & ->)]; [exact pair_nil|].
  destruct (R T) as (c & V). assert (NV : v <> VNone) by (intros ->; discriminate).
  exists [cc], [lit (if bg then "49" else "39")]. split; [reflexivity|]. split; [reflexivity|].
  split; [|split; [constructor; [exact (colour_par _ _ _ _ V C)|constructor]|split; [constructor; [destruct bg; reflexivity|constructor]|constructor; [destruct bg; unfold off_codes; cbn [map In]; auto 15|constructor]]]].
  intros s s' H. rewrite (colour_after _ _ _ _ V NV C) in H. destruct bg.
  - replace (after [lit "49"] s') with (set_bg CDefault s') by (destruct s'; reflexivity). destruct s, s'. unfold no_more in *. cbn in *. intuition.
  - replace (after [lit "39"] s') with (set_fg CDefault s') by (destruct s'; reflexivity). destruct s, s'. unfold no_more in *. cbn in *. intuition.
Qed.

(** ** Spans *)
Theorem span_reads : forall s x out l, real_colour s "foreground_colour" -> real_colour s "background_colour" ->
  SgrSpec.ansi_shown s x out -> reads x l -> tidy l -> exists m, reads out m /\ tidy m.
Proof.
  intros s x out l FG BG (norm & ons & offs & fg & f & f' & bg & b & b' & _ & EC & _ & DF & CF & DB & CB & ->) R T.
  assert (P : pair_of (ons ++ f ++ b) (offs ++ f' ++ b')).
  { apply pair_app; [exact (effects_pair _ _ _ _ EC effects_good)|]. apply pair_app; [apply (colour_pair false fg); auto|apply (colour_pair true bg); auto]. }
  destruct P as (os & cs & EO & EC' & B & P1 & P2 & _).
  assert (SP : forall cl cs', reads cl cs' -> (forall s s', no_more s' (after os s) -> no_more (after cs' s') s) ->
    exists m, reads (concat ons ++ concat f ++ concat b ++ x ++ cl) m /\ tidy m).
  { intros cl cs' RC BR. exists (os ++ l ++ cs'). split.
    - replace (concat ons ++ concat f ++ concat b ++ x ++ cl) with (concat (ons ++ f ++ b) ++ x ++ cl) by (rewrite !concat_app, <- !app_assoc; reflexivity).
      rewrite EO. apply reads_app; [now apply controls_read|]. now apply reads_app.
    - intros s0. rewrite !after_app. apply BR. apply T. }
  destruct (truth norm).
  - apply (SP _ [lit "0"]); [apply control_reads; reflexivity|]. intros s0 s1 _. replace (after [lit "0"] s1) with plain by (destruct s1; reflexivity). destruct s0. unfold no_more, plain. cbn. repeat split; auto; discriminate.
  - replace (concat offs ++ concat f' ++ concat b') with (concat (map SgrSpec.control cs)) by (rewrite <- EC', !concat_app; reflexivity). apply (SP _ cs); [now apply controls_read|exact B].
Qed.
End T.
Close Scope Z_scope.
