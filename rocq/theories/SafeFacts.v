(** With good tables nothing raises but the layout of text without room. *)
From Verif Require SetFacts SetHang SgrFacts FormatMain FormatProps SgrProps.
From Verif Require Import WrapFacts WrapLoop WrapWidth.
From Verif Require Import BaseFacts StrFacts SelFacts CssFacts SettingsFacts DressFacts StyleRules StyleShow.
From Verif Require Export SafeSpec.
Open Scope Z_scope.

Section S.
Context `{U : Uni}.

(** ** Templates *)
Lemma fillable_not : forall args kws t ex, fillable args kws t -> misformats args kws t ex -> False.
Proof. intros args kws t ex (out & H) M. exact (proj2 (proj2 (FormatProps.C84_one args kws t)) out ex H M). Qed.
Lemma takes_not : forall t x ex, takes_text t -> misfills t x ex -> False.
Proof. intros t x ex H M. exact (fillable_not _ _ _ _ (H x) M). Qed.
Lemma around_text : forall a b, FormatProps.braceless a -> FormatProps.braceless b -> takes_text (a ++ lit "{}" ++ b).
Proof. intros a b A B x. eexists. apply FormatProps.C84_verbatim; auto. Qed.
Lemma hashes_braceless : forall n x, FormatProps.braceless x -> FormatProps.braceless (copies n (lit "#") ++ x).
Proof. intros n x B. induction n as [|n IH]; auto. unfold copies. cbn [repeat concat]. fold (copies n (lit "#")). intros c [<-|K]; [|exact (IH c K)]. unfold FormatSpec.one_of. vm_compute. intros [H|[H|[]]]; discriminate. Qed.
Lemma blank_braceless : FormatProps.braceless (lit " ").
Proof. intros c [<-|[]]. unfold FormatSpec.one_of. vm_compute. intros [H|[H|[]]]; discriminate. Qed.
Lemma nil_braceless : FormatProps.braceless [].
Proof. intros c []. Qed.
Lemma marks_take : forall n, takes_text (copies n (lit "#") ++ lit " {} " ++ copies n (lit "#")).
Proof.
  intros n. change (lit " {} ") with (lit " " ++ lit "{}" ++ lit " "). rewrite <- !app_assoc, app_assoc. apply around_text.
  - apply hashes_braceless, blank_braceless.
  - intros c K. apply in_app_or in K as [K|K]; [now apply blank_braceless|]. rewrite <- (app_nil_r (copies _ _)) in K. exact (hashes_braceless n [] nil_braceless c K).
Qed.

(** ** Settings *)
Definition good_settings (k : kind) (s : settings) : Prop := forall key v, dget key s = Some v -> good_value k key v.
Lemma settled_good : forall cl tg index over s, good_class cl -> settled cl tg index over s ->
  (forall key v, dget key over = Some v -> good_value (rc_kind cl) key v) -> good_settings (rc_kind cl) s.
Proof.
  intros cl tg index over s GC (under & above & C & S) OV key v E. pose proof GC as [G1 G2]. rewrite S in E. cbn [inherited] in E.
  destruct (dget key above) as [v1|] eqn:E1.
  { injection E as <-. unfold computed in C. destruct (rc_kind cl) eqn:K; try (destruct C as [_ ->]; discriminate E1); [|destruct C as (m & HM & _ & ->); discriminate E1].
    destruct C as (m & (c0 & n0 & v0 & rest & _ & _ & ->) & _ & ->). rewrite dget_one in E1. destruct (seqb_spec key (lit "template")) as [->|]; [|discriminate]. injection E1 as <-.
    intros t ET. injection ET as <-. apply marks_take. }
  destruct (dget key over) as [v2|] eqn:E2; [injection E as <-; auto|].
  destruct (dget key under) as [v3|] eqn:E3.
  { injection E as <-. unfold computed in C. destruct (rc_kind cl) eqn:K; try (destruct C as [-> _]; discriminate E3); [destruct C as (m & HM & -> & _); discriminate E3|].
    destruct C as (label & (t & st & sp & T & _ & _ & L) & -> & _). rewrite dget_one in E3. destruct (seqb_spec key (lit "line_template")) as [->|]; [|discriminate]. injection E3 as <-.
    intros t' ET. injection ET as <-. destruct (G2 t (st + Z.of_nat index * sp) T) as (label' & L' & TT). rewrite (proj1 (FormatProps.C84_one _ _ t) _ _ L L'). exact TT. }
  destruct (dget key (class_settings cl)) as [v4|] eqn:E4; [injection E as <-|discriminate]. apply G1; auto. intros [K ->].
  unfold computed in C. rewrite K in C. destruct C as (label & _ & -> & _). rewrite dget_one, seqb_refl in E3. discriminate.
Qed.
Lemma settled_settles : forall cl tg index ex, good_class cl -> suits cl tg \/ rc_kind cl <> KMdHeader -> unsettled cl tg index ex -> False.
Proof.
  intros cl tg index ex [_ G2] SU UN. unfold unsettled in UN. destruct (rc_kind cl) eqn:K; try contradiction.
  - unfold suits in SU. rewrite K in SU. destruct SU as [(m & c & n & v & rest & -> & D & _)|SU]; [|congruence]. destruct UN as [[L _]|(c' & n' & rest' & E & D' & _)]; [cbn in L; lia|]. injection E as <- <- <-. exact (D' v D).
  - destruct UN as (t & st & sp & T & _ & _ & M). destruct (G2 t (st + Z.of_nat index * sp) T) as (label & L & _). eapply fillable_not; [exists label; exact L|exact M].
Qed.

(** ** Elements *)
(** What is known of a link is enough for its renderer. *)
Definition told_enough (k : kind) (l : option linkctx) (e : option linkextra) : Prop :=
  match k with
  | KLink => exists l', l = Some l' /\ (e = None -> lc_link_placement l' <> lit "inline")
  | KImage => exists l', l = Some l' /\ (e = None -> lc_image_placement l' <> lit "inline")
  | KExtLink | KExtImage => l <> None /\ e <> None
  | _ => True
  end.
Definition narrow (s : settings) (page : box) (ex : exn) : Prop :=
  exists w a b, columns_for s page w a b /\ (w <= 0 /\ ex = EValue \/ 0 < w /\ (w < a \/ w < b) /\ ex = EFuel).
Lemma unset_narrow : forall s page x t j cfg text ex,
  wears s x -> template_set s "line_template" t -> justification_set s j -> wrapper_set s cfg ->
  SetSpec.unset cfg (text_room page x (label_columns t)) text (lit j) ex -> narrow s page ex.
Proof.
  intros s page x t j cfg text ex W T J C H.
  assert (ML : w_max_lines cfg = None) by apply C.
  assert (CF : In (lit j) (map lit ["full"; "center"; "left"; "right"]%string) -> columns_for s page (text_room page x (label_columns t)) (len (w_init cfg)) (len (w_subs cfg))).
  { intros JJ. exists x, t, j, cfg. split; auto. split; auto. split; auto. split; [|auto]. intros ->. vm_compute in JJ. intuition discriminate. }
  destruct H as [N|JJ R|JJ E].
  - elim N. apply in_map. apply J.
  - exists (text_room page x (label_columns t)), (len (w_init cfg)), (len (w_subs cfg)). split; [now apply CF|]. left. split; auto. destruct R as [R|R]; [exact R|]. elim R. intros m M. cbn in M. congruence.
  - exists (text_room page x (label_columns t)), (len (w_init cfg)), (len (w_subs cfg)). split; [now apply CF|]. right. apply SetHang.endless_iff in E. destruct E as (P & _ & qs & _ & _ & [(_ & A & _)|(_ & A & _)]); cbn [SetSpec.widened_to w_width w_init w_subs] in *; split; auto; split; auto; [left|right]; lia.
Qed.
Lemma no_trip : forall tg a kids pre s page l e content k ex, good_settings k s -> told_enough k l e ->
  (k = KAnsi -> SgrSpec.effects_set s /\ forall key, In key ["normalise"; "font"; "foreground_colour"; "background_colour"]%string -> dget (lit key) s <> None) ->
  match k with KOwn o | KOwnBlock o => forall v c, exists out, ow_method o v c = Ok out | _ => True end ->
  trips tg a kids pre s page l e content k ex ->
  narrow s page ex /\ forall b i c up, lays_out k s (Spot b (Tag i tg a kids) c :: up).
Proof.
  intros tg a kids pre s page l e content k ex GS TE AN OW H.
  assert (TX : forall key t, In key ["template"; "line_template"; "block_template"; "inline_template"]%string -> template_set s key t -> takes_text t).
  { intros key t J E. specialize (GS _ _ E). destruct J as [<-|[<-|[<-|[<-|[]]]]]; exact (GS t eq_refl). }
  assert (FW : forall t l' ex', takes_text t -> first_wrong (fills t) (misfills t) l' ex' -> False).
  { intros t l' ex' T (xs & x & rest & ys & _ & _ & M). eapply takes_not; eauto. }
  Local Ltac tx TX := match goal with M : misfills ?t _ _, E : template_set _ ?key ?t |- _ => refine (takes_not _ _ _ (TX key t _ E) M); cbn [In]; tauto end.
  destruct H.
  - exfalso. tx TX.
  - exfalso. tx TX.
  - exfalso. destruct (AN eq_refl) as [E1 E2]. assert (N1 : forall key, In key ["normalise"; "font"; "foreground_colour"; "background_colour"]%string -> dget (lit key) s = None -> False) by (intros key J; exact (E2 key J)).
    match goal with X : SgrSpec.ansi_trips _ _ |- _ => destruct X end; try contradiction; try (eapply N1; [|eassumption]; cbn [In]; tauto).
    + match goal with F : dget (lit "font") s = Some ?v, N : ?v <> VNone |- _ => apply N; exact (GS _ _ F) end.
    + match goal with F : dget (lit "foreground_colour") s = Some ?v, T : truth ?v = true, N : SgrSpec.no_colour ?v _ |- _ =>
        destruct (GS _ _ F T false) as (c & C); apply SgrProps.C82_colour in C; apply (SgrProps.C82_no_colour v false) in N; [congruence|exact T] end.
    + match goal with F : dget (lit "background_colour") s = Some ?v, T : truth ?v = true, N : SgrSpec.no_colour ?v _ |- _ =>
        destruct (GS _ _ F T false) as (c & C); apply SgrProps.C82_colour in C; apply (SgrProps.C82_no_colour v false) in N; [congruence|exact T] end.
  - exfalso. match goal with M : misfills (if _ then _ else _) _ _ |- _ => revert M end. destruct (has_char 10%N content); intros M; tx TX.
  - exfalso. tx TX.
  - exfalso. tx TX.
  - exfalso. destruct TE as (l' & E & _). congruence.
  - exfalso. tx TX.
  - exfalso. destruct TE as (l'' & E & N). rewrite E in H. injection H as ->. exact (N H1 H0).
  - exfalso. destruct H2 as (tp & rest & T1 & T2 & T3). destruct (GS _ _ T1 tp plain titled rest reference eq_refl T2 T3) as (G1 & G2 & G3).
    destruct (seqb (lc_link_placement l') (lit "inline")).
    + destruct H4 as (e' & _ & H4). destruct (title_of e'); eapply fillable_not; [apply G2|exact H4|apply G1|exact H4].
    + eapply fillable_not; [apply G3|exact H4].
  - exfalso. destruct TE as (l' & E & _). congruence.
  - exfalso. destruct TE as (l'' & E & N). rewrite E in H. injection H as ->. exact (N H1 H0).
  - exfalso. destruct H1 as (tp & T1 & T2 & T3). destruct (GS _ _ T1 tp plain reference eq_refl T2 T3) as (G1 & G2).
    destruct (seqb (lc_image_placement l') (lit "inline")).
    + destruct H2 as (e' & _ & H2). eapply fillable_not; [apply G1|exact H2].
    + eapply fillable_not; [apply G2|exact H2].
  - exfalso. match goal with X : heading_set _ _ |- _ => destruct X as (T & _) end. tx TX.
  - cbv zeta in H6. destruct H6 as (xs & c & rest & ys & _ & _ & UN). split; [eapply unset_narrow; eauto|]. intros b i c' up. exists skip. auto.
  - exfalso. eapply FW; [|eassumption]. eapply TX; [|eassumption]. cbn [In]; tauto.
  - exfalso. eapply FW; [|eassumption]. eapply TX; [|eassumption]. cbn [In]; tauto.
  - exfalso. eapply FW; [|eassumption]. eapply TX; [|eassumption]. cbn [In]; tauto.
  - split; [eapply unset_narrow; eauto|]. intros b i c' up. destruct H as [->|[->| ->]]; exact I.
  - exfalso. tx TX.
  - exfalso. destruct H as [->| ->]; destruct TE as [T1 T2]; destruct H0; contradiction.
  - exfalso. destruct H4 as (rest & T1). destruct (GS _ _ T1 plain titled rest eq_refl) as (G1 & G2). destruct (title_of e'); eapply fillable_not; [apply G2|eassumption|apply G1|eassumption].
  - exfalso. pose proof (GS _ _ H4 t eq_refl) as G. eapply fillable_not; [apply G|eassumption].
  - exfalso. destruct H3 as (rest & T1). destruct (GS _ _ T1 plain titled rest eq_refl) as (G1 & G2). pose proof (GS _ _ H4 t eq_refl) as G. cbv zeta in H5.
    destruct (seqb (lc_format l') (lit "gophermap")); [eapply fillable_not; [apply G|eassumption]|]. destruct (m <? _); eapply fillable_not; [apply G2|eassumption|apply G1|eassumption].
  - exfalso. match goal with X : ow_method _ _ _ = Err _ |- _ => destruct (OW (View tg (map (kept a) (ow_attrs o)) (map (fun k => dget k s) (ow_settings o)) (Some page) None l e) content) as (out & E); congruence end.
  - exfalso. cbv zeta in *. match goal with X : ow_method _ ?v ?c = Err _ |- _ => destruct (OW v c) as (out & E); congruence end.
Qed.
End S.
Close Scope Z_scope.
