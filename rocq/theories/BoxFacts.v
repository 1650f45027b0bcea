(** Facts about boxes (C29-C31, C55). *)
From Verif Require Export LineFacts BoxSpec.
Open Scope Z_scope.

(** ** Chains *)
Lemma nest_snoc : forall page ls l,
  nest page (ls ++ [l]) = child_box (nest page ls) (lv_margin l) (lv_padding l) (lv_border l) (lv_template l).
Proof. intros. unfold nest. now rewrite fold_left_app. Qed.
Lemma sum_app : forall a b, sum (a ++ b) = sum a + sum b.
Proof. induction a; simpl; intros; auto. rewrite IHa. lia. Qed.
Lemma nest_totals : forall page ls, let b := nest page ls in
  b_width b = b_width page
  /\ lr (b_total_margin b) = lr (b_total_margin page) + sum (map (fun l => both (lv_margin l)) ls)
  /\ lr (b_total_padding b) = lr (b_total_padding page) + sum (map (fun l => both (lv_padding l)) ls)
  /\ lr (b_total_border b) = lr (b_total_border page) + sum (map (fun l => both (lv_border l)) ls)
  /\ b_total_ltp b = b_total_ltp page + sum (map (fun l => template_width (lv_template l)) ls).
Proof.
  intros page ls. induction ls as [|l ls IH] using rev_ind; intros b.
  - unfold b. simpl. repeat split; lia.
  - unfold b. rewrite nest_snoc. cbv zeta in IH. destruct IH as (I1 & I2 & I3 & I4 & I5).
    rewrite !map_app, !sum_app. cbn [map sum fold_right]. unfold child_box, lr, both in *. cbn in *.
    repeat split; try lia.
Qed.

(** ** The heap *)
Lemma nth_error_ext : forall (h n : heap) a l, nth_error h a = Some l -> nth_error (h ++ n) a = Some l.
Proof. intros. rewrite nth_error_app1; auto. apply nth_error_Some. congruence. Qed.
Lemma nth_error_new : forall (h : heap) l, nth_error (h ++ [l]) (length h) = Some l.
Proof. intros. rewrite nth_error_app2, Nat.sub_diag; auto. Qed.
Lemma load_iff : forall h a l, load h a = Ok l <-> nth_error h a = Some l.
Proof. intros. unfold load. destruct (nth_error h a); split; intros H; inversion H; auto. Qed.
Lemma set_nth_length : forall A (l : list A) i x, length (set_nth l i x) = length l.
Proof. induction l as [|y l IH]; intros [|i] x; cbn [set_nth length]; auto. Qed.
Lemma set_nth_same : forall A (l : list A) i x, (i < length l)%nat -> nth_error (set_nth l i x) i = Some x.
Proof. induction l as [|y l IH]; intros [|i] x H; simpl in *; try lia; auto. apply IH. lia. Qed.
Lemma set_nth_other : forall A (l : list A) i j x, i <> j -> nth_error (set_nth l i x) j = nth_error l j.
Proof. induction l as [|y l IH]; intros [|i] [|j] x H; simpl; auto; try congruence. Qed.

Definition ext (h h' : heap) : Prop := forall a l, nth_error h a = Some l -> nth_error h' a = Some l.
Definition grows (h h' : heap) : Prop := ext h h' /\ (length h <= length h')%nat.
Lemma grows_refl : forall h, grows h h. Proof. split; auto. intros a l H; exact H. Qed.
Lemma grows_trans : forall a b c, grows a b -> grows b c -> grows a c.
Proof. intros a b c [H1 H2] [H3 H4]. split; [|lia]. intros x l H. auto. Qed.
Lemma grows_alloc : forall h l, grows h (h ++ [l]).
Proof. split; [intros a x; apply nth_error_ext|rewrite app_length; lia]. Qed.
Lemma arg_spec : forall h x h' a, arg h x = (h', a) -> grows h h' /\ (forall s, argument h x s -> holds h' a s).
Proof.
  intros h [x|] h' a H; simpl in H; injection H as <- <-.
  - split; [apply grows_refl|]. auto.
  - split; [apply grows_alloc|]. intros s ->. unfold holds. apply nth_error_new.
Qed.
Lemma copy_spec : forall h a h' b, copy h a = Ok (h', b) ->
  grows h h' /\ b = length h /\ (length h < length h')%nat /\ nth_error h' b = nth_error h a /\ nth_error h a <> None.
Proof.
  intros h a h' b H. unfold copy in H. destruct (load h a) as [l|] eqn:E; [|discriminate].
  cbn [bind] in H. unfold alloc in H. injection H as <- <-. apply load_iff in E. split; [apply grows_alloc|]. split; auto.
  split; [rewrite app_length; simpl; lia|]. rewrite nth_error_new, E. split; [reflexivity|discriminate].
Qed.
Lemma add_side_spec : forall h total own pt side h', add_side h total own pt side = Ok h' ->
  length h' = length h /\ (forall a, a <> total -> nth_error h' a = nth_error h a)
  /\ exists l lo lp x y, nth_error h total = Some l /\ nth_error h own = Some lo /\ nth_error h pt = Some lp
     /\ nth_error lo side = Some x /\ nth_error lp side = Some y
     /\ nth_error h' total = Some (set_nth l side (x + y)).
Proof.
  intros h total own pt side h' H. unfold add_side, load_item, store_item in H.
  destruct (load h own) as [lo|] eqn:E1; [|discriminate]. cbn [bind] in H.
  destruct (nth_error lo side) as [x|] eqn:E2; [|discriminate]. cbn [bind] in H.
  destruct (load h pt) as [lp|] eqn:E3; [|discriminate]. cbn [bind] in H.
  destruct (nth_error lp side) as [y|] eqn:E4; [|discriminate]. cbn [bind] in H.
  destruct (load h total) as [l|] eqn:E5; [|discriminate]. cbn [bind] in H.
  destruct (Nat.ltb side (length l)) eqn:E6; [|discriminate]. injection H as <-.
  apply load_iff in E1, E3, E5. split; [apply set_nth_length|].
  split; [intros a Ha; apply set_nth_other; congruence|].
  exists l, lo, lp, x, y. repeat split; auto. apply set_nth_same. apply nth_error_Some. congruence.
Qed.

Lemma set13 : forall s x y, set_nth (set_nth [sd_top s; sd_right s; sd_bottom s; sd_left s] 3 x) 1 y = [sd_top s; y; sd_bottom s; x].
Proof. reflexivity. Qed.
(** Two updates of one total. *)
Lemma add_sides_spec : forall h total own pt h1 h2 s p, total <> own -> total <> pt ->
  add_side h total own pt 3 = Ok h1 -> add_side h1 total own pt 1 = Ok h2 ->
  holds h total s -> holds h own s -> holds h pt p ->
  length h2 = length h /\ (forall a, a <> total -> nth_error h2 a = nth_error h a) /\ holds h2 total (add_lr s p).
Proof.
  intros h total own pt h1 h2 s p N1 N2 H1 H2 HT HO HP.
  destruct (add_side_spec _ _ _ _ _ _ H1) as (L1 & O1 & l & lo & lp & x & y & A1 & A2 & A3 & A4 & A5 & A6).
  destruct (add_side_spec _ _ _ _ _ _ H2) as (L2 & O2 & l' & lo' & lp' & x' & y' & B1 & B2 & B3 & B4 & B5 & B6).
  unfold holds in *. rewrite HT in A1. rewrite HO in A2. rewrite HP in A3. injection A1 as <-. injection A2 as <-. injection A3 as <-.
  rewrite (O1 own) in B2 by congruence. rewrite (O1 pt) in B3 by congruence.
  rewrite HO in B2. rewrite HP in B3. injection B2 as <-. injection B3 as <-. rewrite A6 in B1. injection B1 as <-.
  split; [congruence|]. split; [intros a Ha; rewrite O2, O1; auto|].
  rewrite B6. cbn in A4, A5, B4, B5. injection A4 as <-. injection A5 as <-. injection B4 as <-. injection B5 as <-. reflexivity.
Qed.

Lemma new_hbox_frame : forall h w m p b lt q h' o, new_hbox h w m p b lt q = Ok (h', o) -> grows h h'.
Proof.
  intros h w m p b lt q h' o H. unfold new_hbox in H.
  destruct (arg h m) as [h1 m0] eqn:A1. destruct (arg h1 p) as [h2 p0] eqn:A2. destruct (arg h2 b) as [h3 b0] eqn:A3.
  apply arg_spec in A1 as [A1 _]. apply arg_spec in A2 as [A2 _]. apply arg_spec in A3 as [A3 _].
  assert (G3 : grows h h3) by eauto using grows_trans.
  destruct (copy h3 m0) as [[h4 am]|] eqn:C1; [|discriminate]. cbn [bind] in H.
  destruct (copy h4 m0) as [[h5 atm]|] eqn:C2; [|discriminate]. cbn [bind] in H.
  destruct (copy h5 p0) as [[h6 ap]|] eqn:C3; [|discriminate]. cbn [bind] in H.
  destruct (copy h6 p0) as [[h7 atp]|] eqn:C4; [|discriminate]. cbn [bind] in H.
  destruct (copy h7 b0) as [[h8 ab]|] eqn:C5; [|discriminate]. cbn [bind] in H.
  destruct (copy h8 b0) as [[h9 atb]|] eqn:C6; [|discriminate]. cbn [bind] in H.
  apply copy_spec in C1 as (C1 & -> & L1 & _), C2 as (C2 & -> & L2 & _), C3 as (C3 & -> & L3 & _),
    C4 as (C4 & -> & L4 & _), C5 as (C5 & -> & L5 & _), C6 as (C6 & -> & L6 & _).
  assert (G9 : grows h h9) by eauto 10 using grows_trans.
  destruct q as [q|]; [|injection H as <- _; exact G9].
  assert (K : forall ha total own pt side hb, (length h <= total)%nat -> grows h ha ->
     add_side ha total own pt side = Ok hb -> grows h hb).
  { intros ha total own pt side hb HL [G1 G2] HA. apply add_side_spec in HA as (S1 & S2 & _). split; [|lia].
    intros a l Hl. rewrite S2; auto. assert (a < length h)%nat by (apply nth_error_Some; congruence). lia. }
  destruct G3 as [G3a G3b].
  repeat match type of H with
  | bind (add_side ?ha ?t ?o ?pt ?s) _ = _ =>
      let hb := fresh "hb" in let E := fresh "E" in
      destruct (add_side ha t o pt s) as [hb|] eqn:E; [|discriminate]; cbn [bind] in H; apply K in E; [|lia|assumption]
  end.
  injection H as <- _. assumption.
Qed.
Lemma holds_grows : forall h h' a s, grows h h' -> holds h a s -> holds h' a s.
Proof. intros h h' a s [G _] H. apply G. exact H. Qed.

Lemma new_hbox_represents : forall h w m p b lt q h' o sm sp sb, 
  argument h m sm -> argument h p sp -> argument h b sb ->
  new_hbox h w m p b lt q = Ok (h', o) ->
  match q with
  | None => represents h' o (root_box w sm sp sb lt)
  | Some q => forall pb, represents h q pb -> represents h' o (child_box pb sm sp sb lt)
  end.
Proof.
  intros h w m p b lt q h' o sm sp sb HM HP HB H. unfold new_hbox in H.
  destruct (arg h m) as [h1 m0] eqn:A1. destruct (arg h1 p) as [h2 p0] eqn:A2. destruct (arg h2 b) as [h3 b0] eqn:A3.
  apply arg_spec in A1 as [A1 M1]. apply arg_spec in A2 as [A2 M2]. apply arg_spec in A3 as [A3 M3].
  assert (AG : forall x y z s, grows x y -> argument x z s -> argument y z s).
  { intros x y [z|] s G K; simpl in *; auto. eapply holds_grows; eauto. }
  specialize (M1 _ HM). specialize (M2 _ (AG _ _ _ _ A1 HP)).
  specialize (M3 _ (AG _ _ _ _ A2 (AG _ _ _ _ A1 HB))).
  apply (holds_grows _ _ _ _ A2) in M1. apply (holds_grows _ _ _ _ A3) in M1, M2.
  assert (G3 : grows h h3) by eauto using grows_trans.
  destruct (copy h3 m0) as [[h4 am]|] eqn:C1; [|discriminate]. cbn [bind] in H.
  destruct (copy h4 m0) as [[h5 atm]|] eqn:C2; [|discriminate]. cbn [bind] in H.
  destruct (copy h5 p0) as [[h6 ap]|] eqn:C3; [|discriminate]. cbn [bind] in H.
  destruct (copy h6 p0) as [[h7 atp]|] eqn:C4; [|discriminate]. cbn [bind] in H.
  destruct (copy h7 b0) as [[h8 ab]|] eqn:C5; [|discriminate]. cbn [bind] in H.
  destruct (copy h8 b0) as [[h9 atb]|] eqn:C6; [|discriminate]. cbn [bind] in H.
  apply copy_spec in C1 as (C1 & E1 & L1 & V1 & _), C2 as (C2 & E2 & L2 & V2 & _), C3 as (C3 & E3 & L3 & V3 & _),
    C4 as (C4 & E4 & L4 & V4 & _), C5 as (C5 & E5 & L5 & V5 & _), C6 as (C6 & E6 & L6 & V6 & _).
  assert (G49 : grows h4 h9) by eauto 10 using grows_trans. assert (G59 : grows h5 h9) by eauto 10 using grows_trans.
  assert (G69 : grows h6 h9) by eauto 10 using grows_trans. assert (G79 : grows h7 h9) by eauto 10 using grows_trans.
  assert (G39 : grows h3 h9) by eauto using grows_trans.
  assert (HC : forall ha hb a a' s, grows hb h9 -> nth_error hb a' = nth_error ha a -> grows h3 ha -> holds h3 a s -> holds h9 a' s).
  { intros ha hb a a' s Gb V Ga Hs. eapply holds_grows; [exact Gb|]. unfold holds. rewrite V. eapply holds_grows; eauto. }
  assert (R1 : holds h9 am sm) by (eapply HC; [exact G49|exact V1|apply grows_refl|exact M1]).
  assert (R2 : holds h9 atm sm) by (eapply HC; [exact G59|exact V2| |exact M1]; eauto 10 using grows_trans).
  assert (R3 : holds h9 ap sp) by (eapply HC; [exact G69|exact V3| |exact M2]; eauto 10 using grows_trans).
  assert (R4 : holds h9 atp sp) by (eapply HC; [exact G79|exact V4| |exact M2]; eauto 10 using grows_trans).
  assert (R5 : holds h9 ab sb) by (eapply HC; [exact C6|exact V5| |exact M3]; eauto 10 using grows_trans).
  assert (R6 : holds h9 atb sb) by (eapply HC; [apply grows_refl|exact V6| |exact M3]; eauto 10 using grows_trans).
  destruct q as [q|]; [|injection H as <- <-; unfold represents; cbn; tauto].
  intros pb (P1 & P2 & P3 & P4 & P5 & P6 & P7 & P8 & P9).
  assert (OLD : forall a s, holds h a s -> (a < length h)%nat) by (intros a s Hs; apply nth_error_Some; unfold holds in Hs; congruence).
  pose proof (OLD _ _ P3) as O3. pose proof (OLD _ _ P5) as O5. pose proof (OLD _ _ P7) as O7.
  assert (G9 : grows h h9) by eauto using grows_trans.
  apply (holds_grows _ _ _ _ G9) in P3, P5, P7.
  destruct G3 as [_ LG3].
  destruct (add_side h9 atm am (hb_total_margin q) 3) as [k1|] eqn:K1; [|discriminate]. cbn [bind] in H.
  destruct (add_side k1 atm am (hb_total_margin q) 1) as [k2|] eqn:K2; [|discriminate]. cbn [bind] in H.
  destruct (add_side k2 atp ap (hb_total_padding q) 3) as [k3|] eqn:K3; [|discriminate]. cbn [bind] in H.
  destruct (add_side k3 atp ap (hb_total_padding q) 1) as [k4|] eqn:K4; [|discriminate]. cbn [bind] in H.
  destruct (add_side k4 atb ab (hb_total_border q) 3) as [k5|] eqn:K5; [|discriminate]. cbn [bind] in H.
  destruct (add_side k5 atb ab (hb_total_border q) 1) as [k6|] eqn:K6; [|discriminate]. cbn [bind] in H.
  injection H as <- <-.
  assert (D : (am < atm /\ atm < ap /\ ap < atp /\ atp < ab /\ ab < atb /\ hb_total_margin q < am /\ hb_total_padding q < am /\ hb_total_border q < am)%nat) by (unfold heap in *; lia).
  destruct (add_sides_spec _ _ _ _ _ _ sm (b_total_margin pb) (ltac:(lia) : atm <> am) (ltac:(lia) : atm <> hb_total_margin q) K1 K2 R2 R1 P3) as (Q1 & Q2 & Q3).
  unfold holds in *.
  rewrite <- (Q2 _ (ltac:(lia) : ap <> atm)) in R3. rewrite <- (Q2 _ (ltac:(lia) : atp <> atm)) in R4.
  rewrite <- (Q2 _ (ltac:(lia) : ab <> atm)) in R5. rewrite <- (Q2 _ (ltac:(lia) : atb <> atm)) in R6.
  rewrite <- (Q2 _ (ltac:(lia) : am <> atm)) in R1.
  rewrite <- (Q2 _ (ltac:(lia) : hb_total_padding q <> atm)) in P5. rewrite <- (Q2 _ (ltac:(lia) : hb_total_border q <> atm)) in P7.
  destruct (add_sides_spec _ _ _ _ _ _ sp (b_total_padding pb) (ltac:(lia) : atp <> ap) (ltac:(lia) : atp <> hb_total_padding q) K3 K4 R4 R3 P5) as (Q4 & Q5 & Q6).
  unfold holds in *.
  rewrite <- (Q5 _ (ltac:(lia) : ap <> atp)) in R3. rewrite <- (Q5 _ (ltac:(lia) : atm <> atp)) in Q3.
  rewrite <- (Q5 _ (ltac:(lia) : ab <> atp)) in R5. rewrite <- (Q5 _ (ltac:(lia) : atb <> atp)) in R6.
  rewrite <- (Q5 _ (ltac:(lia) : am <> atp)) in R1. rewrite <- (Q5 _ (ltac:(lia) : hb_total_border q <> atp)) in P7.
  destruct (add_sides_spec _ _ _ _ _ _ sb (b_total_border pb) (ltac:(lia) : atb <> ab) (ltac:(lia) : atb <> hb_total_border q) K5 K6 R6 R5 P7) as (Q7 & Q8 & Q9).
  unfold holds in *.
  rewrite <- (Q8 _ (ltac:(lia) : ap <> atb)) in R3. rewrite <- (Q8 _ (ltac:(lia) : atm <> atb)) in Q3.
  rewrite <- (Q8 _ (ltac:(lia) : ab <> atb)) in R5. rewrite <- (Q8 _ (ltac:(lia) : atp <> atb)) in Q6.
  rewrite <- (Q8 _ (ltac:(lia) : am <> atb)) in R1.
  unfold represents, holds. cbn [hb_width hb_margin hb_total_margin hb_padding hb_total_padding hb_border hb_total_border hb_ltp hb_total_ltp
    child_box b_width b_margin b_total_margin b_padding b_total_padding b_border b_total_border b_ltp b_total_ltp].
  repeat split; auto. congruence.
Qed.

(** ** Blocks *)
Lemma spaces_len : forall n, len (spaces n) = Z.max 0 n.
Proof. exact len_spaces. Qed.
Lemma column_newlines : forall n, column 0 (newlines n) = 0.
Proof. intros n. unfold newlines. induction (Z.to_nat n); auto. Qed.
Lemma outer_render_eq : forall b s, exists body, prefixed (spaces (sd_left (b_margin b))) s body
  /\ outer_render b s = newlines (sd_top (b_margin b)) ++ body ++ newlines (sd_bottom (b_margin b)).
Proof.
  intros b s. eexists. split; [apply prefixed_iff; reflexivity|]. reflexivity.
Qed.
Lemma outer_within : forall cnt w b s, 0 <= w -> 0 <= sd_left (b_margin b) ->
  within cnt w 0 s -> within cnt (w + sd_left (b_margin b)) 0 (outer_render b s).
Proof.
  intros cnt w b s HW HL H. destruct (outer_render_eq b s) as (body & HP & ->).
  rewrite !within_app, column_newlines. split; [apply within_newlines|]. split; [|apply within_newlines].
  pose proof (spaces_len (sd_left (b_margin b))) as SL.
  replace (sd_left (b_margin b)) with (len (spaces (sd_left (b_margin b)))) at 1 by lia.
  apply (within_prefixed cnt w _ s); auto; [apply no_break_spaces|]. apply within_len; lia.
Qed.
Lemma srep1_len : forall c n, len (srep [c] n) = Z.max 0 n.
Proof.
  intros. unfold srep, len. assert (E : forall k, length (concat (repeat [c] k)) = k) by (induction k; simpl; auto).
  rewrite E. lia.
Qed.

Lemma border_within : forall b bo content w,
  w = len (bo_left bo) + padded_width b + len (bo_right bo) ->
  0 <= sd_left (b_padding b) <= padded_width b ->
  (bo_top bo = [] /\ bo_bottom bo = [] \/ bordered_width b <= w) ->
  within (fun _ => true) (padded_width b - sd_left (b_padding b)) 0 content ->
  within (fun _ => true) w 0 (join nl (border_rows b bo content)).
Proof.
  intros b bo content w -> HP HT HC. unfold nl. apply within_join.
  pose proof (len_nonneg (bo_left bo)) as NL. pose proof (len_nonneg (bo_right bo)) as NR.
  set (pl := sd_left (b_padding b)) in *. set (pw := padded_width b) in *.
  assert (VP : within (fun _ => true) (len (bo_left bo) + pw + len (bo_right bo)) 0 (vertical_pad b bo)).
  { apply within_len; [|lia]. unfold vertical_pad. rewrite !len_app, spaces_len. fold pw. lia. }
  assert (TB : forall s, (s = [] \/ bordered_width b <= len (bo_left bo) + pw + len (bo_right bo)) ->
     Forall (within (fun _ => true) (len (bo_left bo) + pw + len (bo_right bo)) 0) (map (fun c => srep [c] (bordered_width b)) s)).
  { intros s [-> |HB]; [constructor|]. apply Forall_map. apply Forall_forall. intros c _.
    apply within_len; [|lia]. rewrite srep1_len. lia. }
  unfold border_rows. rewrite !Forall_app. repeat split.
  - apply TB. tauto.
  - apply Forall_forall. intros x Hx. apply repeat_spec in Hx. now subst.
  - apply within_split in HC. apply Forall_map. eapply Forall_impl; [|exact HC]. intros l Hl. cbv beta in Hl |- *.
    unfold border_row. fold pl pw.
    assert (C0 : column 0 (bo_left bo ++ spaces pl) <= len (bo_left bo) + pl).
    { pose proof (column_bounds (bo_left bo ++ spaces pl) 0 ltac:(lia)) as B. rewrite len_app, spaces_len in B. lia. }
    assert (C0' : 0 <= column 0 (bo_left bo ++ spaces pl)) by (apply column_bounds; lia).
    assert (W1 : within (fun _ => true) (pw + len (bo_left bo)) (column 0 (bo_left bo ++ spaces pl)) l).
    { eapply within_mono; [| |exact (within_shift _ l _ 0 (len (bo_left bo) + pl) ltac:(lia) Hl)]; lia. }
    rewrite app_assoc, within_app. split; [apply within_len; [|lia]; rewrite len_app, spaces_len; lia|].
    rewrite within_app. split; [eapply within_mono; [| |exact W1]; lia|].
    set (k := column 0 (bo_left bo ++ spaces pl)) in *.
    pose proof (column_within l _ _ W1) as C1. pose proof (column_bounds l k C0') as C2.
    apply within_len; [|lia]. rewrite len_app, spaces_len. lia.
  - apply Forall_forall. intros x Hx. apply repeat_spec in Hx. now subst.
  - apply TB. tauto.
Qed.

(** One block inside a box without padding. *)
Definition room (p : box) : Z := inner_width_excluding_line_template p.
Lemma block_step : forall p m pd bo t content,
  let b := child_box p m pd (border_sides bo) t in
  nonneg m -> nonneg pd -> 0 <= template_width t ->
  lr (b_total_padding p) = 0 ->
  (bo_top bo = [] /\ bo_bottom bo = [] \/ lr (b_total_border p) = 0 /\ b_total_ltp p = 0) ->
  0 <= room b -> within (fun _ => true) (room b + template_width t) 0 content ->
  within (fun _ => true) (room p) 0 (outer_render b (join nl (border_rows b bo content))).
Proof.
  intros p m pd bo t content b (M1 & M2 & M3 & M4) (D1 & D2 & D3 & D4) HT HP HB HR HC.
  pose proof (len_nonneg (bo_left bo)) as NL. pose proof (len_nonneg (bo_right bo)) as NR.
  assert (E1 : padded_width b = room b + lr (b_total_padding b) + template_width t)
    by (unfold b, room, padded_width, inner_width_excluding_line_template, child_box, lr; cbn; lia).
  assert (E2 : room p = len (bo_left bo) + padded_width b + len (bo_right bo) + sd_left m + sd_right m)
    by (unfold b, room, padded_width, inner_width_excluding_line_template, child_box, lr in *; cbn in *; lia).
  assert (E3 : lr (b_total_padding b) = sd_left pd + sd_right pd) by (unfold b, child_box, lr in *; cbn in *; lia).
  assert (E4 : bordered_width b = room p + lr (b_total_border p) + b_total_ltp p - sd_left m - sd_right m)
    by (unfold b, room, bordered_width, inner_width_excluding_line_template, child_box, lr in *; cbn in *; lia).
  assert (W : within (fun _ => true) (len (bo_left bo) + padded_width b + len (bo_right bo)) 0 (join nl (border_rows b bo content))).
  { apply border_within with (w := len (bo_left bo) + padded_width b + len (bo_right bo)); auto.
    - change (b_padding b) with pd. lia.
    - destruct HB as [HB|HB]; [tauto|right; lia].
    - change (b_padding b) with pd. eapply within_mono; [| |exact HC]; lia. }
  apply (outer_within _ _ b) in W; [|lia|exact M4]. change (b_margin b) with m in W. eapply within_mono; [| |exact W]; lia.
Qed.

(** What an instance of a block renderer consists of. *)
Lemma instantiate_block : forall `{U : Uni} d cl i c r page,
  is_block (rc_kind cl) = true -> c_parent_box c = Some page -> instantiate d cl i c = Ok r ->
  exists bv bo m pd t, sattr (i_settings r) (lit "border") = Ok bv /\ borders_of_val bv = Ok bo
    /\ sides_of_val (dget (lit "margin") (i_settings r)) = Ok m
    /\ sides_of_val (dget (lit "padding") (i_settings r)) = Ok pd
    /\ (if has_line_template (rc_kind cl) then template_of_val (dget (lit "line_template") (i_settings r)) else Ok None) = Ok t
    /\ i_box r = Some (child_box page m pd (border_sides bo) t) /\ i_kind r = rc_kind cl.
Proof.
  intros U d cl i c r page HB HP H. unfold instantiate in H. cbv zeta in H.
  match type of H with bind ?x _ = _ => destruct x as [s1|] eqn:E1; [|discriminate] end. cbn [bind] in H.
  match type of H with bind ?x _ = _ => destruct x as [s3|] eqn:E3; [|discriminate] end. cbn [bind] in H.
  rewrite HB in H.
  destruct (sattr s3 (lit "border")) as [bv|] eqn:E4; [|discriminate]. cbn [bind] in H.
  destruct (borders_of_val bv) as [bo|] eqn:E5; [|discriminate]. cbn [bind] in H.
  destruct (generate_box (rc_kind cl) s3 bo (c_parent_box c)) as [bx|] eqn:E6; [|discriminate]. cbn [bind] in H.
  injection H as <-. rewrite HP in E6. unfold generate_box in E6.
  destruct (sides_of_val (dget (lit "margin") s3)) as [m|] eqn:E7; [|discriminate]. cbn [bind] in E6.
  destruct (sides_of_val (dget (lit "padding") s3)) as [pd|] eqn:E8; [|discriminate]. cbn [bind] in E6.
  destruct (if has_line_template (rc_kind cl) then _ else _) as [t|] eqn:E9; [|discriminate]. cbn [bind] in E6.
  injection E6 as <-. exists bv, bo, m, pd, t. cbn [i_settings i_box i_kind]. auto 10.
Qed.
Lemma Forall_rows : forall (P : str -> Prop) b bo content,
  Forall P (map (fun c => srep [c] (bordered_width b)) (bo_top bo)) ->
  P (vertical_pad b bo) ->
  Forall P (map (border_row b bo) (split_on 10%N content)) ->
  Forall P (map (fun c => srep [c] (bordered_width b)) (bo_bottom bo)) ->
  Forall P (border_rows b bo content).
Proof.
  intros P b bo content H1 H2 H3 H4. unfold border_rows. rewrite !Forall_app. repeat split; auto;
  apply Forall_forall; intros x Hx; apply repeat_spec in Hx; now subst.
Qed.
Lemma srep1_In : forall c n x, In x (srep [c] n) -> x = c.
Proof.
  intros c n x H. unfold srep in H. apply in_concat in H as (l & H1 & H2). apply repeat_spec in H1. subst.
  destruct H2 as [<- |[]]. reflexivity.
Qed.
Close Scope Z_scope.
