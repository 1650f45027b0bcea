(** Renderers with settings of their own. *)
From Verif Require SetFacts FormatFacts FormatMain.
From Verif Require Import BaseFacts StrFacts SelFacts LineFacts BoxFacts AnsiStyle.
From Verif Require Import RenderFacts ElemFacts.
From Verif Require Export DressSpec.
Open Scope Z_scope.

(** ** Templates *)
Lemma number_str : forall n, exists u, str_of_Z (Z.of_N n) = uint_str u /\ Pos.of_uint u = n /\ uint_str u <> [].
Proof.
  intros n. unfold str_of_Z. destruct n as [|p].
  - exists (Decimal.D0 Decimal.Nil). repeat split; discriminate.
  - cbn [Z.of_N Z.to_int]. exists (Pos.to_uint p). split; [reflexivity|]. split; [apply DecimalPos.Unsigned.of_to|].
    pose proof (DecimalPos.Unsigned.to_uint_nonnil p). destruct (Pos.to_uint p); [congruence|discriminate..].
Qed.
Section T.
Context `{U : Uni}.
Definition place_ok (c : N) : bool := negb (existsb (N.eqb c) (lit "{}[:!."%string)).
Lemma place_char : forall c, place_ok c = true -> ~ FormatSpec.one_of "{}[:!" c /\ ~ FormatSpec.one_of ".[" c.
Proof.
  intros c H. unfold place_ok in H. apply negb_true_iff in H.
  assert (G : forall s, incl (lit s) (lit "{}[:!.") -> ~ FormatSpec.one_of s c).
  { intros s I J. apply I in J. assert (E : existsb (N.eqb c) (lit "{}[:!.") = true) by (apply existsb_exists; exists c; split; [exact J|apply N.eqb_refl]). congruence. }
  split; apply G; intros x J; vm_compute in J |- *; tauto.
Qed.
Lemma place_name : forall s, forallb place_ok s = true -> FormatSpec.name_text s /\ FormatSpec.parted s s [].
Proof.
  intros s H. split.
  - induction s as [|c s IH]; [constructor|]. cbn [forallb] in H. apply andb_prop in H as [H1 H2]. constructor; auto. now apply place_char.
  - split; [now rewrite app_nil_r|]. split; [|now left]. intros c I. eapply forallb_forall in H; [|exact I]. now apply place_char.
Qed.
Lemma plain_place : forall args kws k m s a t out m1 m2, forallb place_ok s = true -> FormatSpec.picked args kws m s a m1 ->
  FormatSpec.given args kws (S k) m1 t out m2 ->
  FormatSpec.given args kws (S k) m ((lit "{" ++ s ++ lit "}") ++ t) (FormatSpec.text_of a ++ out) m2.
Proof.
  intros args kws k m s a t out m1 m2 H P G. destruct (place_name s H) as [N1 N2].
  apply (FormatSpec.gi_place args kws k m (FormatSpec.Place s None None) t (FormatSpec.text_of a) out m1 m2).
  - split; [exact N1|exact Logic.I].
  - apply FormatSpec.sa_flat with (a := a) (b := a); [|constructor|intros []|constructor].
    exists s, [], a. split; [exact N2|]. split; [exact P|constructor].
  - exact G.
Qed.
Lemma doubled_given : forall args kws k m t out m' s, FormatSpec.given args kws (S k) m t out m' ->
  FormatSpec.given args kws (S k) m (doubled s ++ t) (s ++ out) m'.
Proof.
  intros args kws k m t out m' s G. induction s as [|c s IH]; [exact G|]. unfold doubled in *. cbn [flat_map]. unfold is_brace at 1.
  assert (O : forall c, FormatSpec.one_of "{}" c <-> c = 123%N \/ c = 125%N).
  { intros x. change (FormatSpec.one_of "{}" x) with (123%N = x \/ 125%N = x \/ False). intuition congruence. }
  destruct (N.eqb_spec c 123) as [->|H1]; [|destruct (N.eqb_spec c 125) as [->|H2]]; cbn [orb app].
  - apply FormatSpec.gi_brace; [apply O; now left|exact IH].
  - apply FormatSpec.gi_brace; [apply O; now right|exact IH].
  - apply FormatSpec.gi_char; [|exact IH]. rewrite O. tauto.
Qed.
Lemma uint_place : forall u, forallb place_ok (uint_str u) = true.
Proof. induction u; auto. Qed.
Lemma digits_dv : forall s acc n, digits_val 10 acc dec_digit s = Some n -> FormatFacts.dv acc s = Some n.
Proof.
  induction s as [|c s IH]; intros acc n; cbn [digits_val FormatFacts.dv]; auto. unfold uni_decimal.
  destruct (dec_digit c) as [d|] eqn:D; [|discriminate]. intros H.
  assert (C : (c <? 128)%N = true).
  { unfold dec_digit, is_digit_ascii in D. destruct ((48 <=? c) && (c <=? 57))%N eqn:E; [|discriminate].
    apply andb_prop in E as [_ E]. apply N.leb_le in E. apply N.ltb_lt. lia. }
  rewrite C. apply IH. exact H.
Qed.
Lemma number_numeral : forall n, FormatSpec.numeral (str_of_Z (Z.of_N n)) n /\ forallb place_ok (str_of_Z (Z.of_N n)) = true.
Proof.
  intros n. destruct (number_str n) as (u & E1 & E2 & E3). rewrite E1. split; [|apply uint_place].
  apply FormatFacts.numeral_dv. split; auto. apply digits_dv. now rewrite digits_uint, E2.
Qed.
Lemma name_place : forall s, forallb name_char s = true -> forallb place_ok s = true.
Proof.
  intros s H. apply forallb_forall. intros c J. eapply forallb_forall in H; [|exact J].
  unfold name_char in H. unfold place_ok. cbn [lit existsb]. rewrite negb_true_iff.
  change (existsb (N.eqb c) [123; 125; 91; 58; 33; 46]%N = false). cbn [existsb]. rewrite !orb_false_iff, !N.eqb_neq.
  rewrite !orb_true_iff, !andb_true_iff, N.eqb_eq, !N.leb_le in H. lia.
Qed.
Lemma name_no_number : forall s, is_name s -> FormatSpec.no_number s.
Proof.
  intros s [NE H]. destruct s as [|c s]; [congruence|]. cbn [forallb] in H. apply andb_prop in H as [H _].
  assert (D : uni_decimal c = None).
  { unfold name_char in H. rewrite !orb_true_iff, !andb_true_iff, N.eqb_eq, !N.leb_le in H. unfold uni_decimal, dec_digit, is_digit_ascii.
    replace (c <? 128)%N with true by (symmetry; apply N.ltb_lt; lia).
    replace ((48 <=? c) && (c <=? 57))%N with false; [reflexivity|]. symmetry. apply andb_false_iff. rewrite !N.leb_gt. lia. }
  assert (G : forall p n q, c :: s = p ++ q -> ~ FormatSpec.numeral p n).
  { intros p n q E X. apply FormatFacts.numeral_dv in X as [X1 X2]. destruct p as [|e p]; [congruence|]. cbn [app] in E. injection E as <- _.
    cbn [FormatFacts.dv] in X2. rewrite D in X2. discriminate. }
  split; [intros (p & q & n & E & X & _); exact (G p n q E X)|]. intros n. apply (G _ n []). now rewrite app_nil_r.
Qed.
Definition no_next (t : list piece) : Prop := ~ In PNext t.
Lemma filled_given : forall args kws t k out, filled args kws k t out ->
  (forall m, no_next t -> (m = FUnset \/ m = FManual) -> exists m', FormatSpec.given args kws 2 m (written t) out m')
  /\ ((forall n, ~ In (PNumber n) t) -> forall m, m = FAuto k \/ (k = 0%nat /\ m = FUnset) -> exists m', FormatSpec.given args kws 2 m (written t) out m').
Proof.
  intros args kws t k out H. induction H as [k|k s t out H IH|k a t out HX H IH|k n a t out HS HX H IH|k s a t out HN HX H IH].
  - split; intros; eexists; constructor.
  - destruct IH as [I1 I2]. unfold written. cbn [map concat written_piece]. fold (written t). split.
    + intros m N M. destruct (I1 m) as (m' & G); [intros X; apply N; now right|auto|]. exists m'. now apply doubled_given.
    + intros N m M. destruct (I2 (fun n X => N n (or_intror X)) m M) as (m' & G). exists m'. now apply doubled_given.
  - destruct IH as [_ I2]. unfold written. cbn [map concat written_piece]. fold (written t). split; [intros m N; elim N; now left|].
    intros N m M. destruct (I2 (fun n X => N n (or_intror X)) (FAuto (S k)) (or_introl eq_refl)) as (m' & G). exists m'.
    change (lit "{}") with (lit "{" ++ [] ++ lit "}"). eapply plain_place; [reflexivity| |exact G].
    destruct M as [->|[-> ->]]; now constructor.
  - destruct IH as [I1 _]. unfold written. cbn [map concat written_piece]. fold (written t). split; [|intros N; elim (N n); now left].
    intros m N M. destruct (I1 FManual) as (m' & G); [intros X; apply N; now right|auto|]. exists m'.
    destruct (number_numeral n) as [N1 N2]. eapply plain_place; [exact N2| |exact G]. eapply FormatSpec.pk_number; eauto. now split.
  - destruct IH as [I1 I2]. unfold written. cbn [map concat written_piece]. fold (written t).
    assert (E : forall m m', FormatSpec.given args kws 2 m (written t) out m' ->
      FormatSpec.given args kws 2 m ((lit "{" ++ s ++ lit "}") ++ written t) (FormatSpec.text_of a ++ out) m').
    { intros m m' G. eapply plain_place; [apply name_place, HN| |exact G]. apply FormatSpec.pk_name; [apply HN|now apply name_no_number|auto]. }
    split.
    + intros m N M. destruct (I1 m) as (m' & G); [intros X; apply N; now right|auto|]. eauto.
    + intros N m M. destruct (I2 (fun n X => N n (or_intror X)) m M) as (m' & G). eauto.
Qed.
Lemma filled_formats : forall args kws t out, unmixed t -> filled args kws 0 t out -> formats args kws (written t) out.
Proof.
  intros args kws t out [N|N] H; destruct (filled_given _ _ _ _ _ H) as [A B].
  - apply A; auto.
  - apply B; auto.
Qed.
End T.

Section F.
Context `{U : Uni}.

(** ** Settings *)
Lemma sattr_get : forall s k v, dget k s = Some v -> sattr s k = Ok v.
Proof. intros s k v H. unfold sattr. now rewrite H. Qed.
Lemma sitem_get : forall s k v, dget k s = Some v -> sitem s k = Ok v.
Proof. intros s k v H. unfold sitem. now rewrite H. Qed.
Lemma sides_read : forall s k x, sides_set s k x -> sides_of_val (dget (lit k) s) = Ok x.
Proof.
  intros s k x H. unfold sides_set in H. destruct (dget (lit k) s) as [v|]; [|now subst].
  destruct v; try (destruct H as (rest & H); try discriminate H); [now subst|]. injection H as ->. destruct x. reflexivity.
Qed.
Lemma border_read : forall s bo, border_set s bo -> exists v, dget (lit "border") s = Some v
  /\ forall bo', borders_of_val v = Ok bo' -> bo' = bo.
Proof.
  intros s [t r b l] (rest & [H|H]); eexists; (split; [exact H|]); intros bo' E; cbn [bo_top bo_right bo_bottom bo_left borders_of_val] in E;
  unfold borders_of_val in E; cbn [mapM] in E;
  match type of E with context [mapM ?f rest] => destruct (mapM f rest) end; try discriminate E; cbn [bind] in E; injection E as <-; reflexivity.
Qed.

(** ** Frames *)
Lemma srep_copies : forall u n, srep u n = copies (Z.to_nat n) u.
Proof.
  intros u n. unfold srep. generalize (Z.to_nat n). clear. induction n as [|n IH]; auto. cbn [repeat concat copies]. now rewrite IH.
Qed.
Lemma copies_one : forall n c, copies n [c] = repeat c n.
Proof. induction n as [|n IH]; intros c; auto. cbn [copies repeat app]. now rewrite IH. Qed.
Lemma border_rows_framed : forall page m pd bo t inner,
  let b := child_box page m pd (border_sides bo) t in
  border_rows b bo inner = framed (b_width page - both (b_total_margin page) - both m)
    (line_width page - both m - len (bo_left bo) - len (bo_right bo)) pd bo (split_on 10%N inner).
Proof.
  intros page m pd bo t inner b. unfold border_rows, framed, vertical_pad.
  assert (BW : bordered_width b = b_width page - both (b_total_margin page) - both m)
    by (unfold b, bordered_width, child_box, lr, both; cbn; lia).
  assert (PW : padded_width b = line_width page - both m - len (bo_left bo) - len (bo_right bo))
    by (unfold b, padded_width, child_box, line_width, lr, both, border_sides; cbn; lia).
  rewrite BW, PW. change (b_padding b) with pd. change (len []) with 0. rewrite !Z.sub_0_r. change (spaces 0) with ([] : str). cbn [app].
  assert (ED : forall s w, map (fun c => srep [c] w) s = edge w s).
  { intros s w. unfold edge. apply map_ext. intros c. rewrite srep_copies. apply copies_one. }
  rewrite !ED. f_equal. f_equal. f_equal. apply map_ext. intros l. unfold border_row. change (b_padding b) with pd. rewrite PW.
  now rewrite Z.sub_add_distr.
Qed.
Lemma block_dressed : forall d cl i c r page x content inner,
  is_block (rc_kind cl) = true -> c_parent_box c = Some page -> instantiate d cl i c = Ok r ->
  wears (i_settings r) x ->
  inner_render d r content = Ok inner ->
  exists out, block_render d r content = Ok out /\ dressed page x (split_on 10%N inner) out.
Proof.
  intros d cl i c r page [m pd bo] content inner HB HP HI (W1 & W2 & W3) HR. cbn [dr_margin dr_padding dr_border] in *.
  destruct (instantiate_block d cl i c r page HB HP HI) as (bv & bo' & m' & pd' & t & E1 & E2 & E3 & E4 & E5 & E6 & E7).
  rewrite (sides_read _ _ _ W1) in E3. injection E3 as <-. rewrite (sides_read _ _ _ W2) in E4. injection E4 as <-.
  destruct (border_read _ _ W3) as (v & V1 & V2). rewrite (sattr_get _ _ _ V1) in E1. injection E1 as <-. apply V2 in E2 as E2'. subst bo'.
  unfold block_render. rewrite HR. cbn [bind]. unfold border_render, the_box. rewrite E6. cbn [bind]. rewrite (sattr_get _ _ _ V1). cbn [bind].
  rewrite E2. cbn [bind]. rewrite border_rows_framed. eexists. split; [reflexivity|]. unfold dressed. cbn [dr_margin dr_padding dr_border].
  destruct (outer_render_eq (child_box page m pd (border_sides bo) t) (join nl (framed (b_width page - both (b_total_margin page) - both m)
     (line_width page - both m - len (bo_left bo) - len (bo_right bo)) pd bo (split_on 10%N inner)))) as (body & B1 & B2).
  exists body. split; [exact B1|exact B2].
Qed.
(** The box of the block. *)
Lemma block_box : forall d cl i c r page x, is_block (rc_kind cl) = true -> c_parent_box c = Some page -> instantiate d cl i c = Ok r ->
  wears (i_settings r) x ->
  exists t, i_box r = Some (child_box page (dr_margin x) (dr_padding x) (border_sides (dr_border x)) t) /\ i_kind r = rc_kind cl
    /\ (if has_line_template (rc_kind cl) then template_of_val (dget (lit "line_template") (i_settings r)) else Ok None) = Ok t.
Proof.
  intros d cl i c r page [m pd bo] HB HP HI (W1 & W2 & W3). cbn [dr_margin dr_padding dr_border] in *.
  destruct (instantiate_block d cl i c r page HB HP HI) as (bv & bo' & m' & pd' & t & E1 & E2 & E3 & E4 & E5 & E6 & E7).
  rewrite (sides_read _ _ _ W1) in E3. injection E3 as <-. rewrite (sides_read _ _ _ W2) in E4. injection E4 as <-.
  destruct (border_read _ _ W3) as (v & V1 & V2). rewrite (sattr_get _ _ _ V1) in E1. injection E1 as <-. apply V2 in E2 as E2'. subst bo'.
  exists t. auto.
Qed.

(** ** Headings *)
Lemma spread_out_eq : forall gap x, join gap (map (fun c => [c]) x) = spread_out gap x.
Proof.
  intros gap x. induction x as [|c x IH]; [reflexivity|]. destruct x as [|e x]; [reflexivity|].
  etransitivity; [exact (join_cons2 gap [c] [e] (map (fun c => [c]) x))|]. cbn [spread_out app]. f_equal. f_equal. exact IH.
Qed.
Lemma spread_eq : forall x gap n, 0 < n -> spread x gap n = spread_by n gap x.
Proof.
  intros x gap n H. unfold spread, spread_by. replace (0 <? n) with true by (symmetry; apply Z.ltb_lt; lia).
  now rewrite spread_out_eq, srep_copies.
Qed.
Lemma placed_center : forall b w x, placed b w x (if b then center x w else x).
Proof. intros [] w x; [apply SetFacts.center_centred|reflexivity]. Qed.
Lemma fmt1_fills : forall s k t x out, template_set s k t -> fills t x out -> forall v, dget (lit k) s = Some v -> fmt1 v x = Ok out.
Proof.
  intros s k t x out H F v E. unfold template_set in H. rewrite H in E. injection E as <-. unfold fmt1. cbn [want_str bind]. now apply FormatMain.format_ok.
Qed.
Lemma cased_eq : forall b x, capitalize_if b x = cased b x.
Proof. reflexivity. Qed.
Lemma heading_inner_width : forall page m pd bo t,
  inner_width (child_box page m pd (border_sides bo) t) = heading_room page (Dress m pd bo).
Proof. intros. unfold inner_width, heading_room, text_room, child_box, wrap_width, line_width, lr, both, border_sides. cbn. lia. Qed.
Lemma heading_rendered : forall r page x t h content text,
  i_box r = Some (child_box page (dr_margin x) (dr_padding x) (border_sides (dr_border x)) t) ->
  heading_set (i_settings r) h ->
  fills (hs_template h) (spread_by (hs_spread h) (hs_gap h) (cased (hs_caps h) content)) text ->
  exists inner, header_inner r content = Ok inner /\ heading h (heading_room page x) content inner.
Proof.
  intros r page x t h content text HB (S1 & S2 & S3 & S4 & S5 & S6) HF. unfold header_inner. cbv zeta.
  destruct S2 as (v2 & G2 & T2), S5 as (v5 & G5 & T5). unfold int_set in S3. unfold str_set in S4. pose proof S1 as G1; unfold template_set in G1.
  rewrite (sattr_get _ _ _ G5), (sattr_get _ _ _ G2), (sattr_get _ _ _ S3). cbn [bind]. change (want_int (VInt (hs_spread h))) with (Ok (hs_spread h)).
  cbn [bind]. unfold the_box. rewrite HB. cbn [bind]. rewrite (sattr_get _ _ _ G1). cbn [bind]. rewrite (sattr_get _ _ _ S4). cbn [bind].
  rewrite T2, T5, cased_eq.
  match goal with |- context [bind (if ?b then _ else _) ?k] => assert (SP : (if b then Ok (spread (cased (hs_caps h) content) (hs_gap h) (hs_spread h)) else Ok (cased (hs_caps h) content))
     = Ok (spread_by (hs_spread h) (hs_gap h) (cased (hs_caps h) content))) end.
  { rewrite Z.gtb_ltb. destruct (0 <? hs_spread h) eqn:E; [now rewrite spread_eq by lia|]. unfold spread_by. now rewrite E. }
  rewrite SP. cbn [bind]. rewrite (fmt1_fills _ _ _ _ _ S1 HF _ G1). cbn [bind].
  destruct x as [m pd bo]. cbn [dr_margin dr_padding dr_border] in *. rewrite heading_inner_width. set (w := heading_room page (Dress m pd bo)).
  unfold heading. destruct (hs_underline h) as [[full u]|].
  - destruct S6 as ((v6 & G6 & T6) & (v7 & G7 & T7) & G8). unfold str_set in G8.
    rewrite (sitem_get _ _ _ G6). cbn [bind]. rewrite T6, (sattr_get _ _ _ G7). cbn [bind]. rewrite T7, (sattr_get _ _ _ G8). cbn [bind].
    eexists. split; [reflexivity|]. exists text. split; [auto|]. eexists _, _. split; [apply placed_center|]. split; [|reflexivity].
    rewrite srep_copies. apply placed_center.
  - destruct S6 as (v6 & G6 & T6). rewrite (sitem_get _ _ _ G6). cbn [bind]. rewrite T6. eexists. split; [reflexivity|]. exists text. split; [auto|]. apply placed_center.
Qed.

(** ** Text *)
Lemma wrapper_read : forall s cfg, wrapper_set s cfg -> wrap_cfg s = Ok cfg.
Proof.
  intros s cfg ((n1 & A1 & B1) & (n2 & A2 & B2) & C1 & C2 & C3 & C4 & C5 & C6 & C7 & C8 & C9 & C10 & C11).
  assert (O : forall k dflt b, chosen s k dflt b -> opt_truth s k dflt = b)
    by (intros k dflt b H; unfold chosen in H; unfold opt_truth; destruct (dget (lit k) s); congruence).
  unfold wrap_cfg. unfold int_set in *. rewrite (sattr_get _ _ _ A1), (sattr_get _ _ _ A2). cbn [bind].
  change (want_int (VInt n1)) with (Ok n1). change (want_int (VInt n2)) with (Ok n2). cbn [bind].
  rewrite (O _ _ _ C1), (O _ _ _ C2), (O _ _ _ C3), (O _ _ _ C4), (O _ _ _ C5), (O _ _ _ C6).
  assert (TS : (match dget (lit "tabsize") s with Some v => want_int v | None => Ok 8 end) = Ok (w_tabsize cfg)).
  { destruct (dget (lit "tabsize") s); [now subst|congruence]. }
  rewrite TS. cbn [bind].
  assert (BH : (match dget (lit "break_on_hyphens") s with Some (VBool b) => b | Some _ => false | None => true end) = w_boh_true cfg).
  { destruct (dget (lit "break_on_hyphens") s) as [[]|]; congruence. }
  rewrite BH. destruct cfg. cbn in *. congruence.
Qed.
Lemma just_read : forall s j, justification_set s j -> exists v, dget (lit "justification") s = Some v /\ just_name v = Ok (lit j).
Proof.
  intros s j [H I]. exists (VStr (lit j)). split; [exact H|].
  cbn [In] in I. repeat (destruct I as [I|I]; [subst j; reflexivity|]). contradiction.
Qed.
Lemma Forall2_weaken : forall {A B} (P Q : A -> B -> Prop) l r, (forall a b, P a b -> Q a b) -> Forall2 P l r -> Forall2 Q l r.
Proof. intros A B P Q l r H F. induction F; constructor; auto. Qed.
Lemma mapM_Forall2 : forall {A B} (f : A -> res B) l r, Forall2 (fun x y => f x = Ok y) l r -> mapM f l = Ok r.
Proof. intros A B f l r H. induction H as [|x y l r H1 H2 IH]; [reflexivity|]. cbn [mapM]. now rewrite H1, IH. Qed.
Lemma skip_read : forall d i, para_skip d i = true <-> only_code_in d i.
Proof.
  intros d i. unfold para_skip, only_code_in, is_tagged. split.
  - intros H. destruct (node_at d i) as [n|] eqn:E1; [|discriminate]. destruct (n_children n) as [|k [|]] eqn:E2; try discriminate.
    destruct (node_at d k) as [m|] eqn:E3; [|discriminate]. destruct (n_tag m) as [t|] eqn:E4; [|discriminate].
    apply smem_In in H. exists n, k, m, t. cbn [In] in H. intuition congruence.
  - intros (n & k & m & t & E1 & E2 & [E3 E4] & E5). rewrite E1, E2, E3, E4. apply smem_In. cbn [In]. intuition congruence.
Qed.
Lemma label_read : forall s t, template_set s "line_template" t ->
  exists lt, template_of_val (dget (lit "line_template") s) = Ok lt /\ template_width lt = label_columns t.
Proof.
  intros s t H. unfold template_set in H. rewrite H. unfold template_of_val, label_columns. cbn [truth]. destruct t as [|c r].
  - exists None. split; reflexivity.
  - exists (Some (c :: r)). split; reflexivity.
Qed.
Lemma text_width : forall page m pd bo t,
  inner_width_excluding_line_template (child_box page m pd (border_sides bo) t) = text_room page (Dress m pd bo) (template_width t).
Proof. intros. unfold inner_width_excluding_line_template, text_room, child_box, wrap_width, line_width, lr, both, border_sides. cbn. lia. Qed.

Lemma paragraph_rendered : forall d r page x lt t j cfg caps skip content ls rows,
  i_box r = Some (child_box page (dr_margin x) (dr_padding x) (border_sides (dr_border x)) lt) -> template_width lt = label_columns t ->
  let s := i_settings r in
  template_set s "line_template" t -> justification_set s j -> wrapper_set s cfg -> switched s "capitalized" caps ->
  switched s "skip_for_code_or_pre" skip -> (skip = true -> ~ only_code_in d (i_tag r)) ->
  laid_out j cfg (text_room page x (label_columns t)) (cased caps content) ls ->
  Forall2 (fills t) ls rows ->
  paragraph_inner d r content = Ok (join nl rows).
Proof.
  intros d r page x lt t j cfg caps skip content ls rows HB HT s S1 S2 S3 S4 S5 NC (parts & HL & ->) HF. subst s. assert (HL' : Forall2 (fun x0 y => justify (lit j) cfg (text_room page x (label_columns t)) (strip x0) = Ok y) (split_on 10%N (cased caps content)) parts) by (eapply Forall2_weaken; [|exact HL]; intros ? ? Q; now apply SetFacts.justify_set). clear HL. rename HL' into HL. unfold paragraph_inner. cbv zeta.
  destruct S4 as (v4 & G4 & T4), S5 as (v5 & G5 & T5), (just_read _ _ S2) as (v2 & G2 & J). pose proof S1 as G1; unfold template_set in G1.
  rewrite (sattr_get _ _ _ G5). cbn [bind]. rewrite T5.
  assert (SK : skip && para_skip d (i_tag r) = false).
  { destruct skip; [|reflexivity]. cbn [andb]. destruct (para_skip d (i_tag r)) eqn:E; [|reflexivity]. apply skip_read in E. elim (NC eq_refl E). }
  rewrite SK, (sattr_get _ _ _ G2). cbn [bind]. rewrite J. cbn [bind]. rewrite (sattr_get _ _ _ G4). cbn [bind]. rewrite (wrapper_read _ _ S3). cbn [bind].
  unfold the_box. rewrite HB. cbn [bind]. destruct x as [m pd bo]. cbn [dr_margin dr_padding dr_border] in *. rewrite text_width, HT, T4, cased_eq.
  rewrite (mapM_Forall2 _ _ _ HL). cbn [bind]. rewrite (sattr_get _ _ _ G1). cbn [bind].
  rewrite (mapM_Forall2 (fmt1 (VStr t)) _ rows); [reflexivity|]. unfold rows_of in HF. eapply Forall2_weaken; [|exact HF].
  intros a b F. eapply fmt1_fills; eauto.
Qed.
Lemma item_rendered : forall r page x lt t j cfg caps content y l rest first,
  i_box r = Some (child_box page (dr_margin x) (dr_padding x) (border_sides (dr_border x)) lt) -> template_width lt = label_columns t ->
  let s := i_settings r in
  template_set s "line_template" t -> justification_set s j -> wrapper_set s cfg -> switched s "capitalized" caps ->
  SetSpec.set_text cfg (text_room page x (label_columns t)) (cased caps content) (lit j) y -> split_on 10%N y = l :: rest -> fills t l first ->
  item_inner r content = Ok (join nl (first :: map (fun l => spaces (label_columns t) ++ l) rest)).
Proof.
  intros r page x lt t j cfg caps content y l rest first HB HT s S1 S2 S3 S4 HJ HL HF. subst s. apply SetFacts.justify_set in HJ. unfold item_inner. cbv zeta.
  destruct S4 as (v4 & G4 & T4), (just_read _ _ S2) as (v2 & G2 & J). pose proof S1 as G1; unfold template_set in G1.
  rewrite (sattr_get _ _ _ G2). cbn [bind]. rewrite J. cbn [bind]. rewrite (sattr_get _ _ _ G4). cbn [bind]. rewrite (wrapper_read _ _ S3). cbn [bind].
  unfold the_box. rewrite HB. cbn [bind]. destruct x as [m pd bo]. cbn [dr_margin dr_padding dr_border] in *. rewrite text_width, HT, T4, cased_eq, HJ. cbn [bind].
  rewrite (sattr_get _ _ _ G1). cbn [bind]. rewrite HL. rewrite (fmt1_fills _ _ _ _ _ S1 HF _ G1). cbn [bind].
  change (b_ltp (child_box page m pd (border_sides bo) lt)) with (template_width lt). now rewrite HT.
Qed.
Lemma pre_rendered : forall r t n content rows,
  template_set (i_settings r) "line_template" t -> int_set (i_settings r) "indent" n ->
  Forall2 (fun l row => exists x, fills t l x /\ row = spaces n ++ x) (splitlines false content) rows ->
  pre_inner r content = Ok (join nl rows).
Proof.
  intros r t n content rows S1 S2 HF. unfold pre_inner. cbv zeta. pose proof S1 as G1; unfold template_set in G1. unfold int_set in S2.
  match goal with |- context [mapM ?f ?l] => rewrite (mapM_Forall2 f l rows) end; [reflexivity|]. eapply Forall2_weaken; [|exact HF].
  intros a b (x & F & ->). cbv beta. rewrite (sattr_get _ _ _ S2). cbn [bind]. change (want_int (VInt n)) with (Ok n). cbn [bind]. rewrite (sattr_get _ _ _ G1). cbn [bind].
  rewrite (fmt1_fills _ _ _ _ _ S1 F _ G1). reflexivity.
Qed.
Lemma quote_rendered : forall r bx t content rows, i_box r = Some bx ->
  template_set (i_settings r) "line_template" t -> Forall2 (fills t) (splitlines false content) rows ->
  quote_inner r content = Ok (join nl rows).
Proof.
  intros r bx t content rows HB S1 HF. unfold quote_inner. cbv zeta. pose proof S1 as G1; unfold template_set in G1. unfold the_box. rewrite HB. cbn [bind]. rewrite (sattr_get _ _ _ G1). cbn [bind].
  match goal with |- context [mapM ?f ?l] => rewrite (mapM_Forall2 f l rows) end; [reflexivity|]. eapply Forall2_weaken; [|exact HF].
  intros a b F. eapply fmt1_fills; eauto.
Qed.

(** ** Inline *)
Lemma inline_rendered : forall s t caps content out, template_set s "template" t -> switched s "capitalized" caps ->
  fills t (cased caps content) out -> inline_render s content = Ok out.
Proof.
  intros s t caps content out S1 (v & G & T) F. unfold inline_render. pose proof S1 as G1; unfold template_set in G1. rewrite (sitem_get _ _ _ G). cbn [bind].
  rewrite (sattr_get _ _ _ G1). cbn [bind]. rewrite T. exact (fmt1_fills _ _ _ _ _ S1 F _ G1).
Qed.

Lemma instantiate_fields : forall d cl i c r, instantiate d cl i c = Ok r -> i_ctx r = c /\ i_kind r = rc_kind cl /\ i_tag r = i.
Proof.
  intros d cl i c r H. unfold instantiate in H. cbv zeta in H. apply bind_Ok in H as (s1 & _ & H). apply bind_Ok in H as (s3 & _ & H).
  destruct (is_block (rc_kind cl)).
  - apply bind_Ok in H as (bv & _ & H). apply bind_Ok in H as (bo & _ & H). apply bind_Ok in H as (bx & _ & H). apply ok_inj in H. subst r. auto.
  - apply ok_inj in H. subst r. auto.
Qed.
(** The heading templates of [MarkdownHeaderRenderer]. *)
Lemma md_set : forall d cl i c r n t k rest, rc_kind cl = KMdHeader -> instantiate d cl i c = Ok r -> is_tagged d i n t ->
  t = [k] ++ str_of_Z rest -> 0 <= rest <= 9 ->
  template_set (i_settings r) "template" (copies (Z.to_nat rest) (lit "#") ++ lit " {} " ++ copies (Z.to_nat rest) (lit "#")).
Proof.
  intros d cl i c r n t k z K H [HT1 HT2] -> Z9. unfold instantiate in H. cbv zeta in H. rewrite K in H. cbn [bind is_block] in H.
  apply bind_Ok in H as (s3 & H1 & H). apply bind_Ok in H1 as (x & H1 & H3). apply ok_inj in H3. subst s3.
  apply bind_Ok in H as (bv & _ & H). apply bind_Ok in H as (bo & _ & H). apply bind_Ok in H as (bx & _ & H). apply ok_inj in H. subst r. cbn [i_settings].
  unfold md_template in H1. rewrite HT1, HT2 in H1.
  assert (C : z = 0 \/ z = 1 \/ z = 2 \/ z = 3 \/ z = 4 \/ z = 5 \/ z = 6 \/ z = 7 \/ z = 8 \/ z = 9) by lia.
  unfold template_set. rewrite dget_dset_same. do 2 f_equal. symmetry.
  destruct C as [->|[->|[->|[->|[->|[->|[->|[->|[->| ->]]]]]]]]]; cbn in H1; apply ok_inj in H1; subst x; vm_compute; reflexivity.
Qed.
Lemma title_read : forall r e, c_extra (i_ctx r) = Some e -> ctx_title r = title_of e.
Proof. intros r e H. unfold ctx_title, title_of. rewrite H. destruct (le_title e) as [[|]|]; reflexivity. Qed.
Lemma link_told : forall r l, c_link (i_ctx r) = Some l -> ctx_link r = Ok l.
Proof. intros r l H. unfold ctx_link. now rewrite H. Qed.
Lemma extra_told : forall r e, c_extra (i_ctx r) = Some e -> ctx_extra r = Ok e.
Proof. intros r l H. unfold ctx_extra. now rewrite H. Qed.
Lemma truncate_cut : forall m x, 0 <= m -> truncate m x = cut_to m x.
Proof.
  intros m x H. unfold truncate, cut_to, py_slice_to, slice_to. replace (m <? 0) with false by (symmetry; apply Z.ltb_ge; lia).
  now rewrite Z.gtb_ltb.
Qed.
End F.
Close Scope Z_scope.
