(** How links and images come out. *)
From Verif Require Import BaseFacts StrFacts SelFacts TreeFacts DomFacts LineFacts BoxFacts AnsiStyle RenderFacts ElemFacts ElemText.
From Verif Require Export LinkSpec.
Open Scope Z_scope.
Section L.
Context `{U : Uni}.

(** *** What a link is rendered with *)
Lemma link_known : forall o g h s sg i n t, closing o g h s sg -> is_tagged (p_dom s) i n t -> is_link t = true ->
  exists lk, link_of n lk /\ n_data n = None
  /\ (lc_format (lk_ctx lk) = g_format g /\ lc_link_placement (lk_ctx lk) = g_link g /\ lc_image_placement (lk_ctx lk) = g_image g)
  /\ parse_href (lk_href lk) (g_host g) (g_port g) = Ok (lk_gopher lk)
  /\ a_rend (asg_get i sg) = Some (if seqb t (lit "img") then ImageRenderer else LinkRenderer)
  /\ a_settings (asg_get i sg) = Some []
  /\ a_lrend (asg_get i sg) = Some (ext_class t) /\ a_lsettings (asg_get i sg) = Some (Some []).
Proof.
  intros o g h s sg i n t C T L. destruct (assigned _ _ _ _ _ _ _ _ C T) as (HD & A & B). destruct (B L) as [B1 B2].
  destruct T as [T1 T2]. pose proof (lo_info _ _ (reach_links _ _ _ (cl_fed _ _ _ _ _ C)) _ _ T1) as K. unfold link_info in K. rewrite T2, L in K.
  destruct K as (lk & ref & K1 & K2 & K3). exists lk. split; auto. split; auto. split; [rewrite K2; auto|]. split; auto.
  assert (HT : t = lit "a" \/ t = lit "img").
  { unfold is_link in L. destruct (seqb_spec t (lit "a")); auto. destruct (seqb_spec t (lit "img")); auto. discriminate. }
  destruct HT as [-> | ->].
  - change (class_for (lit "a") (in_ol (p_dom s) i)) with (Some LinkRenderer) in A. destruct A as (A1 & st & A2 & A3 & _).
    apply no_extra in A3; [|vm_compute; discriminate..]. subst st. auto.
  - change (class_for (lit "img") (in_ol (p_dom s) i)) with (Some ImageRenderer) in A. destruct A as (A1 & st & A2 & A3 & _).
    apply no_extra in A3; [|vm_compute; discriminate..]. subst st. auto.
Qed.

(** The two ways a link is drawn. *)
Definition drawn_as_link (d : dom) (sg : asgs) (i : nat) (n : node) (lk : link) (bx : box) (cl : rcls) (out : str) : Prop :=
  exists r bx' c, instantiate d cl i (Ctx None (Some bx) (Some (lk_ctx lk)) (Some (LinkExtra (lk_href lk) (lk_title lk) (lk_gopher lk)))) = Ok r
    /\ (if i_block r then i_box r = Some bx' else bx' = bx) /\ link_content d sg n bx' c /\ render_inst d r c = Ok out.
Definition drawn_in_text (d : dom) (sg : asgs) (i : nat) (n : node) (lk : link) (bx : box) (cl : rcls) (out : str) : Prop :=
  exists r bx' c, instantiate d cl i (Ctx (Some []) (Some bx) (Some (lk_ctx lk)) None) = Ok r
    /\ (if i_block r then i_box r = Some bx' else bx' = bx) /\ content d sg n bx' c /\ render_inst d r c = Ok out.

Lemma seqb_false : forall a b, a <> b -> seqb a b = false.
Proof. intros a b H. destruct (seqb_spec a b); auto. contradiction. Qed.

Lemma draw_text : forall o g h s sg i n t bx out lk, closing o g h s sg -> is_tagged (p_dom s) i n t -> is_link t = true ->
  link_of n lk -> placement g t <> lit "inline" -> rendered (p_dom s) sg i bx out ->
  drawn_in_text (p_dom s) sg i n lk bx (if seqb t (lit "img") then ImageRenderer else LinkRenderer) out.
Proof.
  intros o g h s sg i n t bx out lk C T L HL NP R. destruct (link_known _ _ _ _ _ _ _ _ C T L) as (lk' & HL' & HD & (KF & KL & KI) & KP & A1 & A2 & A3 & A4).
  unfold link_of in HL, HL'. rewrite HL in HL'. injection HL' as <-. destruct T as [T1 T2].
  unfold rendered in R. rewrite (rendered_step _ _ _ _ _ (reach_downward _ _ _ (cl_fed _ _ _ _ _ C))) in R.
  unfold level_render in R. rewrite T1, HD, HL, T2 in R. cbv zeta in R. rewrite KI, KL in R. cbn [orb] in R.
  change (if seqb t (lit "img") then g_image g else g_link g) with (placement g t) in R. rewrite (seqb_false _ _ NP) in R.
  cbv iota in R. rewrite A1, A2 in R. cbn [bind] in R.
  apply bind_Ok in R as (r & ER & R). apply bind_Ok in R as (bx' & EB & R). apply bind_Ok in R as (parts & EP & R). apply bind_Ok in R as (links & EL & R).
  exists r, bx'. eexists. split; [exact ER|]. split; [|split; [|exact R]].
  - destruct (i_block r); [|congruence]. unfold the_box in EB. destruct (i_box r); congruence.
  - exists parts, links. apply mapM_Ok_Forall2 in EP, EL. auto.
Qed.
Lemma draw_inline : forall o g h s sg i n t bx out lk force, closing o g h s sg -> is_tagged (p_dom s) i n t -> is_link t = true ->
  link_of n lk -> placement g t = lit "inline" ->
  render_node (render_fuel (p_dom s)) (p_dom s) sg force i bx = Ok out ->
  drawn_as_link (p_dom s) sg i n lk bx (if seqb t (lit "img") then ImageRenderer else LinkRenderer) out.
Proof.
  intros o g h s sg i n t bx out lk force C T L HL NP R. destruct (link_known _ _ _ _ _ _ _ _ C T L) as (lk' & HL' & HD & (KF & KL & KI) & KP & A1 & A2 & A3 & A4).
  unfold link_of in HL, HL'. rewrite HL in HL'. injection HL' as <-. destruct T as [T1 T2].
  rewrite (rendered_step _ _ _ _ _ (reach_downward _ _ _ (cl_fed _ _ _ _ _ C))) in R.
  unfold level_render in R. rewrite T1, HD, HL, T2 in R. cbv zeta in R. rewrite KI, KL in R.
  change (if seqb t (lit "img") then g_image g else g_link g) with (placement g t) in R. rewrite NP in R.
  change (seqb (lit "inline") (lit "inline")) with true in R. rewrite orb_true_r in R.
  cbv iota in R. rewrite ?KI, ?KL in R.
  change (if seqb t (lit "img") then g_image g else g_link g) with (placement g t) in R. rewrite ?NP in R.
  change (seqb (lit "inline") (lit "inline")) with true in R. cbv iota in R. rewrite A1 in R. cbn [bind] in R.
  apply bind_Ok in R as (r & ER & R). apply bind_Ok in R as (bx' & EB & R). apply bind_Ok in R as (parts & EP & R).
  exists r, bx'. eexists. split; [exact ER|]. split; [|split; [|exact R]].
  - destruct (i_block r); [|congruence]. unfold the_box in EB. destruct (i_box r); congruence.
  - exists parts. apply mapM_Ok_Forall2 in EP. auto.
Qed.
Lemma draw_entry : forall o g h s sg i n t bx out lk, closing o g h s sg -> is_tagged (p_dom s) i n t -> is_link t = true ->
  link_of n lk -> placement g t <> lit "inline" -> entry (p_dom s) sg i bx out ->
  drawn_as_link (p_dom s) sg i n lk bx (ext_class t) out.
Proof.
  intros o g h s sg i n t bx out lk C T L HL NP R. destruct (link_known _ _ _ _ _ _ _ _ C T L) as (lk' & HL' & HD & (KF & KL & KI) & KP & A1 & A2 & A3 & A4).
  unfold link_of in HL, HL'. rewrite HL in HL'. injection HL' as <-. destruct T as [T1 T2].
  unfold entry in R. rewrite (rendered_step _ _ _ _ _ (reach_downward _ _ _ (cl_fed _ _ _ _ _ C))) in R.
  unfold level_render in R. rewrite T1, HD, HL, T2 in R. cbv zeta in R. rewrite KI, KL in R. cbn [orb] in R.
  change (if seqb t (lit "img") then g_image g else g_link g) with (placement g t) in R. rewrite ?(seqb_false _ _ NP) in R.
  cbv iota in R. rewrite ?KI, ?KL in R.
  change (if seqb t (lit "img") then g_image g else g_link g) with (placement g t) in R. rewrite ?(seqb_false _ _ NP) in R. cbv iota in R. rewrite A3, A4 in R. cbn [bind] in R.
  apply bind_Ok in R as (r & ER & R). apply bind_Ok in R as (bx' & EB & R). apply bind_Ok in R as (parts & EP & R).
  exists r, bx'. eexists. split; [exact ER|]. split; [|split; [|exact R]].
  - destruct (i_block r); [|congruence]. unfold the_box in EB. destruct (i_box r); congruence.
  - exists parts. apply mapM_Ok_Forall2 in EP. auto.
Qed.

(** *** In the text *)
Lemma inline_plain : forall c, inline_render (class_settings LinkRenderer) c = Ok c.
Proof. intros c. change (inline_render (class_settings LinkRenderer) c) with (Ok (c ++ [] : str)). now rewrite app_nil_r. Qed.
Lemma link_renderer_reference : forall r lc c, i_settings r = class_settings LinkRenderer -> c_link (i_ctx r) = Some lc ->
  lc_link_placement lc <> lit "inline" ->
  link_renderer r c = Ok (reference_text c (lc_reference lc)).
Proof.
  intros r lc c E1 E2 NP. unfold link_renderer, ctx_link. rewrite E1, E2.
  change (sattr (class_settings LinkRenderer) (lit "capitalized")) with (Ok (VBool false)). cbn [bind].
  rewrite (seqb_false _ _ NP), inline_plain. reflexivity.
Qed.
Lemma link_renderer_inline : forall r lc e c, i_settings r = class_settings LinkRenderer -> c_link (i_ctx r) = Some lc ->
  c_extra (i_ctx r) = Some e -> lc_link_placement lc = lit "inline" ->
  link_renderer r c = Ok (target_text c (le_href e) (le_title e)).
Proof.
  intros r lc e c E1 E2 E3 NP. unfold link_renderer, ctx_link, ctx_title, ctx_extra. rewrite E1, E2, E3.
  change (sattr (class_settings LinkRenderer) (lit "capitalized")) with (Ok (VBool false)). cbn [bind]. rewrite NP.
  rewrite inline_plain. unfold target_text. change (seqb (lit "inline") (lit "inline")) with true. cbv iota.
  destruct (le_href e), (le_title e) as [[|x t]|]; cbn [titled]; unfold quoted; rewrite <- ?app_assoc; reflexivity.
Qed.
Lemma image_renderer_reference : forall r lc, i_settings r = class_settings ImageRenderer -> c_link (i_ctx r) = Some lc ->
  c_extra (i_ctx r) = None -> lc_image_placement lc <> lit "inline" ->
  image_renderer r = Ok (reference_text (lit "Image") (lc_reference lc)).
Proof.
  intros r lc E1 E2 E3 NP. unfold image_renderer, ctx_link, ctx_title. rewrite E1, E2, E3.
  change (sattr (class_settings ImageRenderer) (lit "capitalized")) with (Ok (VBool false)). cbn [bind].
  rewrite (seqb_false _ _ NP). reflexivity.
Qed.
Lemma image_renderer_inline : forall r lc e, i_settings r = class_settings ImageRenderer -> c_link (i_ctx r) = Some lc ->
  c_extra (i_ctx r) = Some e -> lc_image_placement lc = lit "inline" ->
  image_renderer r = Ok (image_text (le_href e) (le_title e)).
Proof.
  intros r lc e E1 E2 E3 NP. unfold image_renderer, ctx_link, ctx_title, ctx_extra. rewrite E1, E2, E3.
  change (sattr (class_settings ImageRenderer) (lit "capitalized")) with (Ok (VBool false)). cbn [bind]. rewrite NP.
  unfold image_text. change (seqb (lit "inline") (lit "inline")) with true. cbv iota.
  destruct (le_href e), (le_title e) as [[|x t]|]; cbn [titled]; unfold quoted; rewrite <- ?app_assoc; reflexivity.
Qed.

Lemma link_reference_shape : forall o g h s sg i n bx out lk, closing o g h s sg -> is_tagged (p_dom s) i n (lit "a") ->
  link_of n lk -> g_link g <> lit "inline" -> rendered (p_dom s) sg i bx out ->
  exists c, content (p_dom s) sg n bx c /\ out = reference_text c (lc_reference (lk_ctx lk)).
Proof.
  intros o g h s sg i n bx out lk C T HL NP R. destruct (link_known _ _ _ _ _ _ _ _ C T eq_refl) as (lk' & HL' & HD & (KF & KL & KI) & _).
  unfold link_of in HL'. rewrite HL in HL'. injection HL' as <-.
  destruct (draw_text _ _ _ _ _ _ _ _ _ _ _ C T eq_refl HL NP R) as (r & bx' & c & I & B & HC & O).
  change (seqb (lit "a") (lit "img")) with false in I. cbv iota in I.
  apply ok_inj in I. subst r. cbn [i_block] in B. subst bx'. exists c. split; auto.
  match type of O with render_inst _ ?r _ = _ => change (link_renderer r c = Ok out) in O;
    rewrite (link_renderer_reference r (lk_ctx lk) c eq_refl eq_refl) in O end; [now apply ok_inj in O|congruence].
Qed.
Lemma link_inline_shape : forall o g h s sg i n bx out lk, closing o g h s sg -> is_tagged (p_dom s) i n (lit "a") ->
  link_of n lk -> g_link g = lit "inline" -> rendered (p_dom s) sg i bx out ->
  exists c, link_content (p_dom s) sg n bx c /\ out = target_text c (lk_href lk) (lk_title lk).
Proof.
  intros o g h s sg i n bx out lk C T HL NP R. destruct (link_known _ _ _ _ _ _ _ _ C T eq_refl) as (lk' & HL' & HD & (KF & KL & KI) & _).
  unfold link_of in HL'. rewrite HL in HL'. injection HL' as <-.
  destruct (draw_inline _ _ _ _ _ _ _ _ _ _ _ _ C T eq_refl HL NP R) as (r & bx' & c & I & B & HC & O).
  change (seqb (lit "a") (lit "img")) with false in I. cbv iota in I.
  apply ok_inj in I. subst r. cbn [i_block] in B. subst bx'. exists c. split; auto.
  match type of O with render_inst _ ?r _ = _ => change (link_renderer r c = Ok out) in O;
    rewrite (link_renderer_inline r (lk_ctx lk) _ c eq_refl eq_refl eq_refl) in O end; [now apply ok_inj in O|congruence].
Qed.
Lemma image_reference_shape : forall o g h s sg i n bx out lk, closing o g h s sg -> is_tagged (p_dom s) i n (lit "img") ->
  link_of n lk -> g_image g <> lit "inline" -> rendered (p_dom s) sg i bx out ->
  out = reference_text (lit "Image") (lc_reference (lk_ctx lk)).
Proof.
  intros o g h s sg i n bx out lk C T HL NP R. destruct (link_known _ _ _ _ _ _ _ _ C T eq_refl) as (lk' & HL' & HD & (KF & KL & KI) & _).
  unfold link_of in HL'. rewrite HL in HL'. injection HL' as <-.
  destruct (draw_text _ _ _ _ _ _ _ _ _ _ _ C T eq_refl HL NP R) as (r & bx' & c & I & B & HC & O).
  change (seqb (lit "img") (lit "img")) with true in I. cbv iota in I. apply ok_inj in I. subst r.
  match type of O with render_inst _ ?r _ = _ => change (image_renderer r = Ok out) in O;
    rewrite (image_renderer_reference r (lk_ctx lk) eq_refl eq_refl eq_refl) in O end; [now apply ok_inj in O|congruence].
Qed.
Lemma image_inline_shape : forall o g h s sg i n bx out lk, closing o g h s sg -> is_tagged (p_dom s) i n (lit "img") ->
  link_of n lk -> g_image g = lit "inline" -> rendered (p_dom s) sg i bx out ->
  out = image_text (lk_href lk) (lk_title lk).
Proof.
  intros o g h s sg i n bx out lk C T HL NP R. destruct (link_known _ _ _ _ _ _ _ _ C T eq_refl) as (lk' & HL' & HD & (KF & KL & KI) & _).
  unfold link_of in HL'. rewrite HL in HL'. injection HL' as <-.
  destruct (draw_inline _ _ _ _ _ _ _ _ _ _ _ _ C T eq_refl HL NP R) as (r & bx' & c & I & B & HC & O).
  change (seqb (lit "img") (lit "img")) with true in I. cbv iota in I. apply ok_inj in I. subst r.
  match type of O with render_inst _ ?r _ = _ => change (image_renderer r = Ok out) in O;
    rewrite (image_renderer_inline r (lk_ctx lk) _ eq_refl eq_refl eq_refl) in O end; [now apply ok_inj in O|congruence].
Qed.

(** *** Outside the text *)
Definition ext_inst (t : str) (lk : link) (bx : box) (i : nat) : inst :=
  Inst (if seqb t (lit "img") then KExtImage else KExtLink) (class_settings (ext_class t))
    (Ctx None (Some bx) (Some (lk_ctx lk)) (Some (LinkExtra (lk_href lk) (lk_title lk) (lk_gopher lk)))) i (Some (inner_box bx 0 0 None)) true.
Lemma ext_instance : forall d t lk bx i, t = lit "a" \/ t = lit "img" ->
  instantiate d (ext_class t) i (Ctx None (Some bx) (Some (lk_ctx lk)) (Some (LinkExtra (lk_href lk) (lk_title lk) (lk_gopher lk)))) = Ok (ext_inst t lk bx i).
Proof. intros d t lk bx i [-> | ->]; reflexivity. Qed.

Definition cut (max : Z) (text : str) : str := firstn (Z.to_nat max) (strip text) ++ (if len text >? max then lit "..." else []).
Lemma truncate_cut : forall text, truncate 10 text = cut 10 text.
Proof. reflexivity. Qed.
(** The text of an entry. *)
Definition link_entry (lk : link) (gm : bool) (c : str) : str :=
  let ref := lc_reference (lk_ctx lk) in
  if gm then record_text ref (match lk_title lk with Some t => t | None => cut 10 c end) (lk_gopher lk) ++ nl
  else nl ++ entry_text ref (cut 10 c) (lk_href lk) (lk_title lk).
Definition image_entry (lk : link) (gm : bool) : str :=
  let ref := lc_reference (lk_ctx lk) in
  let title := match titled (lk_title lk) with Some t => t | None => lit "Image" end in
  if gm then record_text ref (cut 10 title) (lk_gopher lk) ++ nl
  else nl ++ entry_text ref (cut 10 title) (lk_href lk) (if len title >? 10 then Some title else None).
Lemma extlink_text : forall lk bx i c,
  extlink_inner (ext_inst (lit "a") lk bx i) c = Ok (link_entry lk (seqb (lc_format (lk_ctx lk)) (lit "gophermap")) c).
Proof.
  intros [title href gl lc] bx i c. unfold extlink_inner, ctx_link, ctx_extra, ctx_title, ext_inst.
  cbn [i_settings i_ctx c_link c_extra lk_ctx lk_title lk_href lk_gopher bind le_title le_href le_gopher].
  change (seqb (lit "a") (lit "img")) with false. unfold ext_class. change (seqb (lit "a") (lit "img")) with false. cbv iota.
  change (sattr (class_settings ExtractedLinkRenderer) (lit "max_link_description")) with (Ok (VInt 10)). cbn [bind].
  change (want_int (VInt 10)) with (Ok 10). cbn [bind]. rewrite truncate_cut. unfold link_entry. cbn [lk_ctx lk_title lk_href lk_gopher].
  destruct (seqb (lc_format lc) (lit "gophermap")).
  - set (ds := match title with Some t => t | None => cut 10 c end). destruct gl as [ty sl [ho|] [po|]];
    match goal with |- gophermap_line ?a ?b ?cc ?d = _ => change (gophermap_line a b cc d) with
     (Ok (gl_type d ++ lit "[" ++ str_of_Z (lc_reference lc) ++ lit "] " ++ ds ++ tab ++ gl_selector d ++ tab ++ farg_str (opt_str (gl_host d)) ++ tab ++ farg_str (opt_int (gl_port d)) ++ nl : str)) end;
    f_equal; unfold record_text; repeat rewrite <- app_assoc; reflexivity.
  - set (ds := cut 10 c). clearbody ds. destruct href, title as [[|x t]|]; reflexivity.
Qed.
Lemma extimage_text : forall lk bx i,
  extimage_inner (ext_inst (lit "img") lk bx i) = Ok (image_entry lk (seqb (lc_format (lk_ctx lk)) (lit "gophermap"))).
Proof.
  intros [title href gl lc] bx i. unfold extimage_inner, ctx_link, ctx_extra, ctx_title, ext_inst.
  cbn [i_settings i_ctx c_link c_extra lk_ctx lk_title lk_href lk_gopher bind le_title le_href le_gopher].
  unfold ext_class. change (seqb (lit "img") (lit "img")) with true. cbv iota.
  change (sattr (class_settings ExtractedImageLinkRenderer) (lit "max_link_description")) with (Ok (VInt 10)). cbn [bind].
  change (want_int (VInt 10)) with (Ok 10). cbn [bind]. rewrite truncate_cut. unfold image_entry. cbn [lk_ctx lk_title lk_href lk_gopher].
  match goal with |- context [cut 10 (match ?m with Some t => t | None => lit "Image" end)] =>
    replace m with (titled title) by (destruct title as [[|]|]; reflexivity) end.
  set (ti := match titled title with Some t => t | None => lit "Image" end). clearbody ti. set (ds := cut 10 ti).
  assert (TD : (len ti >? 10) = true -> titled (Some ti) = Some ti) by (destruct ti; [intros H; discriminate H|reflexivity]). clearbody ds.
  destruct (seqb (lc_format lc) (lit "gophermap")).
  - destruct gl as [ty sl [ho|] [po|]];
    match goal with |- gophermap_line ?a ?b ?cc ?d = _ => change (gophermap_line a b cc d) with
     (Ok (gl_type d ++ lit "[" ++ str_of_Z (lc_reference lc) ++ lit "] " ++ ds ++ tab ++ gl_selector d ++ tab ++ farg_str (opt_str (gl_host d)) ++ tab ++ farg_str (opt_int (gl_port d)) ++ nl : str)) end;
    f_equal; unfold record_text; repeat rewrite <- app_assoc; reflexivity.
  - unfold entry_text. destruct href, (len ti >? 10); try rewrite TD by auto; reflexivity.
Qed.
Lemma link_entry_shape : forall o g h s sg i n bx out lk, closing o g h s sg -> is_tagged (p_dom s) i n (lit "a") ->
  link_of n lk -> g_link g <> lit "inline" -> entry (p_dom s) sg i bx out ->
  exists c, link_content (p_dom s) sg n (inner_box bx 0 0 None) c
    /\ out = if seqb (g_format g) (lit "gophermap") then link_entry lk true c
             else rows (line_width bx) (split_on 10%N (link_entry lk false c)).
Proof.
  intros o g h s sg i n bx out lk C T HL NP R. destruct (link_known _ _ _ _ _ _ _ _ C T eq_refl) as (lk' & HL' & HD & (KF & KL & KI) & _).
  unfold link_of in HL'. rewrite HL in HL'. injection HL' as <-.
  destruct (draw_entry _ _ _ _ _ _ _ _ _ _ _ C T eq_refl HL NP R) as (r & bx' & c & I & B & HC & O).
  rewrite ext_instance in I by auto. apply ok_inj in I. subst r. cbn [ext_inst i_block i_box] in B. injection B as <-. exists c. split; auto.
  unfold render_inst in O. cbn [ext_inst i_kind] in O. change (seqb (lit "a") (lit "img")) with false in O. cbv iota in O. fold (ext_inst (lit "a") lk bx i) in O.
  unfold extlink_render in O. change (ctx_link (ext_inst (lit "a") lk bx i)) with (Ok (lk_ctx lk)) in O. cbn [bind] in O. rewrite KF in O.
  pose proof (extlink_text lk bx i c) as X. rewrite KF in X. destruct (seqb (g_format g) (lit "gophermap")).
  - rewrite X in O. cbn [bind] in O. change (the_box (ext_inst (lit "a") lk bx i)) with (Ok (inner_box bx 0 0 None)) in O. cbn [bind] in O.
    apply ok_inj in O. rewrite O. change (newlines 0) with ([] : str). cbn [inner_box child_box b_margin sd_top sd_bottom].
    change (newlines 0) with ([] : str). now rewrite app_nil_r.
  - rewrite (block_flush _ (ext_inst (lit "a") lk bx i) bx 0 0 None _ _ eq_refl eq_refl X) in O. apply ok_inj in O. rewrite O.
    change (newlines 0) with ([] : str). now rewrite app_nil_r.
Qed.
Lemma image_entry_shape : forall o g h s sg i n bx out lk, closing o g h s sg -> is_tagged (p_dom s) i n (lit "img") ->
  link_of n lk -> g_image g <> lit "inline" -> entry (p_dom s) sg i bx out ->
  out = rows (line_width bx) (split_on 10%N (image_entry lk (seqb (g_format g) (lit "gophermap")))).
Proof.
  intros o g h s sg i n bx out lk C T HL NP R. destruct (link_known _ _ _ _ _ _ _ _ C T eq_refl) as (lk' & HL' & HD & (KF & KL & KI) & _).
  unfold link_of in HL'. rewrite HL in HL'. injection HL' as <-.
  destruct (draw_entry _ _ _ _ _ _ _ _ _ _ _ C T eq_refl HL NP R) as (r & bx' & c & I & B & HC & O).
  rewrite ext_instance in I by auto. apply ok_inj in I. subst r. 
  change (block_render (p_dom s) (ext_inst (lit "img") lk bx i) c = Ok out) in O.
  pose proof (extimage_text lk bx i) as X. rewrite KF in X.
  assert (X' : inner_render (p_dom s) (ext_inst (lit "img") lk bx i) c = Ok (image_entry lk (seqb (g_format g) (lit "gophermap")))) by exact X.
  rewrite (block_flush _ (ext_inst (lit "img") lk bx i) bx 0 0 None _ _ eq_refl eq_refl X') in O. apply ok_inj in O. rewrite O.
  change (newlines 0) with ([] : str). now rewrite app_nil_r.
Qed.
End L.
Close Scope Z_scope.
