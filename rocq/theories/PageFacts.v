(** The page a stock parser produces is the page of the specification. *)
From Verif Require Import WrapFacts WrapLoop WrapWidth.
From Verif Require Import BaseFacts StrFacts SelFacts TreeFacts HistoryFacts DomFacts LineFacts BoxFacts AnsiStyle RenderFacts ElemFacts ElemText LinkFacts DocFacts.
From Verif Require Export PageText.
Open Scope Z_scope.

Section F.
Context `{U : Uni}.

Lemma lookup_In : forall {A} (l : list (string * A)) tg v, lookup tg l = Some v -> exists t, tg = lit t /\ In (t, v) l.
Proof.
  intros A l tg v H. unfold lookup in H. destruct (find _ l) as [[t v']|] eqn:E; [|discriminate]. injection H as ->.
  apply find_some in E as [E1 E2]. cbn [fst] in E2. destruct (seqb_spec tg (lit t)); [|discriminate]. eauto.
Qed.
Lemma lookup_None : forall {A} (l : list (string * A)) tg, lookup tg l = None -> Forall (fun x => seqb tg (lit (fst x)) = false) l.
Proof.
  intros A l tg H. unfold lookup in H. destruct (find _ l) as [[t v']|] eqn:E; [discriminate|]. apply Forall_forall. intros x I.
  exact (find_none _ _ E x I).
Qed.
Lemma other_tag : forall tg ol, lookup tg markers = None -> lookup tg headings = None -> lookup tg plain_blocks = None ->
  seqb tg (lit "p") = false -> seqb tg (lit "blockquote") = false -> seqb tg (lit "pre") = false -> seqb tg (lit "li") = false ->
  seqb tg (lit "dd") = false -> seqb tg (lit "dt") = false -> seqb tg (lit "br") = false -> seqb tg (lit "code") = false ->
  is_img tg = false -> is_a tg = false -> class_for tg ol = None /\ is_link tg = false.
Proof.
  intros tg ol H1 H2 H3 E1 E2 E3 E4 E5 E6 E7 E8 E9 E10. apply lookup_None in H1, H2, H3. unfold markers, headings, plain_blocks in H1, H2, H3.
  repeat match goal with H : Forall _ (_ :: _) |- _ => inversion H; clear H; subst end. cbn [fst] in *.
  unfold is_img, is_a in *. split.
  - unfold class_for. rewrite E4. cbn [andb]. unfold plain_classes. cbn [class_of].
    repeat match goal with H : seqb tg _ = false |- _ => rewrite H; clear H end. reflexivity.
  - unfold is_link. now rewrite E9, E10.
Qed.

Section C.
Variables (o : options) (g : cfg) (h : list op) (s : pstate) (sg : asgs).
Hypothesis CL : closing o g h s sg.
Variable number : nat -> Z.
Hypothesis NUM : forall i n t lk, is_tagged (p_dom s) i n t -> numbered g t = true -> n_link n = Some lk -> lc_reference (lk_ctx lk) = number i.
Local Notation d := (p_dom s).
Local Notation draw listing i bx := (render_node (render_fuel (p_dom s)) (p_dom s) sg listing i bx).
Local Notation texts_of := (inner_texts s sg).
Local Notation content_of := (inner_content s sg).

Lemma skip_code : forall i n tg kids, is_tagged d i n tg -> n_children n = map tid kids -> Forall (stores d (PNode i)) kids ->
  para_skip d i = only_code kids.
Proof.
  intros i n tg kids T HC HK. unfold para_skip. rewrite (proj1 T), HC. unfold only_code. destruct kids as [|k [|k2 r]]; try reflexivity.
  - cbn [map]. inversion HK as [|? ? H _]; subst. destruct k as [j t2 a2 ks|j x].
    + apply stores_Tag in H as [(m & H1 & H2 & _) _]. cbn [tid]. rewrite H1, H2. cbn [smem existsb]. now rewrite orb_false_r.
    + cbn [stores] in H. destruct H as (m & H1 & H2 & _). cbn [tid]. rewrite H1, H2. reflexivity.
  - cbn [map]. destruct k; reflexivity.
Qed.
Lemma no_kids : forall i n tg bx, is_tagged d i n tg -> void tg = true -> texts_of n bx = Ok [] /\ content_of n bx = Ok [] /\ n_children n = [].
Proof.
  intros i n tg bx T V. assert (E : n_children n = []) by (eapply reach_void; [exact (cl_fed _ _ _ _ _ CL)|exact (proj1 T)|exact (proj2 T)|exact V]).
  unfold inner_content, inner_texts. rewrite (lo_pending _ _ (reach_links _ _ _ (cl_fed _ _ _ _ _ CL)) _ _ (proj1 T)), E.
  split; [reflexivity|]. split; reflexivity.
Qed.
Lemma the_link : forall i n tg a, is_tagged d i n tg -> link_data n tg a -> is_link tg = true -> exists lk, link_of n lk
  /\ lk_href lk = attr (if seqb tg (lit "img") then "src" else "href") a /\ lk_title lk = attr (if seqb tg (lit "img") then "alt" else "title") a
  /\ (placement g tg <> lit "inline" -> lc_reference (lk_ctx lk) = number i).
Proof.
  intros i n tg a T HLD L. pose proof HLD as X. unfold link_data in X. pose proof L as L'. unfold is_link in L'.
  assert (N : forall lk, n_link n = Some lk -> placement g tg <> lit "inline" -> lc_reference (lk_ctx lk) = number i).
  { intros lk E NP. apply (NUM i n tg lk T); auto. unfold numbered. rewrite L', (seqb_false _ _ NP). reflexivity. }
  destruct (seqb_spec tg (lit "a")) as [->|]; [|destruct (seqb_spec tg (lit "img")) as [->|]; [|discriminate]].
  - destruct X as (lk & X1 & X2 & X3). exists lk. change (seqb (lit "a") (lit "img")) with false. cbv iota. unfold link_of. auto.
  - destruct X as (lk & X1 & X2 & X3). exists lk. change (seqb (lit "img") (lit "img")) with true. cbv iota. unfold link_of. auto.
Qed.

Lemma element_eq : forall i n tg a kids p bx texts content, stands d i n p -> is_tagged d i n tg -> n_children n = map tid kids ->
  Forall (stores d (PNode i)) kids -> link_data n tg a -> (forall bx, texts_of n bx = texts (place_of bx)) ->
  (forall bx, content_of n bx = content (place_of bx)) ->
  draw false i bx = show_element g number i tg a kids p (place_of bx) texts content.
Proof.
  intros i n tg a kids p bx texts content HS T HC HK HLD Et Ec. unfold show_element.
  destruct (lookup tg markers) as [m|] eqn:E1.
  { apply lookup_In in E1 as (t & -> & I). rewrite (draw_marked _ _ _ _ _ CL _ _ _ _ HS t m I T), Ec. reflexivity. }
  destruct (lookup tg headings) as [k|] eqn:E2.
  { apply lookup_In in E2 as (t & -> & I). rewrite (draw_heading _ _ _ _ _ CL _ _ _ _ HS t k I T), Ec, place_same. reflexivity. }
  destruct (lookup tg plain_blocks) as [m|] eqn:E3.
  { apply lookup_In in E3 as (t & -> & I). rewrite (draw_stack _ _ _ _ _ CL _ _ _ _ HS t m I T), Ec, place_same. reflexivity. }
  destruct (seqb tg (lit "p")) eqn:E4.
  { destruct (seqb_spec tg (lit "p")) as [->|]; [|discriminate]. rewrite (draw_p _ _ _ _ _ CL _ _ _ _ HS T), Ec, (skip_code i n (lit "p") kids T HC HK).
    change (Some (lit "{}")) with (Some ([] ++ lit "{}")). rewrite place_beside.
    replace (beside [] (place_of bx)) with (place_of bx); [reflexivity|].
    unfold beside, place_of. change (len []) with 0. cbn [pl_line pl_wrap]. f_equal; lia. }
  destruct (seqb tg (lit "blockquote")) eqn:E5.
  { destruct (seqb_spec tg (lit "blockquote")) as [->|]; [|discriminate]. rewrite (draw_quote _ _ _ _ _ CL _ _ _ _ HS T), Ec, place_beside. reflexivity. }
  destruct (seqb tg (lit "pre")) eqn:E6.
  { destruct (seqb_spec tg (lit "pre")) as [->|]; [|discriminate]. rewrite (draw_pre _ _ _ _ _ CL _ _ _ _ HS T), Ec, place_same. reflexivity. }
  destruct (seqb tg (lit "li")) eqn:E7.
  { destruct (seqb_spec tg (lit "li")) as [->|]; [|discriminate]. destruct (inside "ol" p) eqn:OL.
    - rewrite (draw_numbered _ _ _ _ _ CL _ _ _ _ HS T OL). cbv zeta. rewrite Ec, place_beside. reflexivity.
    - rewrite (draw_item _ _ _ _ _ CL _ _ _ _ HS T OL). cbv zeta. rewrite Ec, place_beside. reflexivity. }
  destruct (seqb tg (lit "dd")) eqn:E8.
  { destruct (seqb_spec tg (lit "dd")) as [->|]; [|discriminate]. rewrite (draw_dd _ _ _ _ _ CL _ _ _ _ HS T), Ec, place_beside. reflexivity. }
  destruct (seqb tg (lit "dt")) eqn:E9.
  { destruct (seqb_spec tg (lit "dt")) as [->|]; [|discriminate]. rewrite (draw_dt _ _ _ _ _ CL _ _ _ _ HS T), Ec, place_same. reflexivity. }
  destruct (seqb tg (lit "br")) eqn:E10.
  { destruct (seqb_spec tg (lit "br")) as [->|]; [|discriminate]. apply (draw_br _ _ _ _ _ CL _ _ _ _ HS T). apply (no_kids i n (lit "br") bx T eq_refl). }
  destruct (seqb tg (lit "code")) eqn:E11.
  { destruct (seqb_spec tg (lit "code")) as [->|]; [|discriminate]. rewrite (draw_code _ _ _ _ _ CL _ _ _ _ HS T), Ec. reflexivity. }
  destruct (is_img tg) eqn:E12.
  { unfold is_img in E12. destruct (seqb_spec tg (lit "img")) as [->|]; [|discriminate].
    destruct (the_link i n (lit "img") a T HLD eq_refl) as (lk & HL & H1 & H2 & H3). change (seqb (lit "img") (lit "img")) with true in H1, H2. cbv iota in H1, H2.
    destruct (no_kids i n (lit "img") bx T eq_refl) as (K1 & K2 & _).
    destruct (link_facts _ _ _ _ _ CL _ _ (lit "img") _ eq_refl T HL) as (_ & (KF & KL & KI) & _).
    change (placement g (lit "img")) with (g_image g) in H3.
    destruct (seqb_spec (g_image g) (lit "inline")) as [EI|EI].
    - rewrite (draw_inline_eq _ _ _ _ _ CL _ _ _ (lit "img") _ eq_refl T HL false EI). change (seqb (lit "img") (lit "img")) with true. cbv iota.
      set (r := Inst KImage (class_settings ImageRenderer) (Ctx None (Some bx) (Some (lk_ctx lk)) (Some (LinkExtra (lk_href lk) (lk_title lk) (lk_gopher lk)))) i None false).
      change (instantiate d ImageRenderer i _) with (Ok r). cbn [bind]. change (i_block r) with false. cbv iota. cbn [bind].
      rewrite K1. cbn [bind]. change (render_inst d r []) with (image_renderer r).
      rewrite (image_renderer_inline r (lk_ctx lk) _ eq_refl eq_refl eq_refl); [|congruence]. cbn [le_href le_title]. now rewrite H1, H2.
    - rewrite (draw_text_eq _ _ _ _ _ CL _ _ _ (lit "img") _ eq_refl T HL EI). change (seqb (lit "img") (lit "img")) with true. cbv iota.
      set (r := Inst KImage (class_settings ImageRenderer) (Ctx (Some []) (Some bx) (Some (lk_ctx lk)) None) i None false).
      change (instantiate d ImageRenderer i _) with (Ok r). cbn [bind]. change (i_block r) with false. cbv iota. cbn [bind].
      rewrite K2. cbn [bind]. change (render_inst d r []) with (image_renderer r).
      rewrite (image_renderer_reference r (lk_ctx lk) eq_refl eq_refl eq_refl); [|congruence]. now rewrite (H3 EI). }
  destruct (is_a tg) eqn:E13.
  { unfold is_a in E13. destruct (seqb_spec tg (lit "a")) as [->|]; [|discriminate].
    destruct (the_link i n (lit "a") a T HLD eq_refl) as (lk & HL & H1 & H2 & H3). change (seqb (lit "a") (lit "img")) with false in H1, H2. cbv iota in H1, H2.
    destruct (link_facts _ _ _ _ _ CL _ _ (lit "a") _ eq_refl T HL) as (_ & (KF & KL & KI) & _).
    change (placement g (lit "a")) with (g_link g) in H3.
    destruct (seqb_spec (g_link g) (lit "inline")) as [EI|EI].
    - rewrite (draw_inline_eq _ _ _ _ _ CL _ _ _ (lit "a") _ eq_refl T HL false EI). change (seqb (lit "a") (lit "img")) with false. cbv iota.
      set (r := Inst KLink (class_settings LinkRenderer) (Ctx None (Some bx) (Some (lk_ctx lk)) (Some (LinkExtra (lk_href lk) (lk_title lk) (lk_gopher lk)))) i None false).
      change (instantiate d LinkRenderer i _) with (Ok r). cbn [bind]. change (i_block r) with false. cbv iota. cbn [bind].
      rewrite Et. destruct (texts (place_of bx)) as [c|]; [|reflexivity]. cbn [bind]. change (render_inst d r c) with (link_renderer r c).
      rewrite (link_renderer_inline r (lk_ctx lk) _ c eq_refl eq_refl eq_refl); [|congruence]. cbn [le_href le_title]. now rewrite H1, H2.
    - rewrite (draw_text_eq _ _ _ _ _ CL _ _ _ (lit "a") _ eq_refl T HL EI). change (seqb (lit "a") (lit "img")) with false. cbv iota.
      set (r := Inst KLink (class_settings LinkRenderer) (Ctx (Some []) (Some bx) (Some (lk_ctx lk)) None) i None false).
      change (instantiate d LinkRenderer i _) with (Ok r). cbn [bind]. change (i_block r) with false. cbv iota. cbn [bind].
      rewrite Ec. destruct (content (place_of bx)) as [c|]; [|reflexivity]. cbn [bind]. change (render_inst d r c) with (link_renderer r c).
      rewrite (link_renderer_reference r (lk_ctx lk) c eq_refl eq_refl); [|congruence]. now rewrite (H3 EI). }
  destruct (other_tag tg (inside "ol" p) E1 E2 E3 E4 E5 E6 E7 E8 E9 E10 E11 E12 E13) as [K L].
  rewrite (draw_other _ _ _ _ _ CL _ _ _ _ bx T HS L K). apply Ec.
Qed.

Lemma listing_eq : forall i n tg a kids p bx texts content, stands d i n p -> is_tagged d i n tg -> n_children n = map tid kids ->
  Forall (stores d (PNode i)) kids -> link_data n tg a -> (forall bx, texts_of n bx = texts (place_of bx)) ->
  (forall bx, content_of n bx = content (place_of bx)) ->
  is_link tg = true -> placement g tg <> lit "inline" ->
  draw true i bx = show_listing g number i tg a (place_of bx) texts.
Proof.
  intros i n tg a kids p bx texts content HS T HC HK HLD Et Ec L NP. destruct (the_link i n tg a T HLD L) as (lk & HL & H1 & H2 & H3). specialize (H3 NP).
  destruct (link_facts _ _ _ _ _ CL _ _ _ _ L T HL) as (_ & (KF & KL & KI) & KG & _).
  unfold show_listing. rewrite (draw_entry_eq _ _ _ _ _ CL _ _ _ _ _ L T HL NP), Et, place_same.
  destruct (texts (place_of bx)) as [c|]; [|reflexivity]. cbn [bind].
  assert (D : tg = lit "a" \/ tg = lit "img").
  { unfold is_link in L. destruct (seqb_spec tg (lit "a")); auto. destruct (seqb_spec tg (lit "img")); auto. discriminate. }
  destruct D as [-> | ->].
  - change (seqb (lit "a") (lit "img")) with false in H1, H2. cbv iota in H1, H2. change (is_img (lit "a")) with false. cbv iota.
    change (render_inst d (ext_inst (lit "a") lk bx i) c) with (extlink_render d (ext_inst (lit "a") lk bx i) c).
    unfold extlink_render, link_listing. change (ctx_link (ext_inst (lit "a") lk bx i)) with (Ok (lk_ctx lk)). cbn [bind].
    pose proof (extlink_text lk bx i c) as X. rewrite KF in X |- *. unfold menu. destruct (seqb (g_format g) (lit "gophermap")).
    + rewrite X. cbn [bind]. change (the_box (ext_inst (lit "a") lk bx i)) with (Ok (inner_box bx 0 0 None)). cbn [bind].
      change (newlines 0) with ([] : str). cbn [inner_box child_box b_margin sd_top sd_bottom].
      change (newlines 0) with ([] : str). rewrite app_nil_r. cbn [app]. unfold link_entry. rewrite H3, H2, KG, H1. reflexivity.
    + rewrite (block_flush _ (ext_inst (lit "a") lk bx i) bx 0 0 None _ _ eq_refl eq_refl X).
      change (newlines 0) with ([] : str). rewrite app_nil_r. cbn [app]. unfold link_entry. rewrite H3, H2, H1. reflexivity.
  - change (seqb (lit "img") (lit "img")) with true in H1, H2. cbv iota in H1, H2. change (is_img (lit "img")) with true. cbv iota.
    change (render_inst d (ext_inst (lit "img") lk bx i) c) with (block_render d (ext_inst (lit "img") lk bx i) c).
    pose proof (extimage_text lk bx i) as X. rewrite KF in X.
    assert (X' : inner_render d (ext_inst (lit "img") lk bx i) c = Ok (image_entry lk (seqb (g_format g) (lit "gophermap")))) by exact X.
    rewrite (block_flush _ (ext_inst (lit "img") lk bx i) bx 0 0 None _ _ eq_refl eq_refl X').
    change (newlines 0) with ([] : str). rewrite app_nil_r. cbn [app]. unfold image_listing, image_entry, menu. rewrite H3, H2, KG, H1. reflexivity.
Qed.
End C.
End F.
Close Scope Z_scope.
