(** The text of stacked blocks, paragraphs, terms and items. *)
From Coq Require Import List NArith ZArith Bool String Lia.
Import ListNotations.
From Verif Require Import WrapFacts WrapLoop WrapWidth.
From Verif Require Import BaseFacts StrFacts SelFacts LineFacts BoxFacts AnsiStyle.
From Verif Require Export RenderFacts ElemSpec.
Open Scope Z_scope.
From Verif Require Import ElemFacts.
Open Scope Z_scope.
Section G.
Context `{U : Uni}.
(** *** Blocks that only stack their content *)
Definition stacked : list (string * Z) := [("div"%string, 0); ("ul"%string, 1); ("ol"%string, 1); ("dl"%string, 1)].
Lemma stack_shape : forall o g h s sg i n t m bx out, closing o g h s sg -> In (t, m) stacked ->
  is_tagged (p_dom s) i n (lit t) -> rendered (p_dom s) sg i bx out ->
  exists c, content (p_dom s) sg n (inner_box bx m m None) c
    /\ out = newlines m ++ rows (line_width bx) (split_on 10%N c) ++ newlines m.
Proof.
  intros o g h s sg i n t m bx out C HI T R.
  assert (G : exists cl, class_for (lit t) (in_ol (p_dom s) i) = Some cl /\ is_link (lit t) = false
     /\ lit t <> lit "p" /\ lit t <> lit "li" /\ lit t <> lit "dt"
     /\ instantiate (p_dom s) cl i (plain_ctx [] bx) = Ok (block_inst cl [] bx i m m None)
     /\ (forall c, render_inst (p_dom s) (block_inst cl [] bx i m m None) c = block_render (p_dom s) (block_inst cl [] bx i m m None) c)
     /\ (forall c, inner_render (p_dom s) (block_inst cl [] bx i m m None) c = Ok c)
     /\ sattr (i_settings (block_inst cl [] bx i m m None)) (lit "border") = Ok no_border).
  { clear T. cbn [stacked In] in HI.
    repeat (destruct HI as [HI|HI]; [injection HI as <- <-; eexists; split; [reflexivity|]; split; [reflexivity|];
      split; [vm_compute; discriminate|]; split; [vm_compute; discriminate|]; split; [vm_compute; discriminate|];
      split; [reflexivity|]; split; [reflexivity|]; split; reflexivity|]).
    contradiction. }
  destruct G as (cl & K & L & N1 & N2 & N3 & GI & GR & GN & GB).
  destruct (elem _ _ _ _ _ _ _ _ _ _ _ C T L K R) as (st & r & bx' & c & X & I & B & CT & O).
  apply no_extra in X; auto. subst st. rewrite GI in I. apply ok_inj in I. subst r.
  cbn [i_block block_inst i_box] in B. injection B as <-. exists c. split; auto.
  rewrite GR in O. rewrite (block_flush _ (block_inst cl [] bx i m m None) bx m m None _ _ eq_refl GB (GN c)) in O. now apply ok_inj in O.
Qed.
(** *** Terms *)
Lemma dt_shape : forall o g h s sg i n bx out, closing o g h s sg ->
  is_tagged (p_dom s) i n (lit "dt") -> rendered (p_dom s) sg i bx out ->
  exists top c, 0 <= top <= 2 /\ content (p_dom s) sg n (inner_box bx top 0 None) c
    /\ out = newlines top ++ rows (line_width bx) (split_on 10%N c).
Proof.
  intros o g h s sg i n bx out C T R.
  destruct (elem _ _ _ _ _ _ _ _ _ _ _ C T eq_refl eq_refl R) as (st & r & bx' & c & X & I & B & CT & O).
  destruct (dt_inst (p_dom s) i bx st X) as (top & Ht & E). rewrite E in I. apply ok_inj in I. subst r.
  cbn [i_block block_inst i_box] in B. injection B as <-. exists top, c. split; auto. split; auto.
  set (r := block_inst _ _ _ _ _ _ _) in O. change (block_render (p_dom s) r c = Ok out) in O.
  assert (G : inner_render (p_dom s) r c = Ok c /\ sattr (i_settings r) (lit "border") = Ok no_border).
  { assert (F : fmt1 (vs "{}") c = Ok c) by (unfold fmt1; cbn [vs want_str bind]; apply fmt_braces).
    assert (D : st = [] \/ st = margin_setting [0; 0; 0; 0]).
    { destruct X as [->|[[E' _]|[[E' _]|[_ ->]]]]; auto; vm_compute in E'; discriminate. }
    unfold r. clear -D F. destruct D as [-> | ->]; split; try reflexivity;
    (transitivity (bind (fmt1 (vs "{}") c) (fun x => Ok x)); [reflexivity|rewrite F; reflexivity]). }
  destruct G as [G1 G2]. rewrite (block_flush _ r bx top 0 None _ _ eq_refl G2 G1) in O. apply ok_inj in O.
  change (newlines 0) with ([] : str) in O. now rewrite app_nil_r in O.
Qed.
(** *** Running text *)
Lemma wrapped_no_nl : forall w text lines, wrapped w text lines -> Forall (fun l : str => ~ In 10%N l) lines.
Proof.
  intros w text lines H. unfold wrapped, wrap, wrap_chunks in H. apply wrap_Ok_accepted in H as [_ H].
  assert (P : Forall (Forall (fun c : N => c <> 10%N)) lines).
  { eapply (wrap_loop_chars (fun c => c <> 10%N)) with (rl := []); [| | | | |exact H]; [constructor|constructor|intros F; now elim F|constructor|].
    unfold text_chunks, split_chunks. cbv zeta. eapply fix_se_chars; [reflexivity|discriminate|].
    rewrite split_go_concat. unfold munge. cbn [text_wrap w_expand w_replace]. apply Forall_map, Forall_forall.
    intros x _. destruct (tw_space x) eqn:T; [discriminate|]. intros ->. discriminate. }
  eapply Forall_impl; [|exact P]. intros l HL I. rewrite Forall_forall in HL. exact (HL _ I eq_refl).
Qed.
Lemma room_inner : forall bx top bottom t, inner_width_excluding_line_template (inner_box bx top bottom t) = wrap_width bx - template_width t.
Proof.
  intros. unfold inner_width_excluding_line_template, inner_box, wrap_width, line_width, child_box, lr, both.
  cbn [b_width b_total_margin b_total_border b_total_padding b_total_ltp b_ltp add_lr sd_left sd_right].
  unfold sides0. cbn [sd_left sd_right]. lia.
Qed.
Lemma justify_wrapped : forall cfg w text j, justify (lit "left") (text_wrap cfg) w text = Ok j ->
  exists lines, wrapped w text lines /\ j = join nl lines.
Proof.
  intros cfg w text j H. change (justify (lit "left") (text_wrap cfg) w text) with (left_justify (text_wrap cfg) w text) in H.
  unfold left_justify in H. change (set_width (text_wrap cfg) w) with (text_wrap w) in H.
  destruct (wrap (text_wrap w) text) as [lines|] eqn:E; [|discriminate]. exists lines. split; [exact E|]. cbn [bind] in H. now apply ok_inj in H.
Qed.
Lemma p_shape : forall o g h s sg i n bx out, closing o g h s sg ->
  is_tagged (p_dom s) i n (lit "p") -> rendered (p_dom s) sg i bx out ->
  exists top bottom c text, 0 <= top <= 1 /\ 0 <= bottom <= 1
    /\ content (p_dom s) sg n (inner_box bx top bottom (Some (lit "{}"))) c
    /\ (if para_skip (p_dom s) i then text = c
        else exists groups, Forall2 (fun chunk lines => wrapped (wrap_width bx) (strip chunk) lines) (split_on 10%N c) groups
             /\ text = join nl (map (join nl) groups))
    /\ out = newlines top ++ rows (line_width bx) (split_on 10%N text) ++ newlines bottom.
Proof.
  intros o g h s sg i n bx out C T R.
  destruct (elem _ _ _ _ _ _ _ _ _ _ _ C T eq_refl eq_refl R) as (st & r & bx' & c & X & I & B & CT & O).
  destruct (p_inst (p_dom s) i bx st X) as (top & bottom & Ht & Hb & E). rewrite E in I. apply ok_inj in I. subst r.
  cbn [i_block block_inst i_box] in B. injection B as <-. exists top, bottom, c.
  set (r := block_inst _ _ _ _ _ _ _) in O. change (block_render (p_dom s) r c = Ok out) in O.
  assert (D : st = [] \/ exists l, st = margin_setting l).
  { destruct X as [->|[[_ H]|[[H _]|[H _]]]]; auto; [|vm_compute in H; discriminate..].
    right. apply in_map_iff in H as (l & <- & _). eauto. }
  assert (S1 : sattr (i_settings r) (lit "border") = Ok no_border) by (destruct D as [-> |[l ->]]; reflexivity).
  destruct (inner_render (p_dom s) r c) as [text|] eqn:IN; [|unfold block_render in O; rewrite IN in O; discriminate].
  exists text. split; auto. split; auto. split; auto. rewrite (block_flush _ r bx top bottom _ _ _ eq_refl S1 IN) in O. apply ok_inj in O.
  split; [|exact O]. clear O. change (paragraph_inner (p_dom s) r c = Ok text) in IN. unfold paragraph_inner in IN. cbv zeta in IN.
  assert (S2 : sattr (i_settings r) (lit "skip_for_code_or_pre") = Ok (VBool true)) by (destruct D as [-> |[l ->]]; reflexivity).
  assert (S3 : sattr (i_settings r) (lit "justification") = Ok (vs "left")) by (destruct D as [-> |[l ->]]; reflexivity).
  assert (S4 : sattr (i_settings r) (lit "capitalized") = Ok (VBool false)) by (destruct D as [-> |[l ->]]; reflexivity).
  assert (S5 : wrap_cfg (i_settings r) = Ok (text_wrap 0)) by (destruct D as [-> |[l ->]]; reflexivity).
  assert (S6 : sattr (i_settings r) (lit "line_template") = Ok (vs "{}")) by (destruct D as [-> |[l ->]]; reflexivity).
  rewrite S2 in IN. cbn [bind truth andb] in IN. change (i_tag r) with i in IN.
  destruct (para_skip (p_dom s) i); [now apply ok_inj in IN|].
  rewrite S3, S4, S5, S6 in IN. cbn [bind] in IN. change (just_name (vs "left")) with (Ok (lit "left")) in IN. cbn [bind] in IN.
  change (the_box r) with (Ok (inner_box bx top bottom (Some (lit "{}")))) in IN. cbn [bind truth capitalize_if] in IN.
  rewrite room_inner in IN. change (template_width (Some (lit "{}"))) with 0 in IN. rewrite Z.sub_0_r in IN.
  apply bind_Ok in IN as (js & EJ & IN). rewrite (mapM_total _ (fun x => x)) in IN.
  2: { intros a. unfold fmt1. cbn [vs want_str bind]. apply fmt_braces. }
  cbn [bind] in IN. apply ok_inj in IN. rewrite map_id in IN. unfold nl in IN at 1. rewrite join_split_on in IN.
  apply mapM_Ok_Forall2 in EJ. clear -EJ IN.
  assert (G : exists groups, Forall2 (fun chunk lines => wrapped (wrap_width bx) (strip chunk) lines) (split_on 10%N c) groups /\ js = map (join nl) groups).
  { clear IN. induction EJ as [|ch j l l' H _ (gs & I1 & I2)]; [exists []; split; constructor|].
    apply justify_wrapped in H as (lines & H1 & ->). exists (lines :: gs). split; [constructor; auto|cbn [map]; now rewrite I2]. }
  destruct G as (gs & G1 & ->). exists gs. auto.
Qed.
(** *** Items *)
Lemma item_text : forall d r bx top label c out,
  (i_kind r = KItem \/ i_kind r = KDef \/ i_kind r = KOrdered) ->
  i_box r = Some (inner_box bx top 0 (Some (label ++ lit "{}"))) ->
  sattr (i_settings r) (lit "border") = Ok no_border ->
  sattr (i_settings r) (lit "justification") = Ok (vs "left") ->
  sattr (i_settings r) (lit "capitalized") = Ok (VBool false) ->
  wrap_cfg (i_settings r) = Ok (text_wrap 0) ->
  sattr (i_settings r) (lit "line_template") = Ok (VStr (label ++ lit "{}")) ->
  (forall x, format (label ++ lit "{}") [FStr x] [] = Ok (label ++ x)) -> ~ In 10%N label ->
  render_inst d r c = Ok out ->
  exists lines, wrapped (wrap_width bx - len label) c lines
    /\ out = newlines top ++ rows (line_width bx) (labelled label lines).
Proof.
  intros d r bx top label c out K B S1 S3 S4 S5 S6 F NL O.
  assert (O' : block_render d r c = Ok out) by (unfold render_inst in O; destruct K as [K|[K|K]]; rewrite K in O; exact O). clear O.
  assert (IK : inner_render d r c = item_inner r c) by (unfold inner_render; destruct K as [K|[K|K]]; rewrite K; reflexivity).
  destruct (inner_render d r c) as [text|] eqn:IN; [|unfold block_render in O'; rewrite IN in O'; discriminate].
  rewrite (block_flush _ r bx top 0 _ _ _ B S1 IN) in O'. apply ok_inj in O'. clear IN. symmetry in IK.
  unfold item_inner in IK. cbv zeta in IK. rewrite S3, S4, S5, S6 in IK. cbn [bind] in IK.
  change (just_name (vs "left")) with (Ok (lit "left")) in IK. cbn [bind] in IK. unfold the_box in IK. rewrite B in IK. cbn [bind truth capitalize_if] in IK.
  assert (TW : template_width (Some (label ++ lit "{}")) = len label).
  { unfold template_width. destruct label as [|x l]; [reflexivity|]. cbn [app]. change (x :: l ++ lit "{}") with ((x :: l) ++ lit "{}").
    rewrite len_app. change (len (lit "{}")) with 2. lia. }
  rewrite room_inner, TW in IK. apply bind_Ok in IK as (j & EJ & IK). apply justify_wrapped in EJ as (lines & W & ->).
  pose proof (wrapped_no_nl _ _ _ W) as NN. exists lines. split; auto.
  change (b_ltp (inner_box bx top 0 (Some (label ++ lit "{}")))) with (template_width (Some (label ++ lit "{}"))) in IK. rewrite TW in IK.
  rewrite O'. change (newlines 0) with ([] : str). rewrite app_nil_r. f_equal. clear O'.
  assert (FM : forall x, fmt1 (VStr (label ++ lit "{}")) x = Ok (label ++ x)) by (intros; unfold fmt1; cbn [want_str bind]; apply F).
  destruct lines as [|l ls].
  - change (split_on 10%N (join nl [])) with [[] : str] in IK. cbv iota in IK. rewrite FM in IK. cbn [bind map join] in IK. rewrite app_nil_r in IK.
    apply ok_inj in IK. subst text. rewrite split_on_none by auto. reflexivity.
  - unfold nl in IK at 1. rewrite (split_on_join 10%N (l :: ls)) in IK by (auto; discriminate). rewrite FM in IK. cbn [bind] in IK. apply ok_inj in IK.
    subst text. unfold nl. rewrite split_on_join; [reflexivity|discriminate|]. inversion NN; subst. constructor.
    + intros I. apply in_app_or in I as [I|I]; auto.
    + apply Forall_map. eapply Forall_impl; [|eassumption]. intros x Hx I. cbv beta in Hx. apply in_app_or in I as [I|I]; auto.
      unfold spaces in I. apply repeat_spec in I. discriminate.
Qed.
Lemma str_of_Z_no_nl : forall z, ~ In 10%N (str_of_Z z).
Proof.
  assert (G : forall u, ~ In 10%N (uint_str u)) by (induction u; simpl; intuition discriminate).
  intros z. unfold str_of_Z. destruct (Z.to_int z) as [u|u]; [apply G|]. intros [H|H]; [discriminate|exact (G u H)].
Qed.
(** The settings an item may carry. *)
Lemma li_extra : forall st, extra_settings (lit "li") st -> st = [] \/ exists l, st = margin_setting l.
Proof.
  intros st [-> |[[H _]|[[_ H]|[H _]]]]; auto; try (vm_compute in H; discriminate).
  right. apply in_map_iff in H as (l & <- & _). eauto.
Qed.
Lemma li_shape : forall o g h s sg i n bx out, closing o g h s sg ->
  is_tagged (p_dom s) i n (lit "li") -> in_ol (p_dom s) i = false -> rendered (p_dom s) sg i bx out ->
  exists top c lines, 0 <= top <= 1 /\ content (p_dom s) sg n (inner_box bx top 0 (Some (lit "* {}"))) c
    /\ wrapped (wrap_width bx - 2) c lines
    /\ out = newlines top ++ rows (line_width bx) (labelled (lit "* ") lines).
Proof.
  intros o g h s sg i n bx out C T NO R.
  assert (K : class_for (lit "li") (in_ol (p_dom s) i) = Some ListItemRenderer) by (rewrite NO; reflexivity).
  destruct (elem _ _ _ _ _ _ _ _ _ _ _ C T eq_refl K R) as (st & r & bx' & c & X & I & B & CT & O).
  destruct (li_inst (p_dom s) i bx st X) as (top & Ht & E). rewrite E in I. apply ok_inj in I. subst r.
  cbn [i_block block_inst i_box] in B. injection B as <-. exists top, c. apply li_extra in X.
  assert (G : exists lines, wrapped (wrap_width bx - len (lit "* ")) c lines
    /\ out = newlines top ++ rows (line_width bx) (labelled (lit "* ") lines)).
  { apply (item_text (p_dom s) (block_inst ListItemRenderer st bx i top 0 (Some (lit "* {}"))) bx top (lit "* ") c out); auto.
    - destruct X as [-> |[l ->]]; reflexivity.
    - destruct X as [-> |[l ->]]; reflexivity.
    - destruct X as [-> |[l ->]]; reflexivity.
    - destruct X as [-> |[l ->]]; reflexivity.
    - destruct X as [-> |[l ->]]; reflexivity.
    - intros x. change (Ok (lit "* " ++ (x ++ []) : str) = Ok (lit "* " ++ x)). now rewrite app_nil_r.
    - vm_compute; intuition discriminate. }
  destruct G as (lines & G1 & G2). exists lines. auto.
Qed.
Lemma dd_shape : forall o g h s sg i n bx out, closing o g h s sg ->
  is_tagged (p_dom s) i n (lit "dd") -> rendered (p_dom s) sg i bx out ->
  exists c lines, content (p_dom s) sg n (inner_box bx 1 0 (Some (lit ": {}"))) c
    /\ wrapped (wrap_width bx - 2) c lines
    /\ out = nl ++ rows (line_width bx) (labelled (lit ": ") lines).
Proof.
  intros o g h s sg i n bx out C T R.
  destruct (elem _ _ _ _ _ _ _ _ _ _ _ C T eq_refl eq_refl R) as (st & r & bx' & c & X & I & B & CT & O).
  apply no_extra in X; [|vm_compute; discriminate..]. subst st. rewrite dd_inst in I. apply ok_inj in I. subst r.
  cbn [i_block block_inst i_box] in B. injection B as <-. exists c.
  assert (G : exists lines, wrapped (wrap_width bx - len (lit ": ")) c lines
    /\ out = newlines 1 ++ rows (line_width bx) (labelled (lit ": ") lines)).
  { apply (item_text (p_dom s) (block_inst DefinitionListItemRenderer [] bx i 1 0 (Some (lit ": {}"))) bx 1 (lit ": ") c out); auto.
    - intros x. change (Ok (lit ": " ++ (x ++ []) : str) = Ok (lit ": " ++ x)). now rewrite app_nil_r.
    - vm_compute; intuition discriminate. }
  destruct G as (lines & G1 & G2). exists lines. auto.
Qed.
Lemma ol_shape : forall o g h s sg i n bx out, closing o g h s sg ->
  is_tagged (p_dom s) i n (lit "li") -> in_ol (p_dom s) i = true -> rendered (p_dom s) sg i bx out ->
  exists z top c lines, ordinal (p_dom s) i 1 1 = Ok z /\ 0 <= top <= 1
    /\ content (p_dom s) sg n (inner_box bx top 0 (Some (str_of_Z z ++ lit ". {}"))) c
    /\ wrapped (wrap_width bx - len (str_of_Z z ++ lit ". ")) c lines
    /\ out = newlines top ++ rows (line_width bx) (labelled (str_of_Z z ++ lit ". ") lines).
Proof.
  intros o g h s sg i n bx out C T NO R.
  assert (K : class_for (lit "li") (in_ol (p_dom s) i) = Some OrderedListItemRenderer) by (rewrite NO; reflexivity).
  destruct (elem _ _ _ _ _ _ _ _ _ _ _ C T eq_refl K R) as (st & r & bx' & c & X & I & B & CT & O).
  destruct (ol_inst (p_dom s) i bx st r X I) as (top & z & Ht & Ez & ->). clear I.
  cbn [i_block i_box] in B. injection B as <-. exists z, top, c. apply li_extra in X.
  assert (A : str_of_Z z ++ lit ". {}" = (str_of_Z z ++ lit ". ") ++ lit "{}") by now rewrite <- app_assoc.
  set (r := Inst KOrdered _ _ _ _ _) in O.
  assert (G : exists lines, wrapped (wrap_width bx - len (str_of_Z z ++ lit ". ")) c lines
    /\ out = newlines top ++ rows (line_width bx) (labelled (str_of_Z z ++ lit ". ") lines)).
  { apply (item_text (p_dom s) r bx top (str_of_Z z ++ lit ". ") c out); auto.
    - unfold r. cbn [i_box]. now rewrite A.
    - destruct X as [-> |[l ->]]; reflexivity.
    - destruct X as [-> |[l ->]]; reflexivity.
    - destruct X as [-> |[l ->]]; reflexivity.
    - destruct X as [-> |[l ->]]; reflexivity.
    - rewrite <- A. destruct X as [-> |[l ->]]; reflexivity.
    - intros x. rewrite <- A, <- app_assoc. apply label_format.
    - intros I. apply in_app_or in I as [I|I]; [|vm_compute in I; intuition discriminate].
      revert I. apply str_of_Z_no_nl. }
  destruct G as (lines & G1 & G2). exists lines. auto.
Qed.
End G.
Close Scope Z_scope.
