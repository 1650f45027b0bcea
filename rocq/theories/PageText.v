(** Paragraphs, items and links are drawn as the page specification says. *)
From Verif Require Import WrapFacts WrapLoop WrapWidth.
From Verif Require Import BaseFacts StrFacts SelFacts TreeFacts DomFacts LineFacts BoxFacts AnsiStyle RenderFacts ElemFacts ElemText LinkFacts DocFacts.
From Verif Require Export PageElem.
Open Scope Z_scope.

Section E.
Context `{U : Uni}.

Lemma split_on_mid : forall c a b, split_on c (a ++ c :: b) = split_on c a ++ split_on c b.
Proof.
  induction a as [|x a IH]; intros b; cbn [app split_on]; [now rewrite N.eqb_refl|]. rewrite IH.
  destruct (x =? c)%N; [reflexivity|]. destruct (split_on_cons c a) as (l & ls & ->). reflexivity.
Qed.
Lemma split_on_not_nil : forall c a, split_on c a <> [].
Proof. intros c a E. destruct (split_on_cons c a) as (l & ls & E'). congruence. Qed.

Lemma justify_wrap_to : forall cfg w text, justify (lit "left") (text_wrap cfg) w text = let* ls := wrap_to w text in Ok (join nl ls).
Proof. reflexivity. Qed.
Lemma item_eq : forall d r bx top label c,
  (i_kind r = KItem \/ i_kind r = KDef \/ i_kind r = KOrdered) ->
  i_box r = Some (inner_box bx top 0 (Some (label ++ lit "{}"))) ->
  sattr (i_settings r) (lit "border") = Ok no_border ->
  sattr (i_settings r) (lit "justification") = Ok (vs "left") ->
  sattr (i_settings r) (lit "capitalized") = Ok (VBool false) ->
  wrap_cfg (i_settings r) = Ok (text_wrap 0) ->
  sattr (i_settings r) (lit "line_template") = Ok (VStr (label ++ lit "{}")) ->
  (forall x, format (label ++ lit "{}") [FStr x] [] = Ok (label ++ x)) -> ~ In 10%N label ->
  render_inst d r c = let* ls := wrap_to (wrap_width bx - len label) c in Ok (stack (place_of bx) top (labelled label ls) 0).
Proof.
  intros d r bx top label c K B S1 S3 S4 S5 S6 F NL.
  assert (O : render_inst d r c = block_render d r c) by (unfold render_inst; destruct K as [K|[K|K]]; rewrite K; reflexivity).
  assert (IK : inner_render d r c = item_inner r c) by (unfold inner_render; destruct K as [K|[K|K]]; rewrite K; reflexivity).
  destruct (wrap_to (wrap_width bx - len label) c) as [ls|e] eqn:W.
  - destruct (render_inst d r c) as [out|e] eqn:E.
    + destruct (item_text d r bx top label c out K B S1 S3 S4 S5 S6 F NL E) as (lines & HW & ->). unfold wrapped in HW. unfold wrap_to in W.
      rewrite HW in W. apply ok_inj in W. subst ls. cbn [bind]. unfold stack. change (newlines 0) with ([] : str). now rewrite app_nil_r.
    + exfalso. assert (I : exists text, inner_render d r c = Ok text).
      { rewrite IK. unfold item_inner. cbv zeta. rewrite S3, S4, S5, S6. cbn [bind].
        change (just_name (vs "left")) with (Ok (lit "left")). cbn [bind]. unfold the_box. rewrite B. cbn [bind truth capitalize_if].
        rewrite room_inner, label_width, justify_wrap_to, W. cbn [bind].
        assert (FM : forall x, fmt1 (VStr (label ++ lit "{}")) x = Ok (label ++ x)) by (intros; unfold fmt1; cbn [want_str bind]; apply F).
        destruct (split_on 10%N (join nl ls)) as [|x y] eqn:SP; [now elim (split_on_not_nil 10%N (join nl ls))|].
        rewrite FM. cbn [bind]. eauto. }
      destruct I as (text & I). symmetry in O. rewrite (block_flush _ r bx top 0 _ _ _ B S1 I) in O. discriminate.
  - cbn [bind]. rewrite O. unfold block_render. rewrite IK. unfold item_inner. cbv zeta. rewrite S3, S4, S5, S6. cbn [bind].
    change (just_name (vs "left")) with (Ok (lit "left")). cbn [bind]. unfold the_box. rewrite B. cbn [bind truth capitalize_if].
    rewrite room_inner, label_width, justify_wrap_to, W. reflexivity.
Qed.

Section C.
Variables (o : options) (g : cfg) (h : list op) (s : pstate) (sg : asgs).
Hypothesis CL : closing o g h s sg.
Local Notation d := (p_dom s).
Local Notation draw listing i bx := (render_node (render_fuel (p_dom s)) (p_dom s) sg listing i bx).
Local Notation texts_of := (inner_texts s sg).
Local Notation content_of := (inner_content s sg).

Section One.
Variables (i : nat) (n : node) (p : pos) (bx : box).
Hypothesis HS : stands d i n p.

Lemma draw_p : is_tagged d i n (lit "p") ->
  draw false i bx = let* c := content_of n (inner_box bx (fst (p_margins p)) (snd (p_margins p)) (Some (lit "{}"))) in
    let* ls := if para_skip d i then Ok (split_on 10%N c) else paragraph (place_of bx) c in
    Ok (stack (place_of bx) (fst (p_margins p)) ls (snd (p_margins p))).
Proof.
  intros T. set (st := rule_settings (lit "p") p). set (top := fst (p_margins p)). set (bot := snd (p_margins p)).
  set (r := block_inst ParagraphRenderer st bx i top bot (Some (lit "{}"))).
  assert (I : instantiate d ParagraphRenderer i (plain_ctx st bx) = Ok r).
  { unfold r, top, bot, p_margins, st, rule_settings. clear. destruct (inside "blockquote" p), (ps_first p), (ps_last p); reflexivity. }
  rewrite (draw_elem _ _ _ _ _ CL _ _ _ _ bx ParagraphRenderer r (inner_box bx top bot (Some (lit "{}"))) T HS eq_refl eq_refl I eq_refl).
  match goal with |- bind ?x _ = bind ?y _ => change x with y; destruct y as [c|] end; [|reflexivity]. cbn [bind].
  change (render_inst d r c) with (block_render d r c).
  assert (D : st = [] \/ exists l, st = margin_setting l).
  { unfold st, rule_settings. clear. destruct (inside "blockquote" p), (ps_first p), (ps_last p); (left; reflexivity) || (right; eexists; reflexivity). }
  assert (S1 : sattr (i_settings r) (lit "border") = Ok no_border) by (destruct D as [D|[l D]]; unfold r; rewrite D; reflexivity).
  assert (S2 : sattr (i_settings r) (lit "skip_for_code_or_pre") = Ok (VBool true)) by (destruct D as [D|[l D]]; unfold r; rewrite D; reflexivity).
  assert (S3 : sattr (i_settings r) (lit "justification") = Ok (vs "left")) by (destruct D as [D|[l D]]; unfold r; rewrite D; reflexivity).
  assert (S4 : sattr (i_settings r) (lit "capitalized") = Ok (VBool false)) by (destruct D as [D|[l D]]; unfold r; rewrite D; reflexivity).
  assert (S5 : wrap_cfg (i_settings r) = Ok (text_wrap 0)) by (destruct D as [D|[l D]]; unfold r; rewrite D; reflexivity).
  assert (S6 : sattr (i_settings r) (lit "line_template") = Ok (vs "{}")) by (destruct D as [D|[l D]]; unfold r; rewrite D; reflexivity).
  assert (IN : inner_render d r c = if para_skip d i then Ok c else
      let* js := mapM (fun x => let* ls := wrap_to (wrap_width bx) (strip x) in Ok (join nl ls)) (split_on 10%N c) in Ok (join nl js)).
  { change (inner_render d r c) with (paragraph_inner d r c). unfold paragraph_inner. cbv zeta.
    rewrite S2. cbn [bind truth andb]. change (i_tag r) with i.
    destruct (para_skip d i); [reflexivity|].
    rewrite S3, S4, S5, S6. cbn [bind]. change (just_name (vs "left")) with (Ok (lit "left")). cbn [bind].
    change (the_box r) with (Ok (inner_box bx top bot (Some (lit "{}")))). cbn [bind truth capitalize_if].
    rewrite room_inner. change (template_width (Some (lit "{}"))) with 0. rewrite Z.sub_0_r.
    match goal with |- bind ?x _ = bind ?y _ => change x with y; destruct y as [js|] end; [|reflexivity]. cbn [bind].
    rewrite (mapM_total _ (fun x => x)).
    2: { intros a. unfold fmt1. cbn [vs want_str bind]. apply fmt_braces. }
    cbn [bind]. rewrite map_id. unfold nl at 1. now rewrite join_split_on. }
  destruct (para_skip d i); cbn [bind].
  - rewrite (block_flush _ r bx top bot _ _ _ eq_refl S1 IN). reflexivity.
  - unfold paragraph. change (pl_wrap (place_of bx)) with (wrap_width bx).
    assert (Q : forall l, mapM (fun x => let* ls := wrap_to (wrap_width bx) (strip x) in Ok (join nl ls)) l
                = let* gs := mapM (fun x => wrap_to (wrap_width bx) (strip x)) l in Ok (map (join nl) gs)).
    { clear. induction l as [|x l IH]; [reflexivity|]. cbn [mapM]. destruct (wrap_to (wrap_width bx) (strip x)) as [ls|]; [|reflexivity]. cbn [bind].
      rewrite IH. destruct (mapM (fun x => wrap_to (wrap_width bx) (strip x)) l); reflexivity. }
    rewrite Q in IN. destruct (mapM (fun x => wrap_to (wrap_width bx) (strip x)) (split_on 10%N c)) as [gs|] eqn:EM; cbn [bind] in *.
    + rewrite (block_flush _ r bx top bot _ _ _ eq_refl S1 IN). f_equal. unfold stack. f_equal. f_equal. f_equal.
      assert (NN : Forall (Forall (fun l : str => ~ In 10%N l)) gs).
      { apply mapM_Ok_Forall2 in EM. clear -EM. induction EM as [|x ls l gs E _ IH]; constructor; auto. eapply wrapped_no_nl. exact E. }
      assert (NE : gs <> []).
      { apply mapM_Ok_Forall2 in EM. intros ->. inversion EM as [E|]. symmetry in E. now apply split_on_not_nil in E. }
      clear -NN NE. revert NE. induction NN as [|ls gs H1 H2 IH]; intros NE; [congruence|]. cbn [map concat].
      destruct gs as [|g2 gs].
      * cbn [map concat]. rewrite app_nil_r. change (join nl [join nl ls]) with (join nl ls). apply split_some_line. exact H1.
      * rewrite <- IH by discriminate. rewrite <- (split_some_line ls H1). 
        change (join nl (join nl ls :: map (join nl) (g2 :: gs))) with (join nl ls ++ 10%N :: join nl (map (join nl) (g2 :: gs))). apply split_on_mid.
    + unfold block_render. rewrite IN. reflexivity.
Qed.

Lemma li_settings : rule_settings (lit "li") p = [] \/ exists l, rule_settings (lit "li") p = margin_setting l.
Proof. unfold rule_settings. destruct (ps_first p); [right; eexists; reflexivity|left; reflexivity]. Qed.
Lemma draw_item : is_tagged d i n (lit "li") -> inside "ol" p = false ->
  draw false i bx = let* c := content_of n (inner_box bx (li_margin p) 0 (Some (lit "* " ++ lit "{}"))) in
    let* ls := wrap_to (wrap_width bx - len (lit "* ")) c in
    Ok (stack (place_of bx) (li_margin p) (labelled (lit "* ") ls) 0).
Proof.
  intros T NO. pose proof li_settings as D. set (st := rule_settings (lit "li") p) in *.
  set (r := block_inst ListItemRenderer st bx i (li_margin p) 0 (Some (lit "* {}"))).
  assert (I : instantiate d ListItemRenderer i (plain_ctx st bx) = Ok r).
  { unfold r, li_margin, st, rule_settings. clear. destruct (ps_first p), (sublist p); reflexivity. }
  assert (K : class_for (lit "li") (inside "ol" p) = Some ListItemRenderer) by (rewrite NO; reflexivity).
  rewrite (draw_elem _ _ _ _ _ CL _ _ _ _ bx ListItemRenderer r (inner_box bx (li_margin p) 0 (Some (lit "* {}"))) T HS eq_refl K I eq_refl).
  match goal with |- bind ?x _ = bind ?y _ => change x with y; destruct y as [c|] end; [|reflexivity]. cbn [bind].
  apply item_eq; auto.
  - destruct D as [D|[l D]]; unfold r; rewrite D; reflexivity.
  - destruct D as [D|[l D]]; unfold r; rewrite D; reflexivity.
  - destruct D as [D|[l D]]; unfold r; rewrite D; reflexivity.
  - destruct D as [D|[l D]]; unfold r; rewrite D; reflexivity.
  - destruct D as [D|[l D]]; unfold r; rewrite D; reflexivity.
  - intros x. change (Ok (lit "* " ++ (x ++ []) : str) = Ok (lit "* " ++ x)). now rewrite app_nil_r.
  - vm_compute; intuition discriminate.
Qed.
Lemma draw_dd : is_tagged d i n (lit "dd") ->
  draw false i bx = let* c := content_of n (inner_box bx 1 0 (Some (lit ": " ++ lit "{}"))) in
    let* ls := wrap_to (wrap_width bx - len (lit ": ")) c in
    Ok (stack (place_of bx) 1 (labelled (lit ": ") ls) 0).
Proof.
  intros T. set (r := block_inst DefinitionListItemRenderer [] bx i 1 0 (Some (lit ": {}"))).
  rewrite (draw_elem _ _ _ _ _ CL _ _ _ _ bx DefinitionListItemRenderer r (inner_box bx 1 0 (Some (lit ": {}"))) T HS eq_refl eq_refl (dd_inst d i bx) eq_refl).
  match goal with |- bind ?x _ = bind ?y _ => change x with y; destruct y as [c|] end; [|reflexivity]. cbn [bind].
  apply item_eq; auto.
  - intros x. change (Ok (lit ": " ++ (x ++ []) : str) = Ok (lit ": " ++ x)). now rewrite app_nil_r.
  - vm_compute; intuition discriminate.
Qed.
Lemma counted : node_at d i = Some n -> inside "ol" p = true -> ordinal d i 1 1 = Ok (Z.of_nat (ps_index p) + 1).
Proof.
  intros HN IO. unfold ordinal. rewrite HN. pose proof (st_index _ _ _ _ HS) as X. unfold inside in IO. pose proof (st_up _ _ _ _ HS) as A.
  destruct (n_parent n); rewrite ?X, ?Z.mul_1_r; [|reflexivity|reflexivity].
  inversion A as [E1 E2|].
Qed.
Lemma draw_numbered : is_tagged d i n (lit "li") -> inside "ol" p = true ->
  draw false i bx = let label := str_of_Z (Z.of_nat (ps_index p) + 1) ++ lit ". " in
    let* c := content_of n (inner_box bx (li_margin p) 0 (Some (label ++ lit "{}"))) in
    let* ls := wrap_to (wrap_width bx - len label) c in
    Ok (stack (place_of bx) (li_margin p) (labelled label ls) 0).
Proof.
  intros T IO. pose proof li_settings as D. set (st := rule_settings (lit "li") p) in *.
  pose proof (counted (proj1 T) IO) as EO. set (z := Z.of_nat (ps_index p) + 1) in *. clearbody z. cbv zeta.
  assert (A : str_of_Z z ++ lit ". {}" = (str_of_Z z ++ lit ". ") ++ lit "{}") by now rewrite <- app_assoc.
  set (r := Inst KOrdered (ol_settings z st) (plain_ctx st bx) i (Some (inner_box bx (li_margin p) 0 (Some (str_of_Z z ++ lit ". {}")))) true).
  assert (I : instantiate d OrderedListItemRenderer i (plain_ctx st bx) = Ok r).
  { unfold instantiate. cbv zeta. change (rc_kind OrderedListItemRenderer) with KOrdered. cbv iota.
    change (sattr (class_settings OrderedListItemRenderer) (lit "start_index")) with (Ok (VInt 1)).
    change (sattr (class_settings OrderedListItemRenderer) (lit "step")) with (Ok (VInt 1)).
    change (sattr (class_settings OrderedListItemRenderer) (lit "line_template")) with (Ok (VStr (lit "{0}. {1}"))).
    cbn [bind want_str]. change (want_int (VInt 1)) with (Ok 1). cbn [bind]. rewrite EO. cbn [bind].
    change (format (lit "{0}. {1}") [FInt z; FStr (lit "{}")] []) with (Ok (str_of_Z z ++ lit ". {}" : str)). cbn [bind].
    assert (TV : template_of_val (Some (VStr (str_of_Z z ++ lit ". {}"))) = Ok (Some (str_of_Z z ++ lit ". {}"))).
    { unfold template_of_val. destruct (str_of_Z z); reflexivity. }
    unfold adjust. cbn [plain_ctx c_settings c_parent_box]. change (dupdate _ st) with (ol_settings z st).
    assert (G : sattr (ol_settings z st) (lit "border") = Ok no_border /\
       (generate_box KOrdered (ol_settings z st) (Borders [] [] [] []) (Some bx)
        = let* t := template_of_val (Some (VStr (str_of_Z z ++ lit ". {}"))) in Ok (Some (inner_box bx (li_margin p) 0 t)))).
    { unfold li_margin, st, rule_settings, ol_settings. clear. set (tp := str_of_Z z ++ lit ". {}" : str). clearbody tp. destruct (ps_first p), (sublist p); split; reflexivity. }
    destruct G as [G1 G2]. rewrite G1. cbn [bind].
    change (borders_of_val no_border) with (Ok (Borders [] [] [] [])). cbn [bind]. rewrite G2, TV. reflexivity. }
  assert (K : class_for (lit "li") (inside "ol" p) = Some OrderedListItemRenderer) by (rewrite IO; reflexivity).
  rewrite (draw_elem _ _ _ _ _ CL _ _ _ _ bx OrderedListItemRenderer r (inner_box bx (li_margin p) 0 (Some (str_of_Z z ++ lit ". {}"))) T HS eq_refl K I eq_refl).
  rewrite A. destruct (content_of n (inner_box bx (li_margin p) 0 (Some ((str_of_Z z ++ lit ". ") ++ lit "{}")))) as [c|]; [|reflexivity]. cbn [bind].
  apply item_eq; auto.
  - unfold r. cbn [i_box]. now rewrite A.
  - unfold r, ol_settings. destruct D as [D|[l D]]; rewrite D; reflexivity.
  - unfold r, ol_settings. destruct D as [D|[l D]]; rewrite D; reflexivity.
  - unfold r, ol_settings. destruct D as [D|[l D]]; rewrite D; reflexivity.
  - unfold r, ol_settings. destruct D as [D|[l D]]; rewrite D; reflexivity.
  - rewrite <- A. unfold r, ol_settings. destruct D as [D|[l D]]; rewrite D; reflexivity.
  - intros x. rewrite <- A, <- app_assoc. apply label_format.
  - intros IN. apply in_app_or in IN as [IN|IN]; [|vm_compute in IN; intuition discriminate].
    revert IN. apply str_of_Z_no_nl.
Qed.

(** *** Links *)
Variables (t : str) (lk : link).
Hypothesis LT : is_link t = true.
Hypothesis T : is_tagged d i n t.
Hypothesis HL : link_of n lk.
Let in_text : rcls := if seqb t (lit "img") then ImageRenderer else LinkRenderer.
Let extra := LinkExtra (lk_href lk) (lk_title lk) (lk_gopher lk).

Lemma link_facts : n_data n = None
  /\ (lc_format (lk_ctx lk) = g_format g /\ lc_link_placement (lk_ctx lk) = g_link g /\ lc_image_placement (lk_ctx lk) = g_image g)
  /\ lk_gopher lk = target g (lk_href lk)
  /\ a_rend (asg_get i sg) = Some in_text
  /\ a_settings (asg_get i sg) = Some []
  /\ a_lrend (asg_get i sg) = Some (ext_class t) /\ a_lsettings (asg_get i sg) = Some (Some []).
Proof.
  destruct (link_known _ _ _ _ _ _ _ _ CL T LT) as (lk' & HL' & H1 & H2 & H3 & H4 & H5 & H6 & H7).
  unfold link_of in HL, HL'. rewrite HL in HL'. injection HL' as <-. unfold target. rewrite H3.
  split; [auto|]. split; [auto|]. split; [auto|]. auto.
Qed.
Lemma draw_text_eq : placement g t <> lit "inline" ->
  draw false i bx = let* r := instantiate d in_text i (Ctx (Some []) (Some bx) (Some (lk_ctx lk)) None) in
    let* bx' := if i_block r then the_box r else Ok bx in
    let* c := content_of n bx' in render_inst d r c.
Proof.
  intros NP. destruct link_facts as (HD & (KF & KL & KI) & KP & A1 & A2 & A3 & A4). destruct T as [T1 T2]. unfold link_of in HL.
  rewrite (rendered_step d _ _ _ _ (reach_downward _ _ _ (cl_fed _ _ _ _ _ CL))).
  unfold level_render. rewrite T1, HD, HL, T2. cbv zeta. rewrite KI, KL. cbn [orb].
  change (if seqb t (lit "img") then g_image g else g_link g) with (placement g t). rewrite (seqb_false _ _ NP).
  cbv iota. rewrite A1, A2. cbn [bind]. destruct (instantiate _ _ _ _) as [r|]; [|reflexivity]. cbn [bind].
  destruct (if i_block r then the_box r else Ok bx) as [bx'|]; [|reflexivity]. cbn [bind].
  unfold inner_content, inner_texts.
  match goal with |- bind ?x _ = bind (bind (bind ?y _) _) _ => change y with x; destruct x as [parts|] end; [|reflexivity]. cbn [bind].
  match goal with |- bind ?x _ = bind (bind ?y _) _ => change y with x; destruct x as [links|] end; reflexivity.
Qed.
Lemma draw_inline_eq : forall force, placement g t = lit "inline" ->
  draw force i bx = let* r := instantiate d in_text i (Ctx None (Some bx) (Some (lk_ctx lk)) (Some extra)) in
    let* bx' := if i_block r then the_box r else Ok bx in
    let* c := texts_of n bx' in render_inst d r c.
Proof.
  intros force NP. destruct link_facts as (HD & (KF & KL & KI) & KP & A1 & A2 & A3 & A4). destruct T as [T1 T2]. unfold link_of in HL.
  rewrite (rendered_step d _ _ _ _ (reach_downward _ _ _ (cl_fed _ _ _ _ _ CL))).
  unfold level_render. rewrite T1, HD, HL, T2. cbv zeta. rewrite ?KI, ?KL.
  change (if seqb t (lit "img") then g_image g else g_link g) with (placement g t). rewrite ?NP.
  change (seqb (lit "inline") (lit "inline")) with true. rewrite orb_true_r. cbv iota. rewrite ?KI, ?KL.
  change (if seqb t (lit "img") then g_image g else g_link g) with (placement g t). rewrite ?NP.
  change (seqb (lit "inline") (lit "inline")) with true. cbv iota. rewrite A1. cbn [bind]. fold extra.
  destruct (instantiate _ _ _ _) as [r|]; [|reflexivity]. cbn [bind].
  destruct (if i_block r then the_box r else Ok bx) as [bx'|]; [|reflexivity]. cbn [bind].
  unfold inner_texts.
  match goal with |- bind ?x _ = bind (bind ?y _) _ => change y with x; destruct x as [parts|] end; reflexivity.
Qed.
Lemma draw_entry_eq : placement g t <> lit "inline" ->
  draw true i bx = let* c := texts_of n (inner_box bx 0 0 None) in render_inst d (ext_inst t lk bx i) c.
Proof.
  intros NP. destruct link_facts as (HD & (KF & KL & KI) & KP & A1 & A2 & A3 & A4). destruct T as [T1 T2]. unfold link_of in HL.
  rewrite (rendered_step d _ _ _ _ (reach_downward _ _ _ (cl_fed _ _ _ _ _ CL))).
  unfold level_render. rewrite T1, HD, HL, T2. cbv zeta. rewrite ?KI, ?KL. cbn [orb].
  change (if seqb t (lit "img") then g_image g else g_link g) with (placement g t). rewrite ?(seqb_false _ _ NP).
  cbv iota. rewrite ?KI, ?KL.
  change (if seqb t (lit "img") then g_image g else g_link g) with (placement g t). rewrite ?(seqb_false _ _ NP). cbv iota. rewrite A3, A4. cbn [bind].
  rewrite ext_instance. 2: { unfold is_link in LT. destruct (seqb_spec t (lit "a")); auto. destruct (seqb_spec t (lit "img")); auto. discriminate. }
  cbn [bind]. change (if i_block (ext_inst t lk bx i) then the_box (ext_inst t lk bx i) else Ok bx) with (Ok (inner_box bx 0 0 None)). cbn [bind].
  unfold inner_texts.
  match goal with |- bind ?x _ = bind (bind ?y _) _ => change y with x; destruct x as [parts|] end; reflexivity.
Qed.
End One.
End C.
End E.
Close Scope Z_scope.
