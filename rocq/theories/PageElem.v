(** Every element is drawn as the page specification says, given its content. *)
From Verif Require Import BaseFacts StrFacts SelFacts TreeFacts DomFacts LineFacts BoxFacts AnsiStyle RenderFacts ElemFacts ElemText LinkFacts DocFacts.
From Verif Require Export PageBase.
Open Scope Z_scope.

Section E.
Context `{U : Uni}.

Definition place_of (bx : box) : place := Place (line_width bx) (wrap_width bx).
Lemma place_same : forall bx top bottom, place_of (inner_box bx top bottom None) = place_of bx.
Proof.
  intros. unfold place_of, wrap_width, line_width, inner_box, child_box, both, add_lr, sides0.
  cbn [b_width b_total_margin b_total_border b_total_padding b_total_ltp sd_left sd_right template_width]. f_equal; lia.
Qed.
Lemma label_width : forall label, template_width (Some (label ++ lit "{}")) = len label.
Proof.
  intros [|x l]; [reflexivity|]. unfold template_width. cbn [app]. change (x :: l ++ lit "{}") with ((x :: l) ++ lit "{}").
  rewrite len_app. change (len (lit "{}")) with 2. lia.
Qed.
Lemma place_beside : forall bx top bottom label, place_of (inner_box bx top bottom (Some (label ++ lit "{}"))) = beside label (place_of bx).
Proof.
  intros. unfold place_of, beside, wrap_width, line_width, inner_box, child_box, both, add_lr, sides0.
  rewrite label_width. cbn [b_width b_total_margin b_total_border b_total_padding b_total_ltp sd_left sd_right pl_line pl_wrap]. f_equal; lia.
Qed.

Section C.
Variables (o : options) (g : cfg) (h : list op) (s : pstate) (sg : asgs).
Hypothesis CL : closing o g h s sg.
Local Notation d := (p_dom s).
Local Notation draw listing i bx := (render_node (render_fuel (p_dom s)) (p_dom s) sg listing i bx).
Local Notation texts_of := (inner_texts s sg).
Local Notation content_of := (inner_content s sg).

Section One.
Variables (i : nat) (n : node) (p : pos) (bx : box).
Hypothesis HS : stands d i n p.

Lemma draw_stack : forall t m, In (t, m) plain_blocks -> is_tagged d i n (lit t) ->
  draw false i bx = let* c := content_of n (inner_box bx m m None) in Ok (stack (place_of bx) m (split_on 10%N c) m).
Proof.
  intros t m HI T.
  assert (G : exists cl, class_for (lit t) (inside "ol" p) = Some cl /\ is_link (lit t) = false
     /\ rule_settings (lit t) p = []
     /\ instantiate d cl i (plain_ctx [] bx) = Ok (block_inst cl [] bx i m m None)
     /\ (forall c, render_inst d (block_inst cl [] bx i m m None) c = block_render d (block_inst cl [] bx i m m None) c)
     /\ (forall c, inner_render d (block_inst cl [] bx i m m None) c = Ok c)
     /\ sattr (i_settings (block_inst cl [] bx i m m None)) (lit "border") = Ok no_border).
  { clear T. cbn [plain_blocks In] in HI.
    repeat (destruct HI as [HI|HI]; [injection HI as <- <-; eexists; split; [reflexivity|]; split; [reflexivity|];
      split; [reflexivity|]; split; [reflexivity|]; split; [reflexivity|]; split; reflexivity|]).
    contradiction. }
  destruct G as (cl & K & L & RS & GI & GR & GN & GB).
  rewrite <- RS in GI at 1. rewrite (draw_elem _ _ _ _ _ CL _ _ _ _ bx cl _ (inner_box bx m m None) T HS L K GI eq_refl).
  destruct (inner_content s sg n (inner_box bx m m None)) as [c|]; [|reflexivity]. cbn [bind]. rewrite GR.
  rewrite (block_flush _ (block_inst cl [] bx i m m None) bx m m None _ _ eq_refl GB (GN c)). reflexivity.
Qed.
Lemma draw_marked : forall t m, In (t, m) markers -> is_tagged d i n (lit t) ->
  draw false i bx = let* c := content_of n bx in Ok (lit m ++ c ++ lit m).
Proof.
  intros t m HI T.
  assert (G : exists cl, class_for (lit t) (inside "ol" p) = Some cl /\ is_link (lit t) = false /\ rule_settings (lit t) p = []
     /\ exists r, instantiate d cl i (plain_ctx [] bx) = Ok r /\ i_block r = false
          /\ (forall c, render_inst d r c = Ok (lit m ++ c ++ lit m))).
  { clear T. cbn [markers In] in HI.
    repeat (destruct HI as [HI|HI]; [injection HI as <- <-; eexists; split; [reflexivity|]; split; [reflexivity|];
      split; [reflexivity|]; eexists; split; [reflexivity|]; split; [reflexivity|]; intros c; vm_compute; now rewrite ?app_nil_r|]).
    contradiction. }
  destruct G as (cl & K & L & RS & r & GI & GB & GR). rewrite <- RS in GI.
  assert (B : if i_block r then i_box r = Some bx else bx = bx) by (rewrite GB; reflexivity).
  rewrite (draw_elem _ _ _ _ _ CL _ _ _ _ bx cl r bx T HS L K GI B).
  destruct (inner_content s sg n bx) as [c|]; [|reflexivity]. cbn [bind]. apply GR.
Qed.
Lemma draw_heading : forall t k, In (t, k) headings -> is_tagged d i n (lit t) ->
  draw false i bx = let* c := content_of n (inner_box bx 1 1 None) in
    Ok (stack (place_of bx) 1 (split_on 10%N (lit k ++ lit " " ++ c ++ lit " " ++ lit k)) 1).
Proof.
  intros t k HI T.
  assert (K : class_for (lit t) (inside "ol" p) = Some MarkdownHeaderRenderer /\ is_link (lit t) = false
     /\ rule_settings (lit t) p = []
     /\ forall c, format (lit k ++ lit " {} " ++ lit k) [FStr c] [] = Ok (lit k ++ lit " " ++ c ++ lit " " ++ lit k)).
  { clear T. cbn [headings In] in HI.
    repeat (destruct HI as [HI|HI]; [injection HI as <- <-; split; [reflexivity|]; split; [reflexivity|]; split; [reflexivity|]; reflexivity|]).
    contradiction. }
  destruct K as (K & L & RS & F).
  assert (M : md_template d i = Ok (lit k ++ lit " {} " ++ lit k)).
  { destruct T as [HN HT]. unfold md_template. rewrite HN, HT. clear -HI. cbn [headings In] in HI.
    repeat (destruct HI as [HI|HI]; [injection HI as <- <-; reflexivity|]). contradiction. }
  set (tp := lit k ++ lit " {} " ++ lit k : str) in *.
  set (r := Inst KMdHeader (dset (lit "template") (VStr tp) (class_settings MarkdownHeaderRenderer))
        (plain_ctx [] bx) i (Some (inner_box bx 1 1 None)) true).
  assert (I : instantiate d MarkdownHeaderRenderer i (plain_ctx [] bx) = Ok r).
  { unfold instantiate. cbv zeta. change (rc_kind MarkdownHeaderRenderer) with KMdHeader. cbv iota. cbn [bind]. rewrite M. cbn [bind].
    unfold r. clear. clearbody tp. reflexivity. }
  rewrite <- RS in I. rewrite (draw_elem _ _ _ _ _ CL _ _ _ _ bx _ r (inner_box bx 1 1 None) T HS L K I eq_refl).
  destruct (inner_content s sg n (inner_box bx 1 1 None)) as [c|]; [|reflexivity]. cbn [bind].
  assert (IN : inner_render d r c = Ok (lit k ++ lit " " ++ c ++ lit " " ++ lit k)).
  { rewrite <- F. unfold r. clear. clearbody tp. transitivity (bind (fmt1 (VStr tp) c) (fun x => Ok x)); [reflexivity|].
    unfold fmt1. cbn [want_str bind]. destruct (format tp [FStr c] []); reflexivity. }
  change (render_inst d r c) with (block_render d r c).
  assert (ES : sattr (i_settings r) (lit "border") = Ok no_border) by (unfold r; clear; clearbody tp; reflexivity).
  rewrite (block_flush _ r bx 1 1 None _ _ eq_refl ES IN). reflexivity.
Qed.
Lemma draw_br : is_tagged d i n (lit "br") -> n_children n = [] -> draw false i bx = Ok nl.
Proof.
  intros T NC.
  assert (I : exists r, instantiate d BreakRenderer i (plain_ctx (rule_settings (lit "br") p) bx) = Ok r /\ i_block r = false /\ forall c, render_inst d r c = Ok nl).
  { eexists. split; [reflexivity|]. split; reflexivity. }
  destruct I as (r & I & IB & IR). assert (B : if i_block r then i_box r = Some bx else bx = bx) by (rewrite IB; reflexivity).
  rewrite (draw_elem _ _ _ _ _ CL _ _ _ _ bx BreakRenderer r bx T HS eq_refl eq_refl I B).
  unfold inner_content, inner_texts. rewrite (lo_pending _ _ (reach_links _ _ _ (cl_fed _ _ _ _ _ CL)) _ _ (proj1 T)), NC.
  cbn [mapM bind filter]. apply IR.
Qed.
Lemma pre_inside : node_at d i = Some n -> pre_parent d i = inside "pre" p.
Proof.
  intros E. unfold pre_parent, inside. rewrite E. pose proof (st_up _ _ _ _ HS) as A.
  inversion A as [E1 E2|j x t rest N1 N2 N3 A2 E1 E2]; [reflexivity|]. rewrite N1, N2. reflexivity.
Qed.
Lemma draw_code : is_tagged d i n (lit "code") ->
  draw false i bx = let* c := content_of n bx in Ok (code_text p c).
Proof.
  intros T. 
  rewrite (draw_elem _ _ _ _ _ CL _ _ _ _ bx CodeRenderer (Inst KCode (class_settings CodeRenderer) (plain_ctx [] bx) i None false) bx T HS eq_refl eq_refl eq_refl eq_refl).
  destruct (inner_content s sg n bx) as [c|]; [|reflexivity]. cbn [bind].
  unfold render_inst, code_render. cbn [i_kind i_tag i_settings]. unfold code_text.
  rewrite (pre_inside (proj1 T)).
  destruct (inside "pre" p); [reflexivity|]. destruct (has_char 10%N c); reflexivity.
Qed.
(** Lines free of newlines. *)
Lemma split_some_line : forall ls, Forall (fun l : str => ~ In 10%N l) ls -> split_on 10%N (join nl ls) = some_line ls.
Proof. intros [|l ls] H; [reflexivity|]. unfold nl. rewrite (split_on_join 10%N (l :: ls)); auto. discriminate. Qed.
Lemma prefix_lines : forall c q, ~ In 10%N q -> Forall (fun l : str => ~ In 10%N l) (map (fun b => q ++ b) (splitlines false c)).
Proof. intros c q H. destruct (splitlines_bodies c) as (ls & H1 & H2). rewrite H2. eapply prefix_no_nl; eauto. Qed.
Lemma draw_pre : is_tagged d i n (lit "pre") ->
  draw false i bx = let* c := content_of n (inner_box bx 1 1 None) in
    Ok (stack (place_of bx) 1 (some_line (map (fun l => spaces 4 ++ l) (splitlines false c))) 1).
Proof.
  intros T.
  rewrite (draw_elem _ _ _ _ _ CL _ _ _ _ bx PreRenderer (block_inst PreRenderer [] bx i 1 1 None) (inner_box bx 1 1 None) T HS eq_refl eq_refl (pre_inst d i bx) eq_refl).
  destruct (inner_content s sg n (inner_box bx 1 1 None)) as [c|]; [|reflexivity]. cbn [bind].
  change (render_inst d (block_inst PreRenderer [] bx i 1 1 None) c) with (block_render d (block_inst PreRenderer [] bx i 1 1 None) c).
  assert (IN : inner_render d (block_inst PreRenderer [] bx i 1 1 None) c = Ok (join nl (map (fun b => spaces 4 ++ b) (splitlines false c)))).
  { change (pre_inner (block_inst PreRenderer [] bx i 1 1 None) c = Ok (join nl (map (fun b => spaces 4 ++ b) (splitlines false c)))).
    unfold pre_inner. rewrite (mapM_total _ (fun b => spaces 4 ++ b)); [reflexivity|]. intros b.
    change (Ok (spaces 4 ++ (b ++ []) : str) = Ok (spaces 4 ++ b)). now rewrite app_nil_r. }
  rewrite (block_flush _ (block_inst PreRenderer [] bx i 1 1 None) bx 1 1 None _ _ eq_refl eq_refl IN).
  rewrite split_some_line; [reflexivity|]. apply prefix_lines. vm_compute; intuition discriminate.
Qed.
Lemma draw_quote : is_tagged d i n (lit "blockquote") ->
  draw false i bx = let* c := content_of n (inner_box bx 1 1 (Some (lit "> " ++ lit "{}"))) in
    Ok (stack (place_of bx) 1 (some_line (map (fun l => lit "> " ++ l) (splitlines false c))) 1).
Proof.
  intros T. change (inner_box bx 1 1 (Some (lit "> " ++ lit "{}"))) with (inner_box bx 1 1 (Some (lit "> {}"))).
  set (r := block_inst BlockQuoteRenderer [] bx i 1 1 (Some (lit "> {}"))).
  rewrite (draw_elem _ _ _ _ _ CL _ _ _ _ bx BlockQuoteRenderer r (inner_box bx 1 1 (Some (lit "> {}"))) T HS eq_refl eq_refl (quote_inst d i bx) eq_refl).
  match goal with |- bind ?x _ = bind ?y _ => change x with y; destruct y as [c|] end; [|reflexivity]. cbn [bind].
  change (render_inst d r c) with (block_render d r c).
  assert (IN : inner_render d r c = Ok (join nl (map (fun b => lit "> " ++ b) (splitlines false c)))).
  { change (quote_inner r c = Ok (join nl (map (fun b => lit "> " ++ b) (splitlines false c)))).
    unfold quote_inner. change (the_box r) with (Ok (inner_box bx 1 1 (Some (lit "> {}")))).
    change (sattr (i_settings r) (lit "line_template")) with (Ok (vs "> {}")). cbn [bind].
    rewrite (mapM_total _ (fun b => lit "> " ++ b)); [reflexivity|]. intros b.
    change (Ok (lit "> " ++ (b ++ []) : str) = Ok (lit "> " ++ b)). now rewrite app_nil_r. }
  rewrite (block_flush _ r bx 1 1 _ _ _ eq_refl eq_refl IN).
  rewrite split_some_line; [reflexivity|]. apply prefix_lines. vm_compute; intuition discriminate.
Qed.
Lemma draw_dt : is_tagged d i n (lit "dt") ->
  draw false i bx = let* c := content_of n (inner_box bx (dt_margin p) 0 None) in
    Ok (stack (place_of bx) (dt_margin p) (split_on 10%N c) 0).
Proof.
  intros T. set (st := rule_settings (lit "dt") p).
  set (r := block_inst DefinitionListTermHeaderRenderer st bx i (dt_margin p) 0 None).
  assert (ST : st = if ps_first p then margin_setting [0; 0; 0; 0] else []) by reflexivity.
  assert (I : instantiate d DefinitionListTermHeaderRenderer i (plain_ctx st bx) = Ok r).
  { unfold r, dt_margin. rewrite ST. destruct (ps_first p); reflexivity. }
  rewrite (draw_elem _ _ _ _ _ CL _ _ _ _ bx DefinitionListTermHeaderRenderer r (inner_box bx (dt_margin p) 0 None) T HS eq_refl eq_refl I eq_refl).
  destruct (inner_content s sg n (inner_box bx (dt_margin p) 0 None)) as [c|]; [|reflexivity]. cbn [bind].
  change (render_inst d r c) with (block_render d r c).
  assert (G : inner_render d r c = Ok c /\ sattr (i_settings r) (lit "border") = Ok no_border).
  { assert (F : fmt1 (vs "{}") c = Ok c) by (unfold fmt1; cbn [vs want_str bind]; apply fmt_braces).
    unfold r, dt_margin. rewrite ST. clear -F. destruct (ps_first p); split; try reflexivity;
    (transitivity (bind (fmt1 (vs "{}") c) (fun x => Ok x)); [reflexivity|rewrite F; reflexivity]). }
  destruct G as [G1 G2]. rewrite (block_flush _ r bx (dt_margin p) 0 None _ _ eq_refl G2 G1). reflexivity.
Qed.
End One.
End C.
End E.
Close Scope Z_scope.
