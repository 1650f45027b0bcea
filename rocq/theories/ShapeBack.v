(** What a renderer makes of an element is what the element looks like. *)
From Verif Require SetFacts SgrFacts FormatMain.
From Verif Require Import WrapFacts WrapLoop WrapWidth.
From Verif Require Import BaseFacts StrFacts SelFacts LineFacts BoxFacts AnsiStyle RenderFacts ElemFacts SettingsFacts DressFacts DressProps PageBase PageFacts.
From Verif Require Import StyleShow.
From Verif Require Export ShapeFacts.
Open Scope Z_scope.

Section A.
Context `{U : Uni}.
Lemma mapM_back : forall {A B} (f : A -> res B) l r, mapM f l = Ok r -> Forall2 (fun x y => f x = Ok y) l r.
Proof.
  intros A B f l. induction l as [|x l IH]; intros r H; cbn [mapM] in H; [apply ok_inj in H; subst; constructor|].
  apply bind_Ok in H as (y & H1 & H). apply bind_Ok in H as (ys & H2 & H). apply ok_inj in H. subst. constructor; auto.
Qed.
Lemma block_back : forall d cl i c r page x content out, is_block (rc_kind cl) = true -> c_parent_box c = Some page -> instantiate d cl i c = Ok r ->
  wears (i_settings r) x -> block_render d r content = Ok out -> exists inner, inner_render d r content = Ok inner /\ dressed page x (split_on 10%N inner) out.
Proof.
  intros d cl i c r page x content out HB HP HI W H. pose proof H as H'. unfold block_render in H. apply bind_Ok in H as (inner & H & _). exists inner. split; auto.
  destruct (block_dressed d cl i c r page x content inner HB HP HI W H) as (out' & O1 & O2). congruence.
Qed.
Lemma inline_back : forall s t caps content out, template_set s "template" t -> switched s "capitalized" caps ->
  inline_render s content = Ok out -> fills t (cased caps content) out.
Proof.
  intros s t caps content out S1 (v & G & T) F. unfold inline_render in F. pose proof S1 as G1; unfold template_set in G1. rewrite (sitem_get _ _ _ G) in F. cbn [bind] in F.
  rewrite (sattr_get _ _ _ G1) in F. cbn [bind] in F. rewrite T in F. exact (fmt1_back _ _ _ _ _ _ S1 G1 F).
Qed.
Lemma header_back : forall r page x t h content inner,
  i_box r = Some (child_box page (dr_margin x) (dr_padding x) (border_sides (dr_border x)) t) ->
  heading_set (i_settings r) h -> header_inner r content = Ok inner -> heading h (heading_room page x) content inner.
Proof.
  intros r page x t h content inner HB HS H.
  assert (HF : exists text, fills (hs_template h) (spread_by (hs_spread h) (hs_gap h) (cased (hs_caps h) content)) text).
  { destruct HS as (S1 & S2 & S3 & S4 & S5 & S6). unfold header_inner in H. cbv zeta in H.
    destruct S2 as (v2 & G2 & T2), S5 as (v5 & G5 & T5). unfold int_set in S3. unfold str_set in S4. pose proof S1 as G1; unfold template_set in G1.
    rewrite (sattr_get _ _ _ G5), (sattr_get _ _ _ G2), (sattr_get _ _ _ S3) in H. cbn [bind] in H. change (want_int (VInt (hs_spread h))) with (Ok (hs_spread h)) in H.
    cbn [bind] in H. unfold the_box in H. rewrite HB in H. cbn [bind] in H. rewrite (sattr_get _ _ _ G1) in H. cbn [bind] in H. rewrite (sattr_get _ _ _ S4) in H. cbn [bind] in H.
    rewrite T2, T5, cased_eq in H.
    match type of H with context [bind (if ?b then _ else _) ?k] => assert (SP : (if b then Ok (spread (cased (hs_caps h) content) (hs_gap h) (hs_spread h)) else Ok (cased (hs_caps h) content))
       = Ok (spread_by (hs_spread h) (hs_gap h) (cased (hs_caps h) content))) end.
    { rewrite Z.gtb_ltb. destruct (0 <? hs_spread h) eqn:E; [now rewrite spread_eq by lia|]. unfold spread_by. now rewrite E. }
    rewrite SP in H. cbn [bind] in H. apply bind_Ok in H as (text & H & _). exists text. exact (fmt1_back _ _ _ _ _ _ S1 G1 H). }
  destruct HF as (text & HF). destruct (heading_rendered r page x t h content text HB HS HF) as (inner' & O1 & O2). congruence.
Qed.
Lemma paragraph_back : forall d r page x lt t j cfg caps skip content inner,
  i_box r = Some (child_box page (dr_margin x) (dr_padding x) (border_sides (dr_border x)) lt) -> template_width lt = label_columns t ->
  let s := i_settings r in
  template_set s "line_template" t -> justification_set s j -> wrapper_set s cfg -> switched s "capitalized" caps ->
  switched s "skip_for_code_or_pre" skip -> skip && para_skip d (i_tag r) = false ->
  paragraph_inner d r content = Ok inner ->
  exists ls rows, laid_out j cfg (text_room page x (label_columns t)) (cased caps content) ls /\ Forall2 (fills t) ls rows /\ inner = join nl rows.
Proof.
  intros d r page x lt t j cfg caps skip content inner HB HT s S1 S2 S3 S4 S5 SK H. subst s. unfold paragraph_inner in H. cbv zeta in H.
  destruct S4 as (v4 & G4 & T4), S5 as (v5 & G5 & T5), (just_read _ _ S2) as (v2 & G2 & J). pose proof S1 as G1; unfold template_set in G1.
  rewrite (sattr_get _ _ _ G5) in H. cbn [bind] in H. rewrite T5, SK, (sattr_get _ _ _ G2) in H. cbn [bind] in H. rewrite J in H. cbn [bind] in H.
  rewrite (sattr_get _ _ _ G4) in H. cbn [bind] in H. rewrite (wrapper_read _ _ S3) in H. cbn [bind] in H.
  unfold the_box in H. rewrite HB in H. cbn [bind] in H. destruct x as [m pd bo]. cbn [dr_margin dr_padding dr_border] in *. rewrite text_width, HT, T4, cased_eq in H.
  apply bind_Ok in H as (parts & H1 & H). rewrite (sattr_get _ _ _ G1) in H. cbn [bind] in H. apply bind_Ok in H as (rows & H2 & H). apply ok_inj in H. subst inner.
  apply mapM_back in H1, H2. exists (rows_of parts), rows. split; [exists parts; split; [eapply Forall2_weaken; [|exact H1]; intros ? ? Q; now apply SetFacts.justify_set|reflexivity]|]. split; auto. unfold rows_of. eapply Forall2_weaken; [|exact H2].
  intros a b F. eapply fmt1_back; eauto.
Qed.
Lemma item_back : forall r page x lt t j cfg caps content inner,
  i_box r = Some (child_box page (dr_margin x) (dr_padding x) (border_sides (dr_border x)) lt) -> template_width lt = label_columns t ->
  let s := i_settings r in
  template_set s "line_template" t -> justification_set s j -> wrapper_set s cfg -> switched s "capitalized" caps ->
  item_inner r content = Ok inner ->
  exists y l rest first, SetSpec.set_text cfg (text_room page x (label_columns t)) (cased caps content) (lit j) y /\ split_on 10%N y = l :: rest /\ fills t l first
    /\ inner = join nl (first :: map (fun l => spaces (label_columns t) ++ l) rest).
Proof.
  intros r page x lt t j cfg caps content inner HB HT s S1 S2 S3 S4 H. subst s. unfold item_inner in H. cbv zeta in H.
  destruct S4 as (v4 & G4 & T4), (just_read _ _ S2) as (v2 & G2 & J). pose proof S1 as G1; unfold template_set in G1.
  rewrite (sattr_get _ _ _ G2) in H. cbn [bind] in H. rewrite J in H. cbn [bind] in H. rewrite (sattr_get _ _ _ G4) in H. cbn [bind] in H. rewrite (wrapper_read _ _ S3) in H. cbn [bind] in H.
  unfold the_box in H. rewrite HB in H. cbn [bind] in H. destruct x as [m pd bo]. cbn [dr_margin dr_padding dr_border] in *. rewrite text_width, HT, T4, cased_eq in H.
  apply bind_Ok in H as (y & H1 & H). rewrite (sattr_get _ _ _ G1) in H. cbn [bind] in H. destruct (split_on 10%N y) as [|l rest] eqn:SP; [discriminate|].
  apply bind_Ok in H as (first & H2 & H). apply ok_inj in H. subst inner. exists y, l, rest, first. split; [now apply SetFacts.justify_set|]. split; auto. split; [eapply fmt1_back; eauto|].
  change (b_ltp (child_box page m pd (border_sides bo) lt)) with (template_width lt). now rewrite HT.
Qed.
Lemma pre_back : forall r t n content inner, template_set (i_settings r) "line_template" t -> int_set (i_settings r) "indent" n ->
  pre_inner r content = Ok inner ->
  exists rows, Forall2 (fun l row => exists x, fills t l x /\ row = spaces n ++ x) (splitlines false content) rows /\ inner = join nl rows.
Proof.
  intros r t n content inner S1 S2 H. unfold pre_inner in H. cbv zeta in H. pose proof S1 as G1; unfold template_set in G1. unfold int_set in S2.
  apply bind_Ok in H as (rows & H1 & H). apply ok_inj in H. subst inner. exists rows. split; auto. apply mapM_back in H1. eapply Forall2_weaken; [|exact H1].
  intros a b F. cbv beta in F. rewrite (sattr_get _ _ _ S2) in F. cbn [bind] in F. change (want_int (VInt n)) with (Ok n) in F. cbn [bind] in F. rewrite (sattr_get _ _ _ G1) in F. cbn [bind] in F.
  apply bind_Ok in F as (x & F & E). apply ok_inj in E. subst b. exists x. split; auto. eapply fmt1_back; eauto.
Qed.
Lemma quote_back : forall r t content inner, template_set (i_settings r) "line_template" t -> quote_inner r content = Ok inner ->
  exists rows, Forall2 (fills t) (splitlines false content) rows /\ inner = join nl rows.
Proof.
  intros r t content inner S1 H. unfold quote_inner in H. cbv zeta in H. pose proof S1 as G1; unfold template_set in G1. apply bind_Ok in H as (bx & _ & H). rewrite (sattr_get _ _ _ G1) in H. cbn [bind] in H.
  apply bind_Ok in H as (rows & H1 & H). apply ok_inj in H. subst inner. exists rows. split; auto. apply mapM_back in H1. eapply Forall2_weaken; [|exact H1].
  intros a b F. eapply fmt1_back; eauto.
Qed.
Lemma label_box : forall r t lt, template_set (i_settings r) "line_template" t -> template_of_val (dget (lit "line_template") (i_settings r)) = Ok lt -> template_width lt = label_columns t.
Proof. intros r t lt S1 H. destruct (label_read _ _ S1) as (lt' & A & B). congruence. Qed.
Lemma title_none : forall r, c_extra (i_ctx r) = None -> ctx_title r = None.
Proof. intros r H. unfold ctx_title. now rewrite H. Qed.
Lemma image_title_read : forall r, (match ctx_title r with Some t => t | None => lit "Image" end) = image_title (c_extra (i_ctx r)).
Proof. intros r. unfold image_title. destruct (c_extra (i_ctx r)) as [e|] eqn:E; [now rewrite (title_read _ _ E)|now rewrite title_none]. Qed.

Lemma heading_case : forall d cl i c r tg a kids pre page l e content out k, k = KHeader \/ k = KMdHeader -> rc_kind cl = k ->
  c_parent_box c = Some page -> instantiate d cl i c = Ok r -> shaped k (i_settings r) -> block_render d r content = Ok out ->
  picture tg a kids pre (i_settings r) page l e content k out.
Proof.
  intros d cl i c r tg a kids pre page l e content out k K EK CB HI SH H. destruct (instantiate_fields _ _ _ _ _ HI) as (EC & EKI & ET).
  assert (ND : needed k = needed KHeader) by (destruct K as [->| ->]; reflexivity). assert (IB : is_block (rc_kind cl) = true) by (rewrite EK; destruct K as [->| ->]; reflexivity).
  destruct (has_wears _ _ SH) as (x & W & _); [rewrite ND; cbn; tauto|]. destruct (block_back _ _ _ _ _ _ _ _ _ IB CB HI W H) as (inner & I1 & I2).
  destruct (block_box _ _ _ _ _ _ _ IB CB HI W) as (lt & L1 & _).
  assert (I1' : header_inner r content = Ok inner) by (unfold inner_render in I1; rewrite EKI, EK in I1; destruct K as [->| ->]; exact I1).
  destruct (has_template _ _ SH "template"%string) as (t & T); [cbn; tauto|rewrite ND; cbn; tauto|].
  destruct (has_truth _ _ SH "capitalized"%string) as (b1 & B1); [rewrite ND; cbn; tauto|]. destruct (has_truth _ _ SH "centered"%string) as (b2 & B2); [rewrite ND; cbn; tauto|].
  destruct (has_truth _ _ SH "underlined"%string) as (b3 & B3); [rewrite ND; cbn; tauto|]. destruct (has_truth _ _ SH "underline_full"%string) as (b4 & B4); [rewrite ND; cbn; tauto|].
  destruct (has_number _ _ SH "spread"%string) as (n & NN); [cbn; tauto|rewrite ND; cbn; tauto|]. destruct (has_text _ _ SH "spread_char"%string) as (u & UU); [cbn; tauto|rewrite ND; cbn; tauto|].
  destruct (has_text _ _ SH "underline_char"%string) as (v & VV); [cbn; tauto|rewrite ND; cbn; tauto|].
  set (h := HeadingStyle t b1 n u b2 (if b3 then Some (b4, v) else None)).
  assert (HS : heading_set (i_settings r) h) by (unfold heading_set, h; cbn; destruct b3; auto 10).
  eapply (pi_heading tg a kids pre (i_settings r) page l e content k x h); eauto. eapply header_back; eauto.
Qed.
Lemma item_case : forall d cl i c r tg a kids pre page l e content out k, k = KItem \/ k = KOrdered \/ k = KDef -> rc_kind cl = k ->
  c_parent_box c = Some page -> instantiate d cl i c = Ok r -> shaped k (i_settings r) -> block_render d r content = Ok out ->
  picture tg a kids pre (i_settings r) page l e content k out.
Proof.
  intros d cl i c r tg a kids pre page l e content out k K EK CB HI SH H. destruct (instantiate_fields _ _ _ _ _ HI) as (EC & EKI & ET).
  assert (ND : needed k = needed KItem) by (destruct K as [->|[->| ->]]; reflexivity). assert (IB : is_block (rc_kind cl) = true) by (rewrite EK; destruct K as [->|[->| ->]]; reflexivity).
  destruct (has_wears _ _ SH) as (x & W & _); [rewrite ND; cbn; tauto|]. destruct (block_back _ _ _ _ _ _ _ _ _ IB CB HI W H) as (inner & I1 & I2).
  destruct (block_box _ _ _ _ _ _ _ IB CB HI W) as (lt & L1 & _ & L3).
  assert (I1' : item_inner r content = Ok inner) by (unfold inner_render in I1; rewrite EKI, EK in I1; destruct K as [->|[->| ->]]; exact I1).
  assert (L3' : template_of_val (dget (lit "line_template") (i_settings r)) = Ok lt) by (rewrite EK in L3; destruct K as [->|[->| ->]]; exact L3).
  destruct (has_template _ _ SH "line_template"%string) as (t & T); [cbn; tauto|rewrite ND; cbn; tauto|].
  destruct (has_truth _ _ SH "capitalized"%string) as (b1 & B1); [rewrite ND; cbn; tauto|]. destruct (has_just _ _ SH) as (j & J); [rewrite ND; cbn; tauto|].
  destruct (has_wrapper _ _ SH) as (cfg & WR); [rewrite ND; cbn; tauto|rewrite ND; cbn; tauto|]. pose proof (label_box _ _ _ T L3') as LB.
  destruct (item_back r page x lt t j cfg b1 content inner L1 LB T J WR B1 I1') as (y & l0 & rest & first & Y1 & Y2 & Y3 & ->).
  eapply pi_item; eauto.
Qed.

Lemma picture_back : forall d cl i c r n tg a kids pre page l e content out,
  node_at d i = Some n -> n_tag n = Some tg -> carries n a ->
  c_parent_box c = Some page -> c_link c = l -> c_extra c = e -> instantiate d cl i c = Ok r ->
  para_skip d i = only_code kids -> pre_parent d i = pre -> shaped (rc_kind cl) (i_settings r) ->
  render_inst d r content = Ok out -> picture tg a kids pre (i_settings r) page l e content (rc_kind cl) out.
Proof.
  intros d cl i c r n tg a kids pre page l e content out ND NT NA CB CLK CE HI SK PP SH H.
  destruct (instantiate_fields _ _ _ _ _ HI) as (EC & EKI & ET). unfold render_inst in H. rewrite EKI in H.
  assert (BLK : forall x, is_block (rc_kind cl) = true -> wears (i_settings r) x -> block_render d r content = Ok out ->
     exists inner lt, inner_render d r content = Ok inner /\ dressed page x (split_on 10%N inner) out
       /\ i_box r = Some (child_box page (dr_margin x) (dr_padding x) (border_sides (dr_border x)) lt)
       /\ (if has_line_template (rc_kind cl) then template_of_val (dget (lit "line_template") (i_settings r)) else Ok None) = Ok lt).
  { intros x B W R. destruct (block_back _ _ _ _ _ _ _ _ _ B CB HI W R) as (inner & I1 & I2). destruct (block_box _ _ _ _ _ _ _ B CB HI W) as (lt & L1 & _ & L3). eauto 8. }
  unfold inner_render in BLK. rewrite EKI in BLK.
  set (s := i_settings r) in *. remember (rc_kind cl) as k eqn:EK. symmetry in EK.
  destruct k.
  - apply ok_inj in H. subst. constructor.
  - apply ok_inj in H. subst. constructor.
  - destruct (has_template _ _ SH "template"%string) as (t & T); [cbn; tauto|cbn; tauto|]. destruct (has_truth _ _ SH "capitalized"%string) as (b & B); [cbn; tauto|].
    econstructor; eauto. eapply inline_back; eauto.
  - destruct (has_template _ _ SH "block_template"%string) as (t & T); [cbn; tauto|cbn; tauto|]. destruct (has_template _ _ SH "inline_template"%string) as (t' & T'); [cbn; tauto|cbn; tauto|].
    unfold code_render in H. rewrite ET, PP in H. destruct pre; [apply ok_inj in H; subst out; now constructor|]. eapply pi_code; eauto.
    unfold template_set in T, T'. destruct (has_char 10%N content); apply bind_Ok in H as (v & V & H); unfold sitem in V; fold s in V; [rewrite T in V|rewrite T' in V]; apply ok_inj in V; subst v;
    unfold fmt1 in H; cbn [want_str bind] in H; now apply FormatMain.format_ok.
  - destruct (has_template _ _ SH "template"%string) as (t & T); [cbn; tauto|cbn; tauto|]. destruct (has_truth _ _ SH "capitalized"%string) as (b & B); [cbn; tauto|].
    destruct (has_templates _ _ SH) as (v & V & (tp & va & vb & -> & D1 & D2 & D3 & D4)); [cbn; tauto|]. apply has_two in D2 as (plain & titled & rest & ->).
    destruct D4 as (rf & ->). pose proof B as (bv & B1 & B2).
    unfold link_renderer in H. cbv zeta in H. fold s in H. rewrite (sattr_get _ _ _ B1) in H. cbn [bind] in H. unfold ctx_link in H. rewrite EC, CLK in H. destruct l as [l'|]; [|discriminate]. cbn [bind] in H.
    rewrite (sattr_get _ _ _ V) in H. cbn [bind] in H. rewrite B2 in H. cbn [val_key] in H. rewrite D1, D3 in H. cbn [bind val_index nth_error want_str] in H.
    assert (LT : link_templates s plain titled rf) by (exists tp, rest; auto 10).
    destruct (seqb (lc_link_placement l') (lit "inline")) eqn:PL.
    + destruct (c_extra (i_ctx r)) as [e'|] eqn:EX.
      * rewrite (title_read _ _ EX) in H. unfold ctx_extra in H. rewrite EX in H. rewrite EC, CE in EX. rewrite EX in *. clear EX e.
        destruct (title_of e') as [ti|] eqn:TI; apply bind_Ok in H as (x & HX & H); cbn [bind] in H;
        (eapply pi_link; [reflexivity|exact T|exact B|exact LT|eapply inline_back; eauto|]); rewrite PL; exists e'; (split; [reflexivity|]); rewrite TI; now apply FormatMain.format_ok.
      * rewrite (title_none _ EX) in H. unfold ctx_extra in H. rewrite EX in H. apply bind_Ok in H as (x & HX & H). discriminate.
    + apply bind_Ok in H as (x & HX & H). eapply pi_link; [reflexivity|exact T|exact B|exact LT|eapply inline_back; eauto|]. rewrite PL. now apply FormatMain.format_ok.
  - destruct (has_truth _ _ SH "capitalized"%string) as (b & B); [cbn; tauto|].
    destruct (has_templates _ _ SH) as (v & V & (tp & va & vb & -> & D1 & (pl & ->) & D3 & (rf & ->))); [cbn; tauto|]. pose proof B as (bv & B1 & B2).
    unfold image_renderer in H. cbv zeta in H. fold s in H. rewrite (sattr_get _ _ _ B1) in H. cbn [bind] in H. unfold ctx_link in H. rewrite EC, CLK in H. destruct l as [l'|]; [|discriminate]. cbn [bind] in H.
    rewrite (sattr_get _ _ _ V) in H. cbn [bind] in H. cbn [val_key] in H. rewrite D1, D3 in H. cbn [bind want_str] in H. rewrite image_title_read, EC, CE in H.
    assert (LT : image_templates s pl rf) by (exists tp; auto 10). eapply pi_image; [reflexivity|exact B|exact LT|].
    destruct (seqb (lc_image_placement l') (lit "inline")).
    + unfold ctx_extra in H. rewrite EC, CE in H. destruct e as [e'|]; [|discriminate]. cbn [bind] in H. exists e'. split; auto. now apply FormatMain.format_ok.
    + now apply FormatMain.format_ok.
  - destruct (has_template _ _ SH "template"%string) as (t & T); [cbn; tauto|cbn; tauto|]. destruct (has_truth _ _ SH "capitalized"%string) as (b & B); [cbn; tauto|].
    unfold break_render in H. pose proof T as G; unfold template_set in G. fold s in H. rewrite (sattr_get _ _ _ G) in H. cbn [bind] in H. apply bind_Ok in H as (x & HX & H).
    eapply pi_break; eauto; [|eapply fmt1_back; eauto]. pose proof (inline_back _ _ _ _ _ T B HX) as Q. destruct b; exact Q.
  - destruct (has_template _ _ SH "template"%string) as (t & T); [cbn; tauto|cbn; tauto|]. destruct (has_truth _ _ SH "capitalized"%string) as (b & B); [cbn; tauto|].
    apply bind_Ok in H as (x & HX & H). apply SgrFacts.ansi_iff in H. eapply pi_ansi; eauto. eapply inline_back; eauto.
  - destruct (has_wears _ _ SH) as (x & W & _); [cbn; tauto|]. destruct (BLK x eq_refl W H) as (inner & lt & I1 & I2 & _). apply ok_inj in I1. subst inner. eapply pi_block; eauto.
  - eapply heading_case; eauto.
  - eapply heading_case; eauto.
  - destruct (has_wears _ _ SH) as (x & W & _); [cbn; tauto|]. destruct (BLK x eq_refl W H) as (inner & lt & I1 & I2 & I3 & I4). cbn [has_line_template] in I4.
    destruct (has_template _ _ SH "line_template"%string) as (t & T); [cbn; tauto|cbn; tauto|]. destruct (has_truth _ _ SH "capitalized"%string) as (b & B); [cbn; tauto|].
    destruct (has_truth _ _ SH "skip_for_code_or_pre"%string) as (sk & B'); [cbn; tauto|]. destruct (has_just _ _ SH) as (j & J); [cbn; tauto|]. destruct (has_wrapper _ _ SH) as (cfg & WR); [cbn; tauto|cbn; tauto|].
    pose proof (label_box _ _ _ T I4) as LB. destruct (sk && para_skip d (i_tag r)) eqn:SKP.
    + apply andb_prop in SKP as [-> SKP]. unfold paragraph_inner in I1. cbv zeta in I1. pose proof B' as (v & V1 & V2). fold s in I1. rewrite (sattr_get _ _ _ V1) in I1. cbn [bind] in I1. rewrite V2, SKP in I1.
      cbn [andb] in I1. apply ok_inj in I1. subst inner. eapply pi_code_paragraph; eauto; congruence.
    + destruct (paragraph_back d r page x lt t j cfg b sk content inner I3 LB T J WR B B' SKP I1) as (ls & rows & L1 & L2 & ->). eapply pi_paragraph; eauto; congruence.
  - destruct (has_wears _ _ SH) as (x & W & _); [cbn; tauto|]. destruct (BLK x eq_refl W H) as (inner & lt & I1 & I2 & I3 & I4).
    destruct (has_template _ _ SH "line_template"%string) as (t & T); [cbn; tauto|cbn; tauto|]. destruct (has_number _ _ SH "indent"%string) as (n1 & NN); [cbn; tauto|cbn; tauto|].
    destruct (pre_back r t n1 content inner T NN I1) as (rows & R1 & ->). eapply pi_pre; eauto.
  - destruct (has_wears _ _ SH) as (x & W & _); [cbn; tauto|]. destruct (has_max _ _ SH) as (m & M & MP); [cbn; tauto|]. destruct (has_template _ _ SH "gophermap_template"%string) as (t & T); [cbn; tauto|cbn; tauto|].
    destruct (has_templates _ _ SH) as (v & V & D2); [cbn; tauto|]. apply has_two in D2 as (plain & titled & rest & ->).
    assert (LT : listing_templates s plain titled) by (exists rest; auto). unfold int_set in M.
    unfold extlink_render in H. unfold ctx_link in H at 1. rewrite EC, CLK in H. destruct l as [l'|]; [|discriminate]. cbn [bind] in H. destruct (seqb_spec (lc_format l') (lit "gophermap")) as [GF|GF].
    + apply bind_Ok in H as (inner & H1 & H). apply bind_Ok in H as (bx & H2 & H). apply ok_inj in H. subst out.
      unfold extlink_inner in H1. cbv zeta in H1. fold s in H1. unfold ctx_link, ctx_extra in H1. rewrite EC, CLK, CE in H1. destruct e as [e'|]; [|discriminate]. cbn [bind] in H1.
      rewrite (sattr_get _ _ _ M) in H1. cbn [bind] in H1. change (want_int (VInt m)) with (Ok m) in H1. cbn [bind] in H1. rewrite GF, seqb_refl, truncate_cut in H1 by auto.
      unfold gophermap_line in H1. pose proof T as G; unfold template_set in G. rewrite (sattr_get _ _ _ G) in H1. cbn [bind want_str] in H1. apply FormatMain.format_ok in H1; auto.
      destruct (block_box d cl i c r page x) as (lt & L1 & _); [now rewrite EK|auto..]. unfold the_box in H2. rewrite L1 in H2. apply ok_inj in H2. subst bx. cbn [b_margin child_box].
      eapply pi_menu_link; eauto.
    + destruct (BLK x eq_refl W H) as (inner & lt & I1 & I2 & I3 & I4). unfold extlink_inner in I1. cbv zeta in I1. fold s in I1. unfold ctx_link, ctx_extra in I1. rewrite EC, CLK, CE in I1. destruct e as [e'|]; [|discriminate]. cbn [bind] in I1.
      rewrite (sattr_get _ _ _ M) in I1. cbn [bind] in I1. change (want_int (VInt m)) with (Ok m) in I1. cbn [bind] in I1. replace (seqb (lc_format l') (lit "gophermap")) with false in I1 by (destruct (seqb_spec (lc_format l') (lit "gophermap")); congruence). rewrite truncate_cut in I1 by auto.
      rewrite (sattr_get _ _ _ V) in I1. cbn [bind val_index nth_error] in I1. rewrite (title_read r e') in I1 by congruence.
      eapply pi_listed_link; eauto. unfold listing_fields. destruct (title_of e'); cbn [bind want_str] in I1; now apply FormatMain.format_ok.
  - destruct (has_wears _ _ SH) as (x & W & _); [cbn; tauto|]. destruct (has_max _ _ SH) as (m & M & MP); [cbn; tauto|]. destruct (has_template _ _ SH "gophermap_template"%string) as (t & T); [cbn; tauto|cbn; tauto|].
    destruct (has_templates _ _ SH) as (v & V & D2); [cbn; tauto|]. apply has_two in D2 as (plain & titled & rest & ->).
    assert (LT : listing_templates s plain titled) by (exists rest; auto). pose proof M as M'. unfold int_set in M'.
    destruct (BLK x eq_refl W H) as (inner & lt & I1 & I2 & I3 & I4). unfold extimage_inner in I1. cbv zeta in I1. fold s in I1. rewrite image_title_read in I1. unfold ctx_link, ctx_extra in I1. rewrite EC, CLK, CE in I1.
    destruct l as [l'|]; [|discriminate]. cbn [bind] in I1. destruct e as [e'|]; [|discriminate]. cbn [bind] in I1.
    rewrite (sattr_get _ _ _ M') in I1. cbn [bind] in I1. change (want_int (VInt m)) with (Ok m) in I1. cbn [bind] in I1. rewrite truncate_cut in I1 by auto.
    eapply pi_listed_image; eauto. cbv zeta. destruct (seqb (lc_format l') (lit "gophermap")).
    + unfold gophermap_line in I1. pose proof T as G; unfold template_set in G. rewrite (sattr_get _ _ _ G) in I1. cbn [bind want_str] in I1. apply FormatMain.format_ok in I1; auto.
    + rewrite (sattr_get _ _ _ V) in I1. cbn [bind val_index nth_error] in I1. rewrite Z.gtb_ltb in I1. unfold listing_fields. destruct (m <? len (image_title (Some e'))); cbn [bind want_str] in I1; now apply FormatMain.format_ok.
  - destruct (has_wears _ _ SH) as (x & W & _); [cbn; tauto|]. destruct (BLK x eq_refl W H) as (inner & lt & I1 & I2 & I3 & I4).
    destruct (has_template _ _ SH "line_template"%string) as (t & T); [cbn; tauto|cbn; tauto|].
    destruct (quote_back r t content inner T I1) as (rows & R1 & ->). eapply pi_quote; eauto.
  - eapply item_case; eauto; cbn; tauto.
  - eapply item_case; eauto; cbn; tauto.
  - eapply item_case; eauto; cbn; tauto.
  - apply pi_own. unfold own_render in H. rewrite (view_read d r o n tg a page) in H; try congruence. rewrite (boxless d cl i c r) in H; [|now rewrite EK|auto]. fold s in H. congruence.
  - destruct (has_wears _ _ SH) as (x & W & _); [cbn; tauto|]. destruct (BLK x eq_refl W H) as (inner & lt & I1 & I2 & I3 & I4). cbn [has_line_template] in I4. apply ok_inj in I4. subst lt.
    eapply pi_own_block; eauto. cbv zeta. unfold own_render in I1. rewrite (view_read d r o n tg a page) in I1; try congruence. rewrite I3, EC, CLK, CE in I1. exact I1.
Qed.
End A.
Close Scope Z_scope.
