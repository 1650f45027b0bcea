(** From what is wrong with an element to the exception its renderer raises. *)
From Verif Require SetFacts SgrFacts FormatMain.
From Verif Require Import WrapFacts WrapLoop WrapWidth.
From Verif Require Import BaseFacts StrFacts SelFacts CssFacts TreeFacts HistoryFacts DomFacts LineFacts BoxFacts AnsiStyle RenderFacts ElemFacts ElemText LinkFacts DocFacts SettingsFacts PageBase PageFacts PageMain.
From Verif Require Import DressFacts DressProps GoodFacts StyleMain ShapeBack.
From Verif Require Export TripSpec.
Open Scope Z_scope.

(** ** Templates *)
Lemma fills_or : forall `{U : Uni} t x, (exists out, fills t x out) \/ exists ex, misfills t x ex.
Proof. intros U t x. apply FormatMain.formats_or. Qed.
Lemma all_or : forall {A B} (right_ : A -> B -> Prop) wrong l, (forall x, In x l -> (exists y, right_ x y) \/ exists ex : exn, wrong x ex) ->
  (exists ys, Forall2 right_ l ys) \/ exists ex, first_wrong right_ wrong l ex.
Proof.
  intros A B right_ wrong l H. induction l as [|x l IH]; [left; exists []; constructor|]. destruct (H x (or_introl eq_refl)) as [(y & Y)|(ex & E)].
  - destruct IH as [(ys & Q)|(ex & xs & x' & rest & ys & -> & Q & E)]; [intros x' J; apply H; now right|left; exists (y :: ys); now constructor|].
    right. exists ex, (x :: xs), x', rest, (y :: ys). split; auto.
  - right. exists ex, [], x, l, []. split; auto.
Qed.
Lemma mapM_wrong : forall {A B} (f : A -> res B) (right_ : A -> B -> Prop) (wrong : A -> exn -> Prop) l ex, (forall x y, right_ x y -> exists y', f x = Ok y') -> (forall x e, wrong x e -> f x = Err e) ->
  first_wrong right_ wrong l ex -> mapM f l = Err ex.
Proof.
  intros A B f right_ wrong l ex R W (xs & x & rest & ys & -> & Q & E). induction Q as [|a b xs ys H _ IH]; cbn [app mapM]; [now rewrite (W _ _ E)|].
  destruct (R _ _ H) as (y' & ->). cbn [bind]. now rewrite IH.
Qed.

Section M.
Context `{U : Uni}.
Lemma fmt1_misfills : forall s k t x ex, template_set s k t -> misfills t x ex -> forall v, dget (lit k) s = Some v -> fmt1 v x = Err ex.
Proof. intros s k t x ex H F v E. unfold template_set in H. rewrite H in E. injection E as <-. unfold fmt1. cbn [want_str bind]. now apply FormatMain.format_err. Qed.
Lemma inline_misfilled : forall s t caps content ex, template_set s "template" t -> switched s "capitalized" caps -> misfills t (cased caps content) ex ->
  inline_render s content = Err ex.
Proof.
  intros s t caps content ex S1 (v & G & T) F. unfold inline_render. pose proof S1 as G1; unfold template_set in G1. rewrite (sitem_get _ _ _ G). cbn [bind]. rewrite (sattr_get _ _ _ G1). cbn [bind].
  rewrite T. exact (fmt1_misfills _ _ _ _ _ S1 F _ G1).
Qed.

(** ** Elements *)
Section X.
Variables (s s' : settings).
Hypothesis HX : forall k, dget k s = dget k s'.
Lemma x_trips : forall tg a kids pre page l e content k ex, trips tg a kids pre s page l e content k ex -> trips tg a kids pre s' page l e content k ex.
Proof.
  intros tg a kids pre page l e content k ex H.
  destruct H; [eapply tr_inline|eapply tr_ansi_text|eapply tr_ansi|eapply tr_code|eapply tr_break|eapply tr_break_again|eapply tr_link_not|eapply tr_link_text|eapply tr_link_target|eapply tr_link|eapply tr_image_not|eapply tr_image_target|eapply tr_image
    |eapply tr_heading|eapply tr_paragraph|eapply tr_paragraph_label|eapply tr_pre|eapply tr_quote|eapply tr_item|eapply tr_item_label|eapply tr_listed_not|eapply tr_listed_link|eapply tr_menu_link|eapply tr_listed_image|eapply tr_own|eapply tr_own_block];
  eauto using (x_template _ _ HX), (x_switched _ _ HX), (x_int _ _ HX), (x_wears _ _ HX), (x_heading _ _ HX), (x_just _ _ HX), (x_wrapper _ _ HX), (x_link _ _ HX), (x_image _ _ HX), (x_listing _ _ HX).
  - apply (SgrFacts.ansi_err s' []). rewrite <- (x_ansi _ _ HX). now apply SgrFacts.ansi_err.
  - now rewrite <- (x_read _ _ HX).
  - cbv zeta in *. now rewrite <- (x_read _ _ HX).
Qed.
End X.
Lemma block_wrong : forall d r content ex, inner_render d r content = Err ex -> block_render d r content = Err ex.
Proof. intros d r content ex H. unfold block_render. now rewrite H. Qed.

Lemma rendered_trip : forall d cl i c r n tg a kids pre page l e content ex,
  node_at d i = Some n -> n_tag n = Some tg -> carries n a ->
  c_parent_box c = Some page -> c_link c = l -> c_extra c = e -> instantiate d cl i c = Ok r ->
  para_skip d i = only_code kids -> pre_parent d i = pre ->
  trips tg a kids pre (i_settings r) page l e content (rc_kind cl) ex -> render_inst d r content = Err ex.
Proof.
  intros d cl i c r n tg a kids pre page l e content ex ND NT NA CB CLK CE HI SK PP H. remember (rc_kind cl) as k eqn:EK. symmetry in EK.
  destruct (instantiate_fields _ _ _ _ _ HI) as (EC & EKI & ET).
  assert (EL : c_link (i_ctx r) = l) by congruence. assert (EE : c_extra (i_ctx r) = e) by congruence.
  unfold render_inst. rewrite EKI, EK. set (s := i_settings r) in *.
  destruct H as [t caps ex T SW M|t caps ex T SW M|t caps x ex T SW M A|block inline ex PF T1 T2 M|t caps ex T SW M|t caps x ex T SW M M2|caps LN SW|l' t caps plain titled reference ex LS T SW LT M
    |l' t caps plain titled reference x LS PL EN T SW LT M|l' t caps plain titled reference x ex LS T SW LT M M2|caps LN SW|l' caps plain reference LS PL EN SW IT|l' caps plain reference ex LS SW IT M
    |k x h ex K W HS M|x t j cfg caps skip ex W T J WR SW SW2 NS M|x t j cfg caps skip ls ex W T J WR SW SW2 NS LO M|t n0 ex T NN M|t ex T M|k x t j cfg caps ex K W T J WR SW M|k x t j cfg caps y first_ rest ex K W T J WR SW M SP M2
    |k K LE|l' e' m plain titled ex LS ES NG MX M0 LT M|l' e' m t ex LS ES NG MX M0 T M|l' e' m plain titled t ex LS ES MX M0 LT T M|o ex M|o x ex W M].
  - eapply inline_misfilled; eauto.
  - fold s. rewrite (inline_misfilled _ _ _ _ _ T SW M). reflexivity.
  - fold s. rewrite (inline_rendered _ _ _ _ _ T SW M). apply SgrFacts.ansi_err. exact A.
  - unfold code_render. rewrite ET, PP, PF. fold s. pose proof T1 as G1; unfold template_set in G1. pose proof T2 as G2; unfold template_set in G2. destruct (has_char 10%N content).
    + rewrite (sitem_get _ _ _ G1). cbn [bind]. exact (fmt1_misfills _ _ _ _ _ T1 M _ G1).
    + rewrite (sitem_get _ _ _ G2). cbn [bind]. exact (fmt1_misfills _ _ _ _ _ T2 M _ G2).
  - unfold break_render. fold s. pose proof T as G1; unfold template_set in G1. rewrite (sattr_get _ _ _ G1). cbn [bind]. rewrite (inline_misfilled s t caps nl ex T SW); [reflexivity|]. destruct caps; exact M.
  - unfold break_render. fold s. pose proof T as G1; unfold template_set in G1. rewrite (sattr_get _ _ _ G1). cbn [bind]. rewrite (inline_rendered s t caps nl x T SW); [|destruct caps; exact M]. cbn [bind].
    exact (fmt1_misfills _ _ _ _ _ T M2 _ G1).
  - unfold link_renderer. fold s. cbv zeta. destruct SW as (v & G & _). rewrite (sattr_get _ _ _ G). cbn [bind]. unfold ctx_link. now rewrite EL, LN.
  - unfold link_renderer. fold s. cbv zeta. pose proof SW as (v & G & GT). destruct LT as (tp & rest & D0 & D1 & D3). rewrite (sattr_get _ _ _ G). cbn [bind]. unfold ctx_link. rewrite EL, LS. cbn [bind].
    rewrite (sattr_get _ _ _ D0). cbn [bind val_key]. rewrite D1, D3. cbn [bind val_index nth_error want_str]. rewrite (inline_misfilled _ _ _ _ _ T SW M).
    destruct (seqb (lc_link_placement l') (lit "inline")); [destruct (ctx_title r)|]; reflexivity.
  - unfold link_renderer. fold s. cbv zeta. pose proof SW as (v & G & GT). destruct LT as (tp & rest & D0 & D1 & D3). rewrite (sattr_get _ _ _ G). cbn [bind]. unfold ctx_link. rewrite EL, LS. cbn [bind].
    rewrite (sattr_get _ _ _ D0). cbn [bind val_key]. rewrite D1, D3. cbn [bind val_index nth_error want_str]. rewrite (inline_rendered _ _ _ _ _ T SW M), PL, seqb_refl. rewrite (title_none r) by congruence.
    unfold ctx_extra. rewrite EE, EN. reflexivity.
  - unfold link_renderer. fold s. cbv zeta. pose proof SW as (v & G & GT). destruct LT as (tp & rest & D0 & D1 & D3). rewrite (sattr_get _ _ _ G). cbn [bind]. unfold ctx_link. rewrite EL, LS. cbn [bind].
    rewrite (sattr_get _ _ _ D0). cbn [bind val_key]. rewrite D1, D3. cbn [bind val_index nth_error want_str]. rewrite (inline_rendered _ _ _ _ _ T SW M). cbn [bind]. rewrite GT. rewrite cased_eq.
    destruct (seqb (lc_link_placement l') (lit "inline")).
    + destruct M2 as (e' & ES & M2). rewrite (title_read r e') by congruence. unfold ctx_extra. rewrite EE, ES. destruct (title_of e'); cbn [bind]; now apply FormatMain.format_err.
    + cbn [bind]. now apply FormatMain.format_err.
  - unfold image_renderer. fold s. cbv zeta. destruct SW as (v & G & _). rewrite (sattr_get _ _ _ G). cbn [bind]. unfold ctx_link. now rewrite EL, LN.
  - unfold image_renderer. fold s. cbv zeta. destruct SW as (v & G & GT). destruct IT as (tp & D0 & D1 & D3). rewrite (sattr_get _ _ _ G). cbn [bind]. unfold ctx_link. rewrite EL, LS. cbn [bind].
    rewrite (sattr_get _ _ _ D0). cbn [bind val_key]. rewrite D1, PL, seqb_refl. cbn [bind want_str]. unfold ctx_extra. rewrite EE, EN. reflexivity.
  - unfold image_renderer. fold s. cbv zeta. destruct SW as (v & G & GT). destruct IT as (tp & D0 & D1 & D3). rewrite (sattr_get _ _ _ G). cbn [bind]. unfold ctx_link. rewrite EL, LS. cbn [bind].
    rewrite (sattr_get _ _ _ D0). cbn [bind val_key]. rewrite D1, D3. cbn [bind want_str]. rewrite image_title_read, EE. destruct (seqb (lc_image_placement l') (lit "inline")).
    + destruct M as (e' & ES & M). unfold ctx_extra. rewrite EE, ES. cbn [bind]. now apply FormatMain.format_err.
    + now apply FormatMain.format_err.
  - assert (IB : is_block (rc_kind cl) = true) by (rewrite EK; destruct K as [->| ->]; reflexivity). destruct (block_box _ _ _ _ _ _ _ IB CB HI W) as (lt & L1 & _).
    assert (HH : header_inner r content = Err ex).
    { destruct HS as (S1 & S2 & S3 & S4 & S5 & S6). unfold header_inner. cbv zeta. fold s.
      destruct S2 as (v2 & G2 & T2), S5 as (v5 & G5 & T5). unfold int_set in S3. unfold str_set in S4. pose proof S1 as G1; unfold template_set in G1.
      rewrite (sattr_get _ _ _ G5), (sattr_get _ _ _ G2), (sattr_get _ _ _ S3). cbn [bind]. change (want_int (VInt (hs_spread h))) with (Ok (hs_spread h)).
      cbn [bind]. unfold the_box. rewrite L1. cbn [bind]. rewrite (sattr_get _ _ _ G1). cbn [bind]. rewrite (sattr_get _ _ _ S4). cbn [bind]. rewrite T2, cased_eq.
      match goal with |- context [bind (if ?b then _ else _) ?k] => assert (SP : (if b then Ok (spread (cased (hs_caps h) content) (hs_gap h) (hs_spread h)) else Ok (cased (hs_caps h) content))
         = Ok (spread_by (hs_spread h) (hs_gap h) (cased (hs_caps h) content))) end.
      { rewrite Z.gtb_ltb. destruct (0 <? hs_spread h) eqn:E; [now rewrite spread_eq by lia|]. unfold spread_by. now rewrite E. }
      rewrite SP. cbn [bind]. rewrite (fmt1_misfills _ _ _ _ _ S1 M _ G1). reflexivity. }
    assert (BB : block_render d r content = Err ex) by (apply block_wrong; unfold inner_render; rewrite EKI, EK; destruct K as [->| ->]; exact HH). destruct K as [->| ->]; exact BB.
  - apply block_wrong. unfold inner_render. rewrite EKI, EK. assert (IB : is_block (rc_kind cl) = true) by now rewrite EK. destruct (block_box _ _ _ _ _ _ _ IB CB HI W) as (lt & L1 & _ & L3). rewrite EK in L3. cbn [has_line_template] in L3.
    pose proof (label_box _ _ _ T L3) as HT. unfold paragraph_inner. cbv zeta. fold s. destruct SW as (v4 & G4 & T4), SW2 as (v5 & G5 & T5), (just_read _ _ J) as (v2 & G2 & JN).
    rewrite (sattr_get _ _ _ G5). cbn [bind]. rewrite T5, ET, SK, NS, (sattr_get _ _ _ G2). cbn [bind]. rewrite JN. cbn [bind]. rewrite (sattr_get _ _ _ G4). cbn [bind]. rewrite (wrapper_read _ _ WR). cbn [bind].
    unfold the_box. rewrite L1. cbn [bind]. destruct x as [m pd bo]. cbn [dr_margin dr_padding dr_border] in *. rewrite text_width, HT, T4, cased_eq.
    rewrite (mapM_wrong _ _ _ _ _ ltac:(intros c0 y0 E; exists y0; apply SetFacts.justify_set; exact E) ltac:(intros c0 e0 E; apply SetFacts.justify_unset; exact E) M). reflexivity.
  - apply block_wrong. unfold inner_render. rewrite EKI, EK. assert (IB : is_block (rc_kind cl) = true) by now rewrite EK. destruct (block_box _ _ _ _ _ _ _ IB CB HI W) as (lt & L1 & _ & L3). rewrite EK in L3. cbn [has_line_template] in L3.
    pose proof (label_box _ _ _ T L3) as HT. unfold paragraph_inner. cbv zeta. fold s. destruct SW as (v4 & G4 & T4), SW2 as (v5 & G5 & T5), (just_read _ _ J) as (v2 & G2 & JN). pose proof T as G1; unfold template_set in G1.
    rewrite (sattr_get _ _ _ G5). cbn [bind]. rewrite T5, ET, SK, NS, (sattr_get _ _ _ G2). cbn [bind]. rewrite JN. cbn [bind]. rewrite (sattr_get _ _ _ G4). cbn [bind]. rewrite (wrapper_read _ _ WR). cbn [bind].
    unfold the_box. rewrite L1. cbn [bind]. destruct x as [m pd bo]. cbn [dr_margin dr_padding dr_border] in *. rewrite text_width, HT, T4, cased_eq.
    destruct LO as (parts & LO & ->). rewrite (mapM_Forall2 (fun chunk => justify (lit j) cfg _ (strip chunk)) _ parts) by (eapply Forall2_weaken; [|exact LO]; intros ? ? Q; now apply SetFacts.justify_set). cbn [bind]. rewrite (sattr_get _ _ _ G1). cbn [bind].
    unfold rows_of in M. rewrite (mapM_wrong (fmt1 (VStr t)) _ _ _ _ ltac:(intros c0 y0 E; exists y0; exact (fmt1_fills _ _ _ _ _ T E _ G1)) ltac:(intros c0 e0 E; exact (fmt1_misfills _ _ _ _ _ T E _ G1)) M). reflexivity.
  - apply block_wrong. unfold inner_render. rewrite EKI, EK. unfold pre_inner. cbv zeta. fold s. pose proof T as G1; unfold template_set in G1. unfold int_set in NN.
    erewrite mapM_wrong; [reflexivity| | |exact M].
    + intros c0 y0 E. cbv beta. rewrite (sattr_get _ _ _ NN). cbn [bind]. change (want_int (VInt n0)) with (Ok n0). cbn [bind]. rewrite (sattr_get _ _ _ G1). cbn [bind]. rewrite (fmt1_fills _ _ _ _ _ T E _ G1). cbn [bind]. eauto.
    + intros c0 e0 E. cbv beta. rewrite (sattr_get _ _ _ NN). cbn [bind]. change (want_int (VInt n0)) with (Ok n0). cbn [bind]. rewrite (sattr_get _ _ _ G1). cbn [bind]. rewrite (fmt1_misfills _ _ _ _ _ T E _ G1). reflexivity.
  - apply block_wrong. unfold inner_render. rewrite EKI, EK. unfold quote_inner. cbv zeta. fold s. pose proof T as G1; unfold template_set in G1.
    assert (BX : exists bx, the_box r = Ok bx).
    { assert (IB : is_block (rc_kind cl) = true) by now rewrite EK. clear -HI IB CB. unfold instantiate in HI. cbv zeta in HI. apply bind_Ok in HI as (s1 & _ & HI). apply bind_Ok in HI as (s3 & _ & HI). rewrite IB in HI.
      apply bind_Ok in HI as (bv & _ & HI). apply bind_Ok in HI as (b & _ & HI). apply bind_Ok in HI as (bx & HB & HI). apply ok_inj in HI. subst r. unfold the_box. cbn [i_box]. unfold generate_box in HB. rewrite CB in HB.
      apply bind_Ok in HB as (m & _ & HB). apply bind_Ok in HB as (pd & _ & HB). apply bind_Ok in HB as (lt & _ & HB). apply ok_inj in HB. subst bx. eauto. }
    destruct BX as (bx & ->). cbn [bind]. rewrite (sattr_get _ _ _ G1). cbn [bind].
    rewrite (mapM_wrong (fmt1 (VStr t)) _ _ _ _ ltac:(intros c0 y0 E; exists y0; exact (fmt1_fills _ _ _ _ _ T E _ G1)) ltac:(intros c0 e0 E; exact (fmt1_misfills _ _ _ _ _ T E _ G1)) M). reflexivity.
  - assert (IB : is_block (rc_kind cl) = true) by (rewrite EK; destruct K as [->|[->| ->]]; reflexivity). destruct (block_box _ _ _ _ _ _ _ IB CB HI W) as (lt & L1 & _ & L3).
    assert (L3' : template_of_val (dget (lit "line_template") (i_settings r)) = Ok lt) by (rewrite EK in L3; destruct K as [->|[->| ->]]; exact L3). pose proof (label_box _ _ _ T L3') as HT.
    assert (HH : item_inner r content = Err ex).
    { unfold item_inner. cbv zeta. fold s. destruct SW as (v4 & G4 & T4), (just_read _ _ J) as (v2 & G2 & JN). rewrite (sattr_get _ _ _ G2). cbn [bind]. rewrite JN. cbn [bind]. rewrite (sattr_get _ _ _ G4). cbn [bind]. rewrite (wrapper_read _ _ WR). cbn [bind].
      apply SetFacts.justify_unset in M. unfold the_box. rewrite L1. cbn [bind]. destruct x as [m pd bo]. cbn [dr_margin dr_padding dr_border] in *. rewrite text_width, HT, T4, cased_eq, M. reflexivity. }
    assert (BB : block_render d r content = Err ex) by (apply block_wrong; unfold inner_render; rewrite EKI, EK; destruct K as [->|[->| ->]]; exact HH). destruct K as [->|[->| ->]]; exact BB.
  - assert (IB : is_block (rc_kind cl) = true) by (rewrite EK; destruct K as [->|[->| ->]]; reflexivity). destruct (block_box _ _ _ _ _ _ _ IB CB HI W) as (lt & L1 & _ & L3).
    assert (L3' : template_of_val (dget (lit "line_template") (i_settings r)) = Ok lt) by (rewrite EK in L3; destruct K as [->|[->| ->]]; exact L3). pose proof (label_box _ _ _ T L3') as HT. pose proof T as G1; unfold template_set in G1.
    assert (HH : item_inner r content = Err ex).
    { unfold item_inner. cbv zeta. fold s. destruct SW as (v4 & G4 & T4), (just_read _ _ J) as (v2 & G2 & JN). rewrite (sattr_get _ _ _ G2). cbn [bind]. rewrite JN. cbn [bind]. rewrite (sattr_get _ _ _ G4). cbn [bind]. rewrite (wrapper_read _ _ WR). cbn [bind].
      apply SetFacts.justify_set in M. unfold the_box. rewrite L1. cbn [bind]. destruct x as [m pd bo]. cbn [dr_margin dr_padding dr_border] in *. rewrite text_width, HT, T4, cased_eq, M. cbn [bind]. rewrite (sattr_get _ _ _ G1). cbn [bind]. rewrite SP.
      rewrite (fmt1_misfills _ _ _ _ _ T M2 _ G1). reflexivity. }
    assert (BB : block_render d r content = Err ex) by (apply block_wrong; unfold inner_render; rewrite EKI, EK; destruct K as [->|[->| ->]]; exact HH). destruct K as [->|[->| ->]]; exact BB.
  - destruct K as [->| ->].
    + unfold extlink_render. assert (EI : c_link (i_ctx r) <> None -> extlink_inner r content = Err EKey).
      { intros NE. unfold extlink_inner. cbv zeta. unfold ctx_link, ctx_extra. destruct (c_link (i_ctx r)) eqn:E; [|congruence]. cbn [bind]. destruct LE as [LE|LE]; [congruence|]. now rewrite EE, LE. }
      unfold ctx_link at 1. destruct (c_link (i_ctx r)) as [lc|] eqn:E; [|reflexivity]. cbn [bind]. specialize (EI ltac:(discriminate)). destruct (seqb (lc_format lc) (lit "gophermap")); [now rewrite EI|].
      apply block_wrong. unfold inner_render. rewrite EKI, EK. exact EI.
    + apply block_wrong. unfold inner_render. rewrite EKI, EK. unfold extimage_inner. cbv zeta. unfold ctx_link, ctx_extra. rewrite EL, EE. destruct LE as [->| ->]; [reflexivity|]. destruct l; reflexivity.
  - assert (NGF : seqb (lc_format l') (lit "gophermap") = false) by (destruct (seqb_spec (lc_format l') (lit "gophermap")); congruence).
    unfold extlink_render. unfold ctx_link at 1. rewrite EL, LS. cbn [bind]. rewrite NGF. apply block_wrong. unfold inner_render. rewrite EKI, EK. destruct LT as (rest & V). unfold int_set in MX.
    unfold extlink_inner. cbv zeta. fold s. unfold ctx_link, ctx_extra. rewrite EL, EE, LS, ES. cbn [bind].
    rewrite (sattr_get _ _ _ MX). cbn [bind]. change (want_int (VInt m)) with (Ok m). cbn [bind]. rewrite NGF, truncate_cut by auto.
    rewrite (sattr_get _ _ _ V). cbn [bind val_index nth_error]. rewrite (title_read r e') by congruence. unfold listing_fields in M.
    destruct (title_of e'); cbn [bind want_str]; now apply FormatMain.format_err.
  - unfold extlink_render. unfold ctx_link at 1. rewrite EL, LS. cbn [bind]. rewrite NG, seqb_refl. unfold int_set in MX. pose proof T as G; unfold template_set in G.
    unfold extlink_inner. cbv zeta. fold s. unfold ctx_link, ctx_extra. rewrite EL, EE, LS, ES. cbn [bind].
    rewrite (sattr_get _ _ _ MX). cbn [bind]. change (want_int (VInt m)) with (Ok m). cbn [bind]. rewrite NG, seqb_refl, truncate_cut by auto.
    unfold gophermap_line. rewrite (sattr_get _ _ _ G). cbn [bind want_str].
    match goal with |- context [format ?a ?b ?k] => replace (format a b k) with (@Err str ex) by (symmetry; apply FormatMain.format_err; exact M) end. reflexivity.
  - apply block_wrong. unfold inner_render. rewrite EKI, EK. destruct LT as (rest & V). unfold int_set in MX. pose proof T as G; unfold template_set in G.
    unfold extimage_inner. cbv zeta. fold s. rewrite image_title_read. unfold ctx_link, ctx_extra. rewrite EL, EE, LS, ES. cbn [bind].
    rewrite (sattr_get _ _ _ MX). cbn [bind]. change (want_int (VInt m)) with (Ok m). cbn [bind]. rewrite truncate_cut by auto. cbv zeta in M. rewrite ES in M. destruct (seqb (lc_format l') (lit "gophermap")).
    + unfold gophermap_line. rewrite (sattr_get _ _ _ G). cbn [bind want_str]. now apply FormatMain.format_err.
    + rewrite (sattr_get _ _ _ V). cbn [bind val_index nth_error]. rewrite Z.gtb_ltb. unfold listing_fields in M. destruct (m <? len (image_title (Some e'))); cbn [bind want_str]; now apply FormatMain.format_err.
  - unfold own_render. rewrite (view_read d r o n tg a page); try congruence. rewrite (boxless d cl i c r); [|now rewrite EK|auto]. rewrite EL, EE. exact M.
  - apply block_wrong. unfold inner_render. rewrite EKI, EK. unfold own_render. rewrite (view_read d r o n tg a page); try congruence.
    assert (B : is_block (rc_kind cl) = true) by now rewrite EK.
    destruct (block_box _ _ _ _ _ _ _ B CB HI W) as (lt & L1 & _ & L3). rewrite EK in L3. cbn [has_line_template] in L3. apply ok_inj in L3. subst lt.
    rewrite L1, EL, EE. exact M.
Qed.
Lemma unsettled_inst : forall d cl i c n tg index ex,
  node_at d i = Some n -> n_tag n = Some tg -> n_parent n <> PNone -> nat_index i (children_of d (n_parent n)) = Some index ->
  unsettled cl tg index ex -> instantiate d cl i c = Err ex.
Proof.
  intros d cl i c n tg index ex N T P X H. unfold instantiate, unsettled in *. cbv zeta. destruct (rc_kind cl); try contradiction.
  - cbn [bind]. unfold md_template. rewrite N, T. destruct H as [[L ->]|(c0 & m & rest & -> & D & ->)].
    + destruct tg as [|c0 [|c1 rest]]; [reflexivity|reflexivity|cbn in L; lia].
    + cbn [nth_error]. destruct (uni_decimal m) as [v|] eqn:E; [|reflexivity]. apply digit_read in E. elim (D v E).
  - destruct H as (t & st & sp & L1 & L2 & L3 & L4). unfold int_set, template_set in *.
    rewrite (sattr_get _ _ _ L2), (sattr_get _ _ _ L3). cbn [bind]. change (want_int (VInt st)) with (Ok st). change (want_int (VInt sp)) with (Ok sp). cbn [bind].
    unfold ordinal. rewrite N. destruct (n_parent n) eqn:EP; [congruence| |]; rewrite X; cbn [bind]; rewrite (sattr_get _ _ _ L1); cbn [bind want_str];
    rewrite Z.add_comm, (proj2 (FormatMain.format_err _ _ _ _) L4); reflexivity.
Qed.

Section C.
Variables (g : cfg) (s : pstate) (F : list tree) (sg : asgs).
Hypothesis RU : good g s.
Hypothesis DOC : document (p_dom s) F.
Hypothesis PRE : flat_map preorder F = seq 0 (length (d_nodes (p_dom s))).
Hypothesis BU : built (p_dom s) g.
Local Notation d := (p_dom s).
Hypothesis AS : assign_all g d (p_asg s) (seq 0 (length (d_nodes d))) = Ok sg.
Hypothesis FA : p_asg s = [].
Local Notation draw listing j bx := (render_node (render_fuel d) d sg listing j bx).

Lemma main_none : forall b c i tg a kids up, at_site d F (Spot b (Tag i tg a kids) c :: up) -> unstyled g (Spot b (Tag i tg a kids) c :: up) -> a_rend (asg_get i sg) = None.
Proof.
  intros b c i tg a kids up AT [S1 S2]. pose proof (here_assigned g s F sg AS FA b c i tg a kids up AT) as HA. destruct (here_node s F b c i tg a kids up AT) as (n & N & NT & _).
  destruct (got d F (go_wf _ _ RU) b (Tag i tg a kids) c up eq_refl AT (g_rules g) (bu_rules _ _ BU i n N) (bu_rules_ok _ _ BU)) as (r & R & Q).
  cbn [tid] in R. unfold assign_one, get_renderer in HA. rewrite R, N, NT in HA. cbn [bind asg_get] in HA.
  destruct r as [[cl' st]|]; [destruct Q as (_ & Q & _); elim (wins_not_silent _ _ _ _ _ Q S1)|].
  assert (E : a_rend (asg_get i sg) = a_rend (assign_main (g_default g) asg0)).
  { destruct (is_link tg); [|injection HA as <-; auto]. destruct (get_ext_renderer g d i) as [e|]; [|discriminate]. cbn [bind] in HA. injection HA as <-. destruct e; auto. }
  rewrite E. destruct (g_default g); exact S2.
Qed.
Lemma link_none : forall b c i tg a kids up, at_site d F (Spot b (Tag i tg a kids) c :: up) -> forall ex, is_link tg = true -> unlisted g (Spot b (Tag i tg a kids) c :: up) ex ->
  (match a_lsettings (asg_get i sg) with None => Err EAttr | Some _ => match a_lrend (asg_get i sg) with Some c => Ok c | None => Err EType end end) = Err ex.
Proof.
  intros b c i tg a kids up AT ex L [S1 S2]. pose proof (here_assigned g s F sg AS FA b c i tg a kids up AT) as HA. destruct (here_node s F b c i tg a kids up AT) as (n & N & NT & _).
  destruct (got d F (go_wf _ _ RU) b (Tag i tg a kids) c up eq_refl AT (g_ext_rules g) (bu_ext _ _ BU i n tg N NT L) (bu_ext_ok _ _ BU)) as (r & R & Q).
  cbn [tid] in R. unfold assign_one, get_ext_renderer in HA. rewrite R, N, NT, L in HA. destruct (get_renderer g d i) as [m|]; [|discriminate]. cbn [bind asg_get] in HA.
  destruct r as [[cl' st]|]; [destruct Q as (_ & Q & _); elim (wins_not_silent _ _ _ _ _ Q S1)|].
  destruct (g_ext_a g) as [[c0|[c0|] s0]|]; try contradiction; subst ex; cbn [bind] in HA; injection HA as HA; rewrite <- HA; cbn [assign_link a_lrend a_lsettings]; [|reflexivity].
  destruct m; reflexivity.
Qed.
Lemma mapM_stops : forall A B (f : A -> res B) l x r outs e, mapM f l = Ok outs -> f x = Err e -> mapM f (l ++ x :: r) = Err e.
Proof.
  intros A B f l x r. induction l as [|y l IH]; intros outs e H E; cbn [mapM app] in *; [now rewrite E|].
  destruct (f y); [|discriminate]. cbn [bind] in *. destruct (mapM f l); [|discriminate]. now rewrite (IH _ _ eq_refl E).
Qed.
Lemma shown_list : forall listing bx L outs, Forall (at_site d F) L -> (forall z, In z L -> z <> []) ->
  Forall2 (fun y o => shows g F listing y bx o) L outs -> mapM (fun j => draw listing j bx) (map here_id L) = Ok outs.
Proof. intros. eapply sites_drawn; eauto. Qed.
(** One place breaks after the others are shown. *)
Lemma list_stops : forall listing bx L ys y rest parts ex, L = ys ++ y :: rest -> Forall (at_site d F) L -> (forall z, In z L -> z <> []) ->
  Forall2 (fun y o => shows g F listing y bx o) ys parts -> draw listing (here_id y) bx = Err ex -> mapM (fun j => draw listing j bx) (map here_id L) = Err ex.
Proof.
  intros listing bx L ys y rest parts ex -> H N Q E. rewrite map_app. cbn [map]. eapply mapM_stops; [|exact E]. apply shown_list; [| |exact Q].
  - apply Forall_app in H. apply H.
  - intros z J. apply N. apply in_or_app. now left.
Qed.

Lemma broke_all : forall listing z bx ex, breaks g F listing z bx ex -> at_site d F z -> draw listing (here_id z) bx = Err ex.
Proof.
  intros listing z bx ex BR. induction BR; intros AT; subst z; cbn [here_id sp_here tid];
  destruct (here_node s F before after i t a kids up AT) as (n & N1 & N2 & N3 & N4 & N5 & N6 & N7 & N8);
  pose proof (lo_info _ _ (go_links _ _ RU) i n N1) as LI; unfold link_info in LI; rewrite N2 in LI;
  pose proof (lo_pending _ _ (go_links _ _ RU) i n N1) as LP;
  (assert (PN : n_parent n <> PNone) by (rewrite N4; destruct up; discriminate));
  (assert (IX : nat_index i (children_of d (n_parent n)) = Some (length before)) by (rewrite N4; eapply here_index; eauto));
  pose proof (inner_at d F _ AT) as IA;
  (assert (IN : forall z, In z (inner_spots (Spot before (Tag i t a kids) after :: up)) -> z <> [])
    by (intros z J; unfold inner_spots in J; cbn [sp_here kids_of] in J; apply spots_in in J as (b' & t' & c' & -> & _); discriminate));
  (assert (CH : n_children n = map here_id (inner_spots (Spot before (Tag i t a kids) after :: up)))
    by (rewrite N5; symmetry; apply (spots_ids (Spot before (Tag i t a kids) after :: up) kids [])));
  (assert (KL : n_pending n = map here_id (filter (listed_at g "after_block") (inner_spots (Spot before (Tag i t a kids) after :: up))))
    by (rewrite LP, CH; apply filter_ids; intros z J; apply (placed_listed g s F); [eapply Forall_forall in IA; [exact IA|exact J]|auto]));
  (assert (FA' : Forall (at_site d F) (filter (listed_at g "after_block") (inner_spots (Spot before (Tag i t a kids) after :: up))))
    by (apply Forall_forall; intros z J; apply filter_In in J as [J _]; eapply Forall_forall in IA; [exact IA|exact J]));
  (assert (FN : forall z, In z (filter (listed_at g "after_block") (inner_spots (Spot before (Tag i t a kids) after :: up))) -> z <> [])
    by (intros z J; apply filter_In in J as [J _]; auto));
  change (is_link t) with (is_link_tag t) in LI;
  (assert (SK : para_skip d i = only_code kids) by (eapply skip_code; [split; [exact N1|exact N2]|exact N5|exact N7]));
  pose proof (here_pre s F before after i t a kids up AT) as PP;
  rewrite (rendered_step d _ _ _ _ (go_down _ _ RU)); unfold level_render; rewrite N1, N3, N2; cbv zeta.
  all: assert (PL : forall lk ref, lk_ctx lk = link_context g ref -> is_link_tag t = true -> seqb (if seqb t (lit "img") then lc_image_placement (lk_ctx lk) else lc_link_placement (lk_ctx lk)) (lit "inline") = shown_inline g t).
  all: try (intros lk ref -> L; unfold shown_inline; rewrite L; cbn [andb]; unfold link_context, placement; cbn [lc_image_placement lc_link_placement]; unfold is_link_tag, is_a, is_img in L;
    destruct (seqb_spec t (lit "a")) as [->|]; [reflexivity|]; destruct (seqb_spec t (lit "img")); [reflexivity|discriminate]).
  all: assert (AL : shown_inline g t = false -> match n_link n with Some lk => false || seqb (if seqb t (lit "img") then lc_image_placement (lk_ctx lk) else lc_link_placement (lk_ctx lk)) (lit "inline") | None => false end = false).
  all: try (intros NI; destruct (is_link_tag t) eqn:L; [|now rewrite LI]; destruct LI as (lk & ref & L1 & L2 & _); rewrite L1; cbn [orb]; now rewrite (PL lk ref L2 eq_refl)).
  all: assert (TGT : forall lk, parse_href (lk_href lk) (g_host g) (g_port g) = Ok (lk_gopher lk) -> n_link n = Some lk -> is_link_tag t = true ->
    LinkExtra (lk_href lk) (lk_title lk) (lk_gopher lk) = link_details g t a).
  all: try (intros lk PH NL L; unfold link_details, is_img; unfold link_data in N6; unfold is_link_tag, is_a, is_img in L; destruct (seqb_spec t (lit "a")) as [->|NA];
    [destruct N6 as (lk' & X1 & X2 & X3); assert (lk' = lk) by congruence; subst lk'; change (seqb (lit "a") (lit "img")) with false; cbv iota; unfold target; rewrite <- X2, <- X3, PH; reflexivity|];
    destruct (seqb_spec t (lit "img")) as [->|NI]; [|discriminate];
    destruct N6 as (lk' & X1 & X2 & X3); assert (lk' = lk) by congruence; subst lk'; unfold target; rewrite <- X2, <- X3, PH; reflexivity).
  all: assert (NUM : forall lk ref, n_link n = Some lk -> lk_ctx lk = link_context g ref -> lk_ctx lk = link_context g (reference g F i)).
  all: try (intros lk ref L1 L2; rewrite L2; unfold link_context; f_equal; transitivity (lc_reference (lk_ctx lk)); [now rewrite L2|]; eapply (numbers_all g s F (go_refs _ _ RU) DOC PRE i n lk); auto).
  - (* no renderer *)
    pose proof (main_none before after i t a kids up AT H) as M1. destruct (shown_inline g t) eqn:SI.
    + assert (L : is_link_tag t = true) by (unfold shown_inline in SI; apply andb_prop in SI; apply SI).
      rewrite L in LI. destruct LI as (lk & ref & L1 & L2 & L3). rewrite L1, (PL lk ref L2 L). cbn [orb]. rewrite (PL lk ref L2 L), M1. reflexivity.
    + rewrite (AL eq_refl), M1. reflexivity.
  - (* cannot be set up *)
    match goal with H : styled _ _ _ cl over |- _ => destruct (main_class g s F sg RU BU AS FA before after i t a kids up AT cl over H) as (M1 & _ & _) end.
    destruct (shown_inline g t) eqn:SI.
    + assert (L : is_link_tag t = true) by (unfold shown_inline in SI; apply andb_prop in SI; apply SI).
      rewrite L in LI. destruct LI as (lk & ref & L1 & L2 & L3). rewrite L1, (PL lk ref L2 L). cbn [orb]. rewrite (PL lk ref L2 L), M1. cbn [bind].
      erewrite unsettled_inst by eauto. reflexivity.
    + rewrite (AL eq_refl), M1. cbn [bind]. erewrite unsettled_inst by eauto. reflexivity.
  - (* inside *)
    match goal with H : styled _ _ _ cl over |- _ => destruct (main_class g s F sg RU BU AS FA before after i t a kids up AT cl over H) as (M1 & M2 & M3) end.
    assert (AY : draw false (here_id y) inner = Err ex) by (apply IHBR; eapply Forall_forall in IA; [exact IA|rewrite H2; apply in_or_app; right; now left]).
    assert (K : mapM (fun j => draw false j inner) (n_children n) = Err ex) by (rewrite CH; eapply list_stops; eauto).
    destruct (shown_inline g t) eqn:SI.
    + assert (L : is_link_tag t = true) by (unfold shown_inline in SI; apply andb_prop in SI; apply SI).
      rewrite L in LI. destruct LI as (lk & ref & L1 & L2 & L3). rewrite L1, (PL lk ref L2 L). cbn [orb]. rewrite (PL lk ref L2 L), M1. cbn [bind].
      set (cx := Ctx None (Some page) _ _).
      destruct (settled_inst d cl i cx n t (length before) [] s0 page inner N1 N2 PN IX eq_refl ltac:(discriminate) ltac:(reflexivity) H0 H1) as (r & R1 & R2 & R3).
      apply bind_ok in R3. rewrite R1. cbn [bind]. rewrite R3. cbn [bind]. rewrite K. reflexivity.
    + rewrite (AL eq_refl), M1. cbn [bind]. set (cx := Ctx (a_settings (asg_get i sg)) (Some page) _ None).
      destruct (settled_inst d cl i cx n t (length before) over s0 page inner N1 N2 PN IX eq_refl M2 M3 H0 H1) as (r & R1 & R2 & R3).
      apply bind_ok in R3. rewrite R1. cbn [bind]. rewrite R3. cbn [bind]. rewrite K. reflexivity.
  - (* in the list of a block *)
    match goal with H : styled _ _ _ cl over |- _ => destruct (main_class g s F sg RU BU AS FA before after i t a kids up AT cl over H) as (M1 & M2 & M3) end.
    assert (AY : draw true (here_id y) inner = Err ex) by (apply IHBR; eapply Forall_forall in FA'; [exact FA'|rewrite H4; apply in_or_app; right; now left]).
    rewrite (AL H), M1. cbn [bind]. set (cx := Ctx (a_settings (asg_get i sg)) (Some page) _ None).
    destruct (settled_inst d cl i cx n t (length before) over s0 page inner N1 N2 PN IX eq_refl M2 M3 H1 H2) as (r & R1 & R2 & R3).
    apply bind_ok in R3. rewrite R1. cbn [bind]. rewrite R3. cbn [bind]. rewrite CH. rewrite (shown_list false inner _ parts IA IN H3). cbn [bind].
    assert (K : mapM (fun j => draw true j inner) (n_pending n) = Err ex) by (rewrite KL; eapply list_stops; eauto). rewrite K. reflexivity.
  - (* here *)
    match goal with H : styled _ _ _ cl over |- _ => destruct (main_class g s F sg RU BU AS FA before after i t a kids up AT cl over H) as (M1 & M2 & M3) end.
    rewrite (AL H), M1. cbn [bind]. set (cx := Ctx (a_settings (asg_get i sg)) (Some page) _ None).
    destruct (settled_inst d cl i cx n t (length before) over s0 page inner N1 N2 PN IX eq_refl M2 M3 H1 H2) as (r & R1 & R2 & R3).
    apply bind_ok in R3. rewrite R1. cbn [bind]. rewrite R3. cbn [bind]. rewrite CH. rewrite (shown_list false inner _ parts IA IN H3). cbn [bind].
    rewrite KL. rewrite (shown_list true inner _ entries FA' FN H4). cbn [bind].
    apply (x_trips _ _ R2) in H5. eapply rendered_trip with (c := cx) (l := c_link cx) (e := None); [exact N1|exact N2|exact N8|reflexivity|reflexivity|reflexivity|exact R1|exact SK|exact PP|].
    match goal with H : trips _ _ ?k0 ?p0 ?s1 ?q ?l ?e ?ct _ _ |- trips _ _ _ _ _ _ ?l' _ ?ct' _ _ => replace l' with l; [replace ct' with ct; [exact H|]|] end.
    + f_equal. f_equal. unfold links. destruct (filter (listed_at g "after_block") (inner_spots _)); reflexivity.
    + unfold cx. cbn [c_link]. destruct (is_link_tag t); [|now rewrite LI]. destruct LI as (lk & ref & L1 & L2 & _). rewrite L1. now rewrite (NUM lk ref L1 L2).
  - (* with its target *)
    match goal with H : styled _ _ _ cl over |- _ => destruct (main_class g s F sg RU BU AS FA before after i t a kids up AT cl over H) as (M1 & _ & _) end.
    assert (L : is_link_tag t = true) by (unfold shown_inline in H; apply andb_prop in H; apply H).
    rewrite L in LI. destruct LI as (lk & ref & L1 & L2 & L3). rewrite L1, (PL lk ref L2 L), H. cbn [orb]. rewrite (PL lk ref L2 L), H, M1. cbn [bind].
    set (cx := Ctx None (Some page) _ _).
    destruct (settled_inst d cl i cx n t (length before) [] s0 page inner N1 N2 PN IX eq_refl ltac:(discriminate) ltac:(reflexivity) H1 H2) as (r & R1 & R2 & R3).
    apply bind_ok in R3. rewrite R1. cbn [bind]. rewrite R3. cbn [bind]. rewrite CH, (shown_list false inner _ parts IA IN H3). cbn [bind].
    apply (x_trips _ _ R2) in H4. eapply rendered_trip with (c := cx) (l := c_link cx) (e := c_extra cx); [exact N1|exact N2|exact N8|reflexivity|reflexivity|reflexivity|exact R1|exact SK|exact PP|].
    unfold cx. cbn [c_link c_extra]. rewrite (TGT lk L3 L1 L), (NUM lk ref L1 L2). assumption.
  - (* a listed link without renderer *)
    pose proof (link_none before after i t a kids up AT ex H H1) as M1.
    rewrite H in LI. destruct LI as (lk & ref & L1 & L2 & L3). rewrite L1. cbn [orb]. rewrite (PL lk ref L2 H), H0, M1. reflexivity.
  - (* that cannot be set up *)
    destruct (link_class g s F sg RU BU AS FA before after i t a kids up AT cl H H1) as (M1 & M2).
    rewrite H in LI. destruct LI as (lk & ref & L1 & L2 & L3). rewrite L1. cbn [orb]. rewrite (PL lk ref L2 H), H0, M1. destruct (a_lsettings (asg_get i sg)); [|congruence]. cbn [bind].
    erewrite unsettled_inst by eauto. reflexivity.
  - (* inside a listed link *)
    destruct (link_class g s F sg RU BU AS FA before after i t a kids up AT cl H H1) as (M1 & M2).
    assert (AY : draw false (here_id y) inner = Err ex) by (apply IHBR; eapply Forall_forall in IA; [exact IA|rewrite H4; apply in_or_app; right; now left]).
    assert (K : mapM (fun j => draw false j inner) (n_children n) = Err ex) by (rewrite CH; eapply list_stops; eauto).
    rewrite H in LI. destruct LI as (lk & ref & L1 & L2 & L3). rewrite L1. cbn [orb]. rewrite (PL lk ref L2 H), H0, M1. destruct (a_lsettings (asg_get i sg)); [|congruence]. cbn [bind].
    set (cx := Ctx None (Some page) _ _).
    destruct (settled_inst d cl i cx n t (length before) [] s0 page inner N1 N2 PN IX eq_refl ltac:(discriminate) ltac:(reflexivity) H2 H3) as (r & R1 & R2 & R3).
    apply bind_ok in R3. rewrite R1. cbn [bind]. rewrite R3. cbn [bind]. rewrite K. reflexivity.
  - (* a listed link *)
    destruct (link_class g s F sg RU BU AS FA before after i t a kids up AT cl H H1) as (M1 & M2).
    rewrite H in LI. destruct LI as (lk & ref & L1 & L2 & L3). rewrite L1. cbn [orb]. rewrite (PL lk ref L2 H), H0, M1. destruct (a_lsettings (asg_get i sg)); [|congruence]. cbn [bind].
    set (cx := Ctx None (Some page) _ _).
    destruct (settled_inst d cl i cx n t (length before) [] s0 page inner N1 N2 PN IX eq_refl ltac:(discriminate) ltac:(reflexivity) H2 H3) as (r & R1 & R2 & R3).
    apply bind_ok in R3. rewrite R1. cbn [bind]. rewrite R3. cbn [bind]. rewrite CH, (shown_list false inner _ parts IA IN H4). cbn [bind].
    apply (x_trips _ _ R2) in H5. eapply rendered_trip with (c := cx) (l := c_link cx) (e := c_extra cx); [exact N1|exact N2|exact N8|reflexivity|reflexivity|reflexivity|exact R1|exact SK|exact PP|].
    unfold cx. cbn [c_link c_extra]. rewrite (TGT lk L3 L1 H), (NUM lk ref L1 L2). assumption.
Qed.

Lemma close_breaks : forall ex, broken_page g F ex -> close g s = Err ex.
Proof.
  intros ex H. pose proof (roots_at s F DOC) as RA.
  assert (RN : forall z, In z (spots [] [] F) -> z <> []) by (intros z J; apply spots_in in J as (b & t & c & -> & _); discriminate).
  assert (RI : d_root d = map here_id (spots [] [] F)) by (rewrite (proj1 DOC); symmetry; apply (spots_ids [] F [])).
  unfold close. cbv zeta. rewrite AS. cbn [bind]. destruct H as [(ys & y & rest & parts & E & Q & B)|(ys & y & rest & parts & entries & GL & Q & E & Q2 & B)].
  - assert (K : mapM (fun i => draw false i (g_box g)) (d_root d) = Err ex).
    { rewrite RI. eapply list_stops; eauto. eapply broke_all; eauto. eapply Forall_forall in RA; [exact RA|]. rewrite E. apply in_or_app. right. now left. }
    rewrite K. reflexivity.
  - rewrite RI, (shown_list false (g_box g) _ parts RA RN Q). cbn [bind]. rewrite GL, seqb_refl.
    set (L := filter (listed_at g "footer") (all_places [] [] F)) in *.
    pose proof (all_places_at d F F [] [] RA) as PA.
    assert (LA : Forall (at_site d F) L) by (apply Forall_forall; intros z J; apply filter_In in J as [J _]; eapply Forall_forall in PA; [exact PA|exact J]).
    assert (LN : forall z, In z L -> z <> []) by (intros z J; apply filter_In in J as [J _]; eapply all_places_some; eauto).
    assert (FT : p_footer s = map here_id L).
    { rewrite (lo_footer _ _ (go_links _ _ RU)), <- PRE, <- (all_places_ids F [] []). apply filter_ids. intros z J. apply (placed_listed g s F).
      - eapply Forall_forall in PA; eauto.
      - eapply all_places_some; eauto. }
    assert (K : mapM (fun i => draw true i (g_box g)) (p_footer s) = Err ex).
    { rewrite FT. eapply list_stops; eauto. eapply broke_all; eauto. eapply Forall_forall in LA; [exact LA|]. rewrite E. apply in_or_app. right. now left. }
    destruct (p_footer s); [discriminate|]. rewrite K. reflexivity.
Qed.
End C.
End M.
Close Scope Z_scope.
