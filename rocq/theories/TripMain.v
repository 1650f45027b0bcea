(** Every element is shown or raises: the looks of StyleSpec and the exceptions
    of TripSpec cover all cases when settings have the right shape. *)
From Verif Require SetFacts SgrFacts FormatMain.
From Verif Require Import WrapFacts WrapLoop WrapWidth.
From Verif Require Import BaseFacts StrFacts SelFacts CssFacts TreeFacts HistoryFacts DomFacts LineFacts BoxFacts AnsiStyle RenderFacts ElemFacts ElemText LinkFacts DocFacts SettingsFacts PageBase PageText PageFacts PageMain.
From Verif Require Import DressFacts DressProps GoodFacts StyleMain ShapeBack ShapeMain.
From Verif Require Export TripFacts.
Open Scope Z_scope.

Section M.
Context `{U : Uni}.

Lemma dressed_some : forall page x ls, exists out, dressed page x ls out.
Proof. intros page x ls. unfold dressed. cbv zeta. eexists. eexists. split; [apply prefixed_iff; reflexivity|reflexivity]. Qed.
Lemma heading_some : forall h w c text, fills (hs_template h) (spread_by (hs_spread h) (hs_gap h) (cased (hs_caps h) c)) text -> exists out, heading h w c out.
Proof.
  intros h w c text H. unfold heading. destruct (hs_underline h) as [[full u]|].
  - eexists _, text. split; auto. eexists _, _. split; [apply placed_center|]. split; [apply placed_center|reflexivity].
  - eexists _, text. split; auto. apply placed_center.
Qed.
Lemma has_heading : forall k s, k = KHeader \/ k = KMdHeader -> shaped k s -> exists h, heading_set s h.
Proof.
  intros k s K SH. assert (ND : forall key, In key (needed KHeader) -> In key (needed k)) by (intros key; destruct K as [-> | ->]; auto).
  destruct (has_template _ _ SH "template"%string) as (t & T); [cbn; tauto|apply ND; cbn; tauto|].
  destruct (has_truth _ _ SH "capitalized"%string) as (caps & C); [apply ND; cbn; tauto|].
  destruct (has_number _ _ SH "spread"%string) as (n & N); [cbn; tauto|apply ND; cbn; tauto|].
  destruct (has_text _ _ SH "spread_char"%string) as (gp & G); [cbn; tauto|apply ND; cbn; tauto|].
  destruct (has_truth _ _ SH "centered"%string) as (ce & CE); [apply ND; cbn; tauto|].
  destruct (has_truth _ _ SH "underlined"%string) as (un & UN); [apply ND; cbn; tauto|].
  destruct (has_truth _ _ SH "underline_full"%string) as (uf & UF); [apply ND; cbn; tauto|].
  destruct (has_text _ _ SH "underline_char"%string) as (uc & UC); [cbn; tauto|apply ND; cbn; tauto|].
  exists (HeadingStyle t caps n gp ce (if un then Some (uf, uc) else None)). 
  unfold heading_set. cbn [hs_template hs_caps hs_spread hs_gap hs_centre hs_underline]. repeat (split; auto). destruct un; auto.
Qed.

Ltac ndd := cbn; tauto.
(** ** Elements *)
Lemma picture_or : forall k s, shaped k s -> forall tg a kids pre page l e content,
  (exists out, picture tg a kids pre s page l e content k out) \/ exists ex, trips tg a kids pre s page l e content k ex.
Proof.
  intros k s SH tg a kids pre page l e content.
  assert (IT : In k [KItem; KOrdered; KDef] -> (exists out, picture tg a kids pre s page l e content k out) \/ exists ex, trips tg a kids pre s page l e content k ex).
  { intros K. assert (K' : k = KItem \/ k = KOrdered \/ k = KDef) by (cbn in K; intuition congruence). clear K.
    assert (ND : forall key, In key (needed KItem) -> In key (needed k)) by (intros key; destruct K' as [->|[->| ->]]; auto).
    destruct (has_wears _ _ SH) as (x & W & _); [apply ND; ndd|]. destruct (has_template _ _ SH "line_template"%string) as (t & T); [ndd|apply ND; ndd|].
    destruct (has_just _ _ SH) as (j & J); [apply ND; ndd|]. destruct (has_wrapper _ _ SH) as (cfg & C); [apply ND; ndd|apply ND; ndd|].
    destruct (has_truth _ _ SH "capitalized"%string) as (caps & CA); [apply ND; ndd|].
    destruct (justify (lit j) cfg (text_room page x (label_columns t)) (cased caps content)) as [y|ex] eqn:EJ; [apply SetFacts.justify_set in EJ|apply SetFacts.justify_unset in EJ; right; exists ex; eapply tr_item; eauto].
    destruct (split_on 10%N y) as [|f0 rest] eqn:ES; [now elim (split_on_not_nil 10%N y)|].
    destruct (fills_or t f0) as [(row & R)|(ex & R)]; [|right; exists ex; eapply tr_item_label; eauto].
    destruct (dressed_some page x (rows_of (row :: map (fun l => spaces (label_columns t) ++ l) rest))) as (out & D). left. exists out. eapply pi_item; eauto. }
  assert (HE : In k [KHeader; KMdHeader] -> (exists out, picture tg a kids pre s page l e content k out) \/ exists ex, trips tg a kids pre s page l e content k ex).
  { intros K. assert (K' : k = KHeader \/ k = KMdHeader) by (cbn in K; intuition congruence). clear K.
    destruct (has_wears _ _ SH) as (x & W & _); [destruct K' as [->| ->]; ndd|]. destruct (has_heading _ _ K' SH) as (h & H).
    destruct (fills_or (hs_template h) (spread_by (hs_spread h) (hs_gap h) (cased (hs_caps h) content))) as [(text & R)|(ex & R)]; [|right; exists ex; eapply tr_heading; eauto].
    destruct (heading_some h (heading_room page x) content text R) as (inner & HI). destruct (dressed_some page x (split_on 10%N inner)) as (out & D). left. exists out. eapply pi_heading; eauto. }
  destruct k; try (now apply IT; ndd); try (now apply HE; ndd); clear IT HE.
  - left. eexists. apply pi_plain.
  - left. eexists. apply pi_nothing.
  - destruct (has_template _ _ SH "template"%string) as (t & T); [ndd|ndd|]. destruct (has_truth _ _ SH "capitalized"%string) as (caps & CA); [ndd|].
    destruct (fills_or t (cased caps content)) as [(out & R)|(ex & R)]; [left; exists out; eapply pi_inline; eauto|right; exists ex; eapply tr_inline; eauto].
  - (* code *)
    destruct (has_template _ _ SH "block_template"%string) as (bt & BT); [ndd|ndd|]. destruct (has_template _ _ SH "inline_template"%string) as (it & IT); [ndd|ndd|].
    destruct pre eqn:EP; [left; eexists; now apply pi_pre_code|].
    destruct (fills_or (if has_char 10%N content then bt else it) content) as [(out & R)|(ex & R)]; [left; exists out; eapply pi_code; eauto|right; exists ex; eapply tr_code; eauto].
  - (* links *)
    destruct (has_template _ _ SH "template"%string) as (t & T); [ndd|ndd|]. destruct (has_truth _ _ SH "capitalized"%string) as (caps & CA); [ndd|].
    destruct (has_templates _ _ SH) as (v & V & TF); [ndd|]. cbn [templates_for] in TF. destruct TF as (tp & av & bv & -> & V1 & TW & V2 & (rf & ->)).
    destruct (has_two _ TW) as (plain & titled & rest & ->).
    assert (LT : link_templates s plain titled rf) by (exists tp, rest; repeat (split; auto)).
    destruct l as [l'|]; [|right; eexists; eapply tr_link_not; eauto].
    destruct (fills_or t (cased caps content)) as [(x & R)|(ex & R)]; [|right; exists ex; eapply tr_link_text; eauto].
    destruct (seqb (lc_link_placement l') (lit "inline")) eqn:EI.
    + destruct e as [e'|]; [|right; eexists; eapply tr_link_target; eauto; now destruct (seqb_spec (lc_link_placement l') (lit "inline"))].
      destruct (title_of e') as [ti|] eqn:ET.
      * destruct (FormatMain.formats_or [] [(lit "content", FStr (cased caps x)); (lit "href", DressSpec.shown (le_href e')); (lit "title", FStr ti)] titled) as [(out & H)|(ex & H)].
        -- left. exists out. eapply pi_link; eauto. rewrite EI. exists e'. split; auto. now rewrite ET.
        -- right. exists ex. eapply tr_link; eauto. rewrite EI. exists e'. split; auto. now rewrite ET.
      * destruct (FormatMain.formats_or [] [(lit "content", FStr (cased caps x)); (lit "href", DressSpec.shown (le_href e'))] plain) as [(out & H)|(ex & H)].
        -- left. exists out. eapply pi_link; eauto. rewrite EI. exists e'. split; auto. now rewrite ET.
        -- right. exists ex. eapply tr_link; eauto. rewrite EI. exists e'. split; auto. now rewrite ET.
    + destruct (FormatMain.formats_or [] [(lit "content", FStr (cased caps x)); (lit "link_reference", FInt (lc_reference l'))] rf) as [(out & H)|(ex & H)].
      * left. exists out. eapply pi_link; eauto. now rewrite EI.
      * right. exists ex. eapply tr_link; eauto. now rewrite EI.
  - (* images *)
    destruct (has_truth _ _ SH "capitalized"%string) as (caps & CA); [ndd|].
    destruct (has_templates _ _ SH) as (v & V & TF); [ndd|]. cbn [templates_for] in TF. destruct TF as (tp & av & bv & -> & V1 & (plain & ->) & V2 & (rf & ->)).
    assert (LT : image_templates s plain rf) by (exists tp; repeat (split; auto)).
    destruct l as [l'|]; [|right; eexists; eapply tr_image_not; eauto].
    destruct (seqb (lc_image_placement l') (lit "inline")) eqn:EI.
    + destruct e as [e'|]; [|right; eexists; eapply tr_image_target; eauto; now destruct (seqb_spec (lc_image_placement l') (lit "inline"))].
      destruct (FormatMain.formats_or [] [(lit "href", DressSpec.shown (le_href e')); (lit "title", FStr (image_title (Some e')))] plain) as [(out & H)|(ex & H)].
      * left. exists out. eapply pi_image; eauto. rewrite EI. eauto.
      * right. exists ex. eapply tr_image; eauto. rewrite EI. eauto.
    + destruct (FormatMain.formats_or [] [(lit "title", FStr (image_title e)); (lit "link_reference", FInt (lc_reference l'))] rf) as [(out & H)|(ex & H)].
      * left. exists out. eapply pi_image; eauto. now rewrite EI.
      * right. exists ex. eapply tr_image; eauto. now rewrite EI.
  - (* breaks *)
    destruct (has_template _ _ SH "template"%string) as (t & T); [ndd|ndd|]. destruct (has_truth _ _ SH "capitalized"%string) as (caps & CA); [ndd|].
    destruct (fills_or t nl) as [(x & R)|(ex & R)]; [|right; exists ex; eapply tr_break; eauto].
    destruct (fills_or t x) as [(out & R')|(ex & R')]; [left; exists out; eapply pi_break; eauto|right; exists ex; eapply tr_break_again; eauto].
  - (* terminal styles *)
    destruct (has_template _ _ SH "template"%string) as (t & T); [ndd|ndd|]. destruct (has_truth _ _ SH "capitalized"%string) as (caps & CA); [ndd|].
    destruct (fills_or t (cased caps content)) as [(x & R)|(ex & R)]; [|right; exists ex; eapply tr_ansi_text; eauto].
    destruct (ansi_render s x) as [out|ex] eqn:EA; [apply SgrFacts.ansi_iff in EA; left; exists out; eapply pi_ansi; eauto|apply SgrFacts.ansi_err in EA; right; exists ex; eapply tr_ansi; eauto].
  - (* blocks *)
    destruct (has_wears _ _ SH) as (x & W & _); [ndd|]. destruct (dressed_some page x (split_on 10%N content)) as (out & D). left. exists out. eapply pi_block; eauto.
  - (* paragraphs *)
    destruct (has_wears _ _ SH) as (x & W & _); [ndd|]. destruct (has_template _ _ SH "line_template"%string) as (t & T); [ndd|ndd|].
    destruct (has_just _ _ SH) as (j & J); [ndd|]. destruct (has_wrapper _ _ SH) as (cfg & C); [ndd|ndd|].
    destruct (has_truth _ _ SH "capitalized"%string) as (caps & CA); [ndd|]. destruct (has_truth _ _ SH "skip_for_code_or_pre"%string) as (skip & SK); [ndd|].
    destruct (skip && only_code kids) eqn:EK.
    { apply andb_prop in EK as [-> OC]. destruct (dressed_some page x (split_on 10%N content)) as (out & D). left. exists out. eapply pi_code_paragraph; eauto. }
    destruct (all_or (fun c y => SetSpec.set_text cfg (text_room page x (label_columns t)) (strip c) (lit j) y)
                     (fun c ex => SetSpec.unset cfg (text_room page x (label_columns t)) (strip c) (lit j) ex) (split_on 10%N (cased caps content))) as [(parts & P)|(ex & P)].
    { intros y _. destruct (justify (lit j) cfg (text_room page x (label_columns t)) (strip y)) as [y'|ex] eqn:EJ; [left; exists y'; now apply SetFacts.justify_set|right; exists ex; now apply SetFacts.justify_unset]. }
    2:{ right. exists ex. eapply tr_paragraph; eauto. }
    assert (LO : laid_out j cfg (text_room page x (label_columns t)) (cased caps content) (rows_of parts)) by (exists parts; auto).
    destruct (all_or (fills t) (misfills t) (rows_of parts)) as [(rows & R)|(ex & R)]; [intros; now apply fills_or| |right; exists ex; eapply tr_paragraph_label; eauto].
    destruct (dressed_some page x (rows_of rows)) as (out & D). left. exists out. eapply pi_paragraph; eauto.
  - (* pre *)
    destruct (has_wears _ _ SH) as (x & W & _); [ndd|]. destruct (has_template _ _ SH "line_template"%string) as (t & T); [ndd|ndd|].
    destruct (has_number _ _ SH "indent"%string) as (n & IN); [ndd|ndd|].
    destruct (all_or (fills t) (misfills t) (splitlines false content)) as [(rows & R)|(ex & R)]; [intros; now apply fills_or| |right; exists ex; eapply tr_pre; eauto].
    destruct (dressed_some page x (rows_of (map (fun y => spaces n ++ y) rows))) as (out & D). left. exists out. eapply pi_pre; eauto.
    clear - R. induction R; cbn [map]; constructor; eauto.
  - (* listed links *)
    destruct (has_wears _ _ SH) as (x & W & _); [ndd|]. destruct (has_max _ _ SH) as (m & MX & M0); [ndd|]. destruct (has_template _ _ SH "gophermap_template"%string) as (t & T); [ndd|ndd|].
    destruct (has_templates _ _ SH) as (v & V & TF); [ndd|]. cbn [templates_for] in TF. destruct (has_two _ TF) as (plain & titled & rest & ->).
    assert (LT : listing_templates s plain titled) by (exists rest; auto).
    destruct l as [l'|]; [|right; eexists; eapply tr_listed_not; auto]. destruct e as [e'|]; [|right; eexists; eapply tr_listed_not; auto].
    destruct (seqb_spec (lc_format l') (lit "gophermap")) as [EF|NF].
    + destruct (FormatMain.formats_or [] (menu_fields (match le_title e' with Some t => t | None => cut_to m content end) (lc_reference l') (le_gopher e')) t) as [(line & H)|(ex & H)].
      * left. eexists. eapply pi_menu_link; eauto.
      * right. exists ex. eapply tr_menu_link; eauto.
    + destruct (FormatMain.formats_or [] (listing_fields (cut_to m content) (lc_reference l') (le_href e') (title_of e')) (match title_of e' with Some _ => titled | None => plain end)) as [(inner & H)|(ex & H)].
      * destruct (dressed_some page x (split_on 10%N inner)) as (out & D). left. exists out. eapply pi_listed_link; eauto.
      * right. exists ex. eapply tr_listed_link; eauto.
  - (* listed images *)
    destruct (has_wears _ _ SH) as (x & W & _); [ndd|]. destruct (has_max _ _ SH) as (m & MX & M0); [ndd|]. destruct (has_template _ _ SH "gophermap_template"%string) as (t & T); [ndd|ndd|].
    destruct (has_templates _ _ SH) as (v & V & TF); [ndd|]. cbn [templates_for] in TF. destruct (has_two _ TF) as (plain & titled & rest & ->).
    assert (LT : listing_templates s plain titled) by (exists rest; auto).
    destruct l as [l'|]; [|right; eexists; eapply tr_listed_not; auto]. destruct e as [e'|]; [|right; eexists; eapply tr_listed_not; auto].
    set (title := image_title (Some e')).
    assert (OR : (exists inner, if seqb (lc_format l') (lit "gophermap") then formats [] (menu_fields (cut_to m title) (lc_reference l') (le_gopher e')) t inner
     else if m <? len title then formats [] (listing_fields (cut_to m title) (lc_reference l') (le_href e') (Some title)) titled inner
     else formats [] (listing_fields (cut_to m title) (lc_reference l') (le_href e') None) plain inner)
     \/ exists ex, if seqb (lc_format l') (lit "gophermap") then misformats [] (menu_fields (cut_to m title) (lc_reference l') (le_gopher e')) t ex
     else if m <? len title then misformats [] (listing_fields (cut_to m title) (lc_reference l') (le_href e') (Some title)) titled ex
     else misformats [] (listing_fields (cut_to m title) (lc_reference l') (le_href e') None) plain ex).
    { destruct (seqb (lc_format l') (lit "gophermap")); [now apply FormatMain.formats_or|]. destruct (m <? len title); now apply FormatMain.formats_or. }
    destruct OR as [(inner & H)|(ex & H)].
    + destruct (dressed_some page x (split_on 10%N inner)) as (out & D). left. exists out. eapply pi_listed_image; eauto.
    + right. exists ex. eapply tr_listed_image; eauto.
  - (* quotes *)
    destruct (has_wears _ _ SH) as (x & W & _); [ndd|]. destruct (has_template _ _ SH "line_template"%string) as (t & T); [ndd|ndd|].
    destruct (all_or (fills t) (misfills t) (splitlines false content)) as [(rows & R)|(ex & R)]; [intros; now apply fills_or| |right; exists ex; eapply tr_quote; eauto].
    destruct (dressed_some page x (rows_of rows)) as (out & D). left. exists out. eapply pi_quote; eauto.
  - destruct (ow_method o (View tg (map (kept a) (ow_attrs o)) (map (fun k => dget k s) (ow_settings o)) (Some page) None l e) content) as [out|ex] eqn:E;
      [left; exists out; now apply pi_own|right; exists ex; now apply tr_own].
  - destruct (has_wears _ _ SH) as (x & W & _); [ndd|].
    destruct (ow_method o (View tg (map (kept a) (ow_attrs o)) (map (fun k => dget k s) (ow_settings o)) (Some page)
      (Some (child_box page (dr_margin x) (dr_padding x) (let b := dr_border x in Sides (len (bo_top b)) (len (bo_right b)) (len (bo_bottom b)) (len (bo_left b))) None)) l e) content) as [inner|ex] eqn:E.
    + destruct (dressed_some page x (split_on 10%N inner)) as (out & D). left. exists out. eapply pi_own_block; eauto.
    + right. exists ex. eapply tr_own_block; eauto.
Qed.

(** ** Settings and room *)
Lemma settled_or : forall cl tg index over, class_shaped cl -> (exists s, settled cl tg index over s) \/ exists ex, unsettled cl tg index ex.
Proof.
  intros cl tg index over CS.
  assert (OR : (exists under above, computed cl tg index under above) \/ exists ex, unsettled cl tg index ex).
  { unfold computed, unsettled. destruct (rc_kind cl) eqn:K; try (left; exists [], []; auto; fail).
    - destruct tg as [|c [|n rest]]; [right; exists EIndex; left; split; [cbn; lia|reflexivity]|right; exists EIndex; left; split; [cbn; lia|reflexivity]|].
      destruct (uni_decimal n) as [v|] eqn:E.
      + left. exists [], [(lit "template", VStr (copies (N.to_nat v) (lit "#") ++ lit " {} " ++ copies (N.to_nat v) (lit "#")))], (copies (N.to_nat v) (lit "#")).
        split; auto. exists c, n, v, rest. split; auto. split; auto. now apply digit_read.
      + right. exists EValue. right. exists c, n, rest. split; auto. split; auto. intros v D. apply digit_read in D. congruence.
    - destruct CS as [CH CS]. rewrite K in CH. destruct (has_template _ _ CH "line_template"%string) as (t & V); [cbn; tauto|cbn; tauto|]. unfold template_set in V. destruct (CS K) as ((v1 & V1 & (st & ->)) & (v2 & V2 & (sp & ->))).
      destruct (FormatMain.formats_or [FInt (st + Z.of_nat index * sp); FStr (lit "{}")] [] t) as [(label & H)|(ex & H)].
      + left. exists [(lit "line_template", VStr label)], [], label. split; auto. exists t, st, sp. split; [exact V|]. auto.
      + right. exists ex, t, st, sp. split; [exact V|]. auto. }
  destruct OR as [(under & above & C)|H]; [left|now right]. exists (above ++ over ++ under ++ class_settings cl), under, above. split; auto.
  assert (AP : forall key (a b : settings), dget key (a ++ b) = match dget key a with Some v => Some v | None => dget key b end).
  { intros key a b. induction a as [|[k0 v0] a IH]; cbn [app dget]; auto. destruct (seqb key k0); auto. }
  intros key. rewrite !AP. cbn [inherited]. destruct (dget key above), (dget key over), (dget key under), (dget key (class_settings cl)); reflexivity.
Qed.
Lemma room_some : forall k s page, shaped k s -> exists inner, room_in k s page inner.
Proof.
  intros k s page SH. unfold room_in. destruct (takes_block k) eqn:TB; [|eauto].
  assert (NB : In "border"%string (needed k)) by (destruct k; try discriminate TB; cbn; tauto).
  destruct (has_wears _ _ SH NB) as (x & W & BO). destruct (takes_label k) eqn:TL.
  - assert (NL : In "line_template"%string (needed k)) by (destruct k; try discriminate TL; cbn; tauto).
    destruct (has_template _ _ SH "line_template"%string) as (t & T); [cbn; tauto|auto|]. eexists. exists x. eexists. split; [exact W|]. split; [exact BO|]. split; [exists t; split; [exact T|reflexivity]|reflexivity].
  - eexists. exists x. eexists. split; [exact W|]. split; [exact BO|]. split; reflexivity.
Qed.

(** ** Places *)
Section C.
Variables (g : cfg) (s : pstate) (F : list tree).
Hypothesis RU : good g s.
Hypothesis DOC : document (p_dom s) F.
Hypothesis BU : built (p_dom s) g.
Hypothesis SHT : shaped_page g F.
Local Notation d := (p_dom s).
Let WF : wf_dom d := go_wf _ _ RU.

Section E.
Variables (b c : list tree) (i : nat) (tg : str) (a : attributes) (kids : list tree) (up : site).
Local Notation z := (Spot b (Tag i tg a kids) c :: up).
Hypothesis AT : at_site d F z.
Hypothesis IN : In z (all_places [] [] F).
Lemma style_or : (exists cl over, styled (g_rules g) (g_default g) z cl over /\ class_shaped cl /\ (shown_inline g tg = false -> forall key v, dget key over = Some v -> shape_of (rc_kind cl) key v))
  \/ unstyled g z.
Proof.
  destruct (here_node s F b c i tg a kids up AT) as (n & N & NT & _).
  destruct (got d F WF b (Tag i tg a kids) c up eq_refl AT (g_rules g) (bu_rules _ _ BU i n N) (bu_rules_ok _ _ BU)) as (r & R & Q).
  assert (SHM : forall cl over, styled (g_rules g) (g_default g) z cl over -> exists cl over, styled (g_rules g) (g_default g) z cl over /\ class_shaped cl
    /\ (shown_inline g tg = false -> forall key v, dget key over = Some v -> shape_of (rc_kind cl) key v))
    by (intros cl over H; exists cl, over; split; [exact H|]; exact (proj1 SHT _ _ _ _ _ _ _ _ _ IN H)).
  destruct r as [[cl st]|].
  - destruct Q as (Q1 & Q2 & Q3). left. apply (SHM cl st). left. auto.
  - destruct (g_default g) as [[c0|]|[c0|] s0] eqn:EG; [| | |]; try (right; split; [exact Q|now rewrite EG]).
    + left. apply (SHM c0 []). right. auto.
    + left. apply (SHM c0 (match s0 with Some s0 => s0 | None => [] end)). right. auto.
Qed.
Lemma link_or : is_link_tag tg = true -> (exists cl, listed_by g z cl /\ class_shaped cl) \/ exists ex, unlisted g z ex.
Proof.
  intros L. destruct (here_node s F b c i tg a kids up AT) as (n & N & NT & _).
  destruct (got d F WF b (Tag i tg a kids) c up eq_refl AT (g_ext_rules g) (bu_ext _ _ BU i n tg N NT L) (bu_ext_ok _ _ BU)) as (r & R & Q).
  assert (SHE : forall cl, listed_by g z cl -> exists cl, listed_by g z cl /\ class_shaped cl) by (intros cl H; exists cl; split; [exact H|]; exact (proj2 SHT z cl IN L H)).
  destruct r as [[cl st]|].
  - destruct Q as (_ & Q2 & _). left. apply (SHE cl). now left.
  - destruct (g_ext_a g) as [[c0|[c0|] s0]|] eqn:EG; [| | |now elim (bu_a _ _ BU)].
    + right. exists EAttr. split; [exact Q|now rewrite EG].
    + left. apply (SHE c0). right. split; [exact Q|]. rewrite EG. eauto.
    + right. exists EType. split; [exact Q|now rewrite EG].
Qed.
End E.

Definition decided (t : tree) : Prop := forall up b c, at_site d F (Spot b t c :: up) -> In (Spot b t c :: up) (all_places [] [] F) -> forall listing bx, listable g listing t ->
  (exists out, shows g F listing (Spot b t c :: up) bx out) \/ exists ex, breaks g F listing (Spot b t c :: up) bx ex.
Lemma decided_list : forall listing bx L, (forall z, In z L -> (at_site d F z /\ In z (all_places [] [] F)) /\ exists b t c up, z = Spot b t c :: up /\ decided t /\ listable g listing t) ->
  (exists outs, Forall2 (fun y o => shows g F listing y bx o) L outs)
  \/ exists ys y rest parts ex, L = ys ++ y :: rest /\ Forall2 (fun y o => shows g F listing y bx o) ys parts /\ breaks g F listing y bx ex.
Proof.
  intros listing bx L H. destruct (all_or (fun y o => shows g F listing y bx o) (fun y ex => breaks g F listing y bx ex) L) as [Q|(ex & ys & y & rest & parts & Q1 & Q2 & Q3)].
  - intros y J. destruct (H y J) as ((A & A2) & b & t & c & up & -> & D & LS). now apply D.
  - now left.
  - right. exists ys, y, rest, parts, ex. auto.
Qed.
Lemma decided_all : forall t, decided t.
Proof.
  induction t as [i tg a kids IH|i x] using tree_ind2; intros up b c AT IN listing bx LS.
  2:{ assert (listing = false) by (destruct listing; [elim (LS eq_refl)|reflexivity]). subst listing. left. eexists. constructor. }
  set (z := Spot b (Tag i tg a kids) c :: up) in *.
  assert (KK : forall bx', (exists outs, Forall2 (fun y o => shows g F false y bx' o) (inner_spots z) outs)
     \/ exists ys y rest parts ex, inner_spots z = ys ++ y :: rest /\ Forall2 (fun y o => shows g F false y bx' o) ys parts /\ breaks g F false y bx' ex).
  { intros bx'. apply decided_list. intros y J. pose proof (inner_at d F _ AT) as IA. eapply Forall_forall in IA; [|exact J]. split; [split; [exact IA|eapply inner_in_all; [exact IN|exact J]]|].
    unfold inner_spots, z in J. cbn [sp_here kids_of] in J. apply spots_in in J as (b2 & t2 & c2 & -> & J). exists b2, t2, c2, z. split; auto. split; [eapply Forall_forall in IH; eauto|discriminate]. }
  assert (KL : forall bx', (exists outs, Forall2 (fun y o => shows g F true y bx' o) (filter (listed_at g "after_block") (inner_spots z)) outs)
     \/ exists ys y rest parts ex, filter (listed_at g "after_block") (inner_spots z) = ys ++ y :: rest /\ Forall2 (fun y o => shows g F true y bx' o) ys parts /\ breaks g F true y bx' ex).
  { intros bx'. apply decided_list. intros y J. apply filter_In in J as [J LA]. pose proof (inner_at d F _ AT) as IA. eapply Forall_forall in IA; [|exact J]. split; [split; [exact IA|eapply inner_in_all; [exact IN|exact J]]|].
    unfold inner_spots, z in J. cbn [sp_here kids_of] in J. apply spots_in in J as (b2 & t2 & c2 & -> & J). exists b2, t2, c2, z. split; auto. split; [eapply Forall_forall in IH; eauto|].
    eapply (listed_listable g (lit "after_block")); [|reflexivity|reflexivity|exact LA]. intros X. vm_compute in X. discriminate. }
  assert (SI : shown_inline g tg = true \/ shown_inline g tg = false) by (destruct (shown_inline g tg); auto).
  assert (CASES : (listing = false /\ shown_inline g tg = false) \/ (listing = false /\ shown_inline g tg = true) \/ (listing = true /\ is_link_tag tg = true /\ shown_inline g tg = false)).
  { destruct listing; [right; right; split; auto; apply (LS eq_refl)|]. destruct SI; auto. }
  destruct CASES as [[-> NI]|[[-> SIN]|(-> & L & NI)]].
  - destruct (style_or b c i tg a kids up AT IN) as [(cl & over & ST & CS & OV)|US]; [|right; eexists; now apply br_unstyled].
    destruct (settled_or cl tg (length b) over CS) as [(st & SE)|(ex & UN)]; [|right; eexists; eapply br_unsettled; eauto].
    pose proof (settled_shaped _ _ _ _ _ CS SE (OV NI)) as SS. destruct (room_some (rc_kind cl) st bx SS) as (inner & RM).
    destruct (KK inner) as [(parts & P)|(ys & y & rest & parts & ex & E1 & E2 & E3)].
    2:{ right. exists ex. eapply br_inside; eauto. now rewrite NI. }
    destruct (KL inner) as [(entries & Q)|(ys & y & rest & en & ex & E1 & E2 & E3)].
    2:{ right. exists ex. eapply br_list; eauto. }
    destruct (picture_or (rc_kind cl) st SS tg a kids (in_pre up) bx (if is_link_tag tg then Some (link_context g (reference g F i)) else None) None
      (concat parts ++ (match filter (listed_at g "after_block") (inner_spots z) with [] => [] | _ => nl end) ++ concat entries)) as [(out & PI)|(ex & TR)].
    + left. exists out. eapply sh_element; eauto.
    + right. exists ex. eapply br_element; eauto.
  - destruct (style_or b c i tg a kids up AT IN) as [(cl & over & ST & CS & OV)|US]; [|right; eexists; now apply br_unstyled].
    destruct (settled_or cl tg (length b) [] CS) as [(st & SE)|(ex & UN)]; [|right; eexists; eapply br_unsettled; eauto].
    pose proof (settled_shaped _ _ _ _ _ CS SE ltac:(discriminate)) as SS. destruct (room_some (rc_kind cl) st bx SS) as (inner & RM).
    destruct (KK inner) as [(parts & P)|(ys & y & rest & parts & ex & E1 & E2 & E3)].
    2:{ right. exists ex. eapply br_inside; eauto. now rewrite SIN. }
    destruct (picture_or (rc_kind cl) st SS tg a kids (in_pre up) bx (Some (link_context g (reference g F i))) (Some (link_details g tg a)) (concat parts)) as [(out & PI)|(ex & TR)].
    + left. exists out. eapply sh_inline; eauto.
    + right. exists ex. eapply br_inline; eauto.
  - destruct (link_or b c i tg a kids up AT IN L) as [(cl & ST & CS)|(ex & US)]; [|right; eexists; now apply br_unlisted; eauto].
    destruct (settled_or cl tg (length b) [] CS) as [(st & SE)|(ex & UN)]; [|right; eexists; eapply br_listed_unsettled; eauto].
    pose proof (settled_shaped _ _ _ _ _ CS SE ltac:(discriminate)) as SS. destruct (room_some (rc_kind cl) st bx SS) as (inner & RM).
    destruct (KK inner) as [(parts & P)|(ys & y & rest & parts & ex & E1 & E2 & E3)].
    2:{ right. exists ex. eapply br_listed_inside; eauto. }
    destruct (picture_or (rc_kind cl) st SS tg a kids (in_pre up) bx (Some (link_context g (reference g F i))) (Some (link_details g tg a)) (concat parts)) as [(out & PI)|(ex & TR)].
    + left. exists out. eapply sh_listed; eauto.
    + right. exists ex. eapply br_listed; eauto.
Qed.

(** ** The page *)
Lemma page_or : (exists out, styled_page g F out) \/ exists ex, broken_page g F ex.
Proof.
  pose proof (roots_at s F DOC) as RA.
  destruct (decided_list false (g_box g) (spots [] [] F)) as [(parts & P)|(ys & y & rest & parts & ex & E1 & E2 & E3)].
  { intros z J. pose proof RA as RA'. eapply Forall_forall in RA'; [|exact J]. split; [split; [exact RA'|now apply spots_in_all]|]. apply spots_in in J as (b & t & c & -> & _). exists b, t, c, []. split; auto. split; [apply decided_all|discriminate]. }
  2:{ right. exists ex. left. eauto 8. }
  destruct (seqb_spec (g_link g) (lit "footer")) as [FO|NF].
  - destruct (decided_list true (g_box g) (filter (listed_at g "footer") (all_places [] [] F))) as [(entries & Q)|(ys & y & rest & en & ex & E1 & E2 & E3)].
    { intros z J. apply filter_In in J as [J LA]. pose proof (all_places_at d F F [] [] RA) as X. eapply Forall_forall in X; [|exact J]. split; [split; auto|].
      apply all_places_some in J as NZ. destruct z as [|[b t c] up]; [congruence|]. exists b, t, c, up. split; auto. split; [apply decided_all|].
      eapply (listed_listable g (lit "footer")); [|reflexivity|reflexivity|exact LA]. intros X'. vm_compute in X'. discriminate. }
    + left. eexists. exists parts, entries. cbv zeta. rewrite FO, seqb_refl. split; [exact P|]. split; [exact Q|reflexivity].
    + right. exists ex. right. exists ys, y, rest, parts, en. auto.
  - left. eexists. exists parts, []. cbv zeta. destruct (seqb_spec (g_link g) (lit "footer")); [congruence|]. split; [exact P|]. split; [constructor|reflexivity].
Qed.
End C.
End M.
Close Scope Z_scope.
