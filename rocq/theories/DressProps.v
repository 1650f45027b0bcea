(** Renderers with settings of their own: templates (C68), the frame of a block
    (C64), headings (C65), text blocks (C66), inline elements and links (C67).
    The theorems are about every renderer class of the kind, whichever settings
    it, the rule table and the context give the object. *)
From Verif Require SetFacts FormatMain.
From Verif Require Import BaseFacts StrFacts DressFacts Fixture.
From Verif Require Export DressSpec.
Open Scope Z_scope.

Section P.
Context `{U : Uni}.

(** ** C68: templates *)
Theorem C68_template : forall t args kws out, unmixed t -> filled args kws 0 t out ->
  format (written t) args kws = Ok out.
Proof. intros. now apply FormatMain.format_ok, filled_formats. Qed.

(** ** C64: the frame of a block *)
Theorem C64_block : forall d cl i c r page x content, rc_kind cl = KBlock ->
  c_parent_box c = Some page -> instantiate d cl i c = Ok r -> wears (i_settings r) x ->
  exists out, render_inst d r content = Ok out /\ dressed page x (split_on 10%N content) out.
Proof.
  intros d cl i c r page x content K P I W. destruct (instantiate_fields _ _ _ _ _ I) as (_ & EK & _).
  unfold render_inst. rewrite EK, K. apply (block_dressed d cl i c r page x content content); auto; [now rewrite K|].
  unfold inner_render. now rewrite EK, K.
Qed.

(** ** C65: headings *)
Theorem C65_heading : forall d cl i c r page x h content text, rc_kind cl = KHeader \/ rc_kind cl = KMdHeader ->
  c_parent_box c = Some page -> instantiate d cl i c = Ok r -> wears (i_settings r) x -> heading_set (i_settings r) h ->
  fills (hs_template h) (spread_by (hs_spread h) (hs_gap h) (cased (hs_caps h) content)) text ->
  exists inner out, render_inst d r content = Ok out /\ heading h (heading_room page x) content inner
    /\ dressed page x (split_on 10%N inner) out.
Proof.
  intros d cl i c r page x h content text K P I W S F. destruct (instantiate_fields _ _ _ _ _ I) as (_ & EK & _).
  assert (B : is_block (rc_kind cl) = true) by (destruct K as [K|K]; now rewrite K).
  destruct (block_box _ _ _ _ _ _ _ B P I W) as (t & BX & _ & _).
  destruct (heading_rendered _ _ _ _ _ _ _ BX S F) as (inner & HI & HH).
  destruct (block_dressed d cl i c r page x content inner) as (out & HO & HD); auto.
  { unfold inner_render. rewrite EK. destruct K as [K|K]; now rewrite K. }
  exists inner, out. split; [|auto]. unfold render_inst. rewrite EK. destruct K as [K|K]; now rewrite K.
Qed.
(** The template of a markdown heading is given by the digit in its tag. *)
Theorem C65_markdown : forall d cl i c r n t k z, rc_kind cl = KMdHeader -> instantiate d cl i c = Ok r ->
  is_tagged d i n t -> t = [k] ++ str_of_Z z -> 0 <= z <= 9 ->
  template_set (i_settings r) "template" (copies (Z.to_nat z) (lit "#") ++ lit " {} " ++ copies (Z.to_nat z) (lit "#")).
Proof. exact md_set. Qed.

(** ** C66: text blocks *)
Theorem C66_paragraph : forall d cl i c r page x t j cfg caps skip content ls rows, rc_kind cl = KParagraph ->
  c_parent_box c = Some page -> instantiate d cl i c = Ok r ->
  let s := i_settings r in
  wears s x -> template_set s "line_template" t -> justification_set s j -> wrapper_set s cfg ->
  switched s "capitalized" caps -> switched s "skip_for_code_or_pre" skip -> (skip = true -> ~ only_code_in d i) ->
  laid_out j cfg (text_room page x (label_columns t)) (cased caps content) ls -> Forall2 (fills t) ls rows ->
  exists out, render_inst d r content = Ok out /\ dressed page x (rows_of rows) out.
Proof.
  intros d cl i c r page x t j cfg caps skip content ls rows K P I s W S1 S2 S3 S4 S5 NC HL HF.
  destruct (instantiate_fields _ _ _ _ _ I) as (_ & EK & ET). assert (B : is_block (rc_kind cl) = true) by now rewrite K.
  destruct (block_box _ _ _ _ _ _ _ B P I W) as (lt & BX & _ & TV). rewrite K in TV. cbn [has_line_template] in TV.
  destruct (label_read _ _ S1) as (lt' & L1 & L2). fold s in TV. rewrite L1 in TV. apply (f_equal (fun x => match x with Ok y => y | Err _ => None end)) in TV. subst lt'.
  unfold render_inst. rewrite EK, K. apply (block_dressed d cl i c r page x content (join nl rows)); auto.
  unfold inner_render. rewrite EK, K. eapply paragraph_rendered; eauto. now rewrite ET.
Qed.
(** A paragraph that is one piece of code, when it is set to skip those. *)
Theorem C66_code_paragraph : forall d cl i c r page x content, rc_kind cl = KParagraph ->
  c_parent_box c = Some page -> instantiate d cl i c = Ok r -> wears (i_settings r) x ->
  switched (i_settings r) "skip_for_code_or_pre" true -> only_code_in d i ->
  exists out, render_inst d r content = Ok out /\ dressed page x (split_on 10%N content) out.
Proof.
  intros d cl i c r page x content K P I W (v & G & T) OC. destruct (instantiate_fields _ _ _ _ _ I) as (_ & EK & ET).
  unfold render_inst. rewrite EK, K. apply (block_dressed d cl i c r page x content content); auto; [now rewrite K|].
  unfold inner_render. rewrite EK, K. unfold paragraph_inner. cbv zeta. rewrite (sattr_get _ _ _ G). cbn [bind]. rewrite T, ET.
  apply skip_read in OC. now rewrite OC.
Qed.
(** List items, numbered items and definitions: the label in front of the first
    row, the others as far in. *)
Theorem C66_item : forall d cl i c r page x t j cfg caps content y l rest first,
  rc_kind cl = KItem \/ rc_kind cl = KOrdered \/ rc_kind cl = KDef ->
  c_parent_box c = Some page -> instantiate d cl i c = Ok r ->
  let s := i_settings r in
  wears s x -> template_set s "line_template" t -> justification_set s j -> wrapper_set s cfg -> switched s "capitalized" caps ->
  SetSpec.set_text cfg (text_room page x (label_columns t)) (cased caps content) (lit j) y -> split_on 10%N y = l :: rest -> fills t l first ->
  exists out, render_inst d r content = Ok out
    /\ dressed page x (rows_of (first :: map (fun l => spaces (label_columns t) ++ l) rest)) out.
Proof.
  intros d cl i c r page x t j cfg caps content y l rest first K P I s W S1 S2 S3 S4 HJ HL HF.
  destruct (instantiate_fields _ _ _ _ _ I) as (_ & EK & ET). assert (B : is_block (rc_kind cl) = true) by (destruct K as [K|[K|K]]; now rewrite K).
  destruct (block_box _ _ _ _ _ _ _ B P I W) as (lt & BX & _ & TV).
  replace (has_line_template (rc_kind cl)) with true in TV by (destruct K as [K|[K|K]]; now rewrite K).
  destruct (label_read _ _ S1) as (lt' & L1 & L2). fold s in TV. rewrite L1 in TV. apply (f_equal (fun x => match x with Ok y => y | Err _ => None end)) in TV. subst lt'.
  destruct (block_dressed d cl i c r page x content (join nl (first :: map (fun l => spaces (label_columns t) ++ l) rest))) as (out & HO & HD); auto.
  { unfold inner_render. rewrite EK. replace (item_inner r content) with (item_inner r content) by reflexivity.
    destruct K as [K|[K|K]]; rewrite K; eapply item_rendered; eauto. }
  exists out. split; [|exact HD]. unfold render_inst. rewrite EK. destruct K as [K|[K|K]]; now rewrite K.
Qed.
Theorem C66_pre : forall d cl i c r page x t n content rows, rc_kind cl = KPre ->
  c_parent_box c = Some page -> instantiate d cl i c = Ok r ->
  wears (i_settings r) x -> template_set (i_settings r) "line_template" t -> int_set (i_settings r) "indent" n ->
  Forall2 (fun l row => exists y, fills t l y /\ row = spaces n ++ y) (splitlines false content) rows ->
  exists out, render_inst d r content = Ok out /\ dressed page x (rows_of rows) out.
Proof.
  intros d cl i c r page x t n content rows K P I W S1 S2 HF. destruct (instantiate_fields _ _ _ _ _ I) as (_ & EK & _).
  unfold render_inst. rewrite EK, K. apply (block_dressed d cl i c r page x content (join nl rows)); auto; [now rewrite K|].
  unfold inner_render. rewrite EK, K. eapply pre_rendered; eauto.
Qed.
Theorem C66_quote : forall d cl i c r page x t content rows, rc_kind cl = KQuote ->
  c_parent_box c = Some page -> instantiate d cl i c = Ok r ->
  wears (i_settings r) x -> template_set (i_settings r) "line_template" t ->
  Forall2 (fills t) (splitlines false content) rows ->
  exists out, render_inst d r content = Ok out /\ dressed page x (rows_of rows) out.
Proof.
  intros d cl i c r page x t content rows K P I W S1 HF. destruct (instantiate_fields _ _ _ _ _ I) as (_ & EK & _).
  assert (B : is_block (rc_kind cl) = true) by now rewrite K. destruct (block_box _ _ _ _ _ _ _ B P I W) as (lt & BX & _ & _).
  unfold render_inst. rewrite EK, K. apply (block_dressed d cl i c r page x content (join nl rows)); auto.
  unfold inner_render. rewrite EK, K. eapply quote_rendered; eauto.
Qed.

(** ** C67: inline elements *)
Theorem C67_inline : forall d cl i c r t caps content out, rc_kind cl = KInline -> instantiate d cl i c = Ok r ->
  template_set (i_settings r) "template" t -> switched (i_settings r) "capitalized" caps ->
  fills t (cased caps content) out -> render_inst d r content = Ok out.
Proof.
  intros d cl i c r t caps content out K I S1 S2 F. destruct (instantiate_fields _ _ _ _ _ I) as (_ & EK & _).
  unfold render_inst. rewrite EK, K. eapply inline_rendered; eauto.
Qed.
Theorem C67_code : forall d cl i c r block inline content out, rc_kind cl = KCode -> instantiate d cl i c = Ok r ->
  template_set (i_settings r) "block_template" block -> template_set (i_settings r) "inline_template" inline ->
  ~ directly_in d i "pre" -> fills (if has_char 10%N content then block else inline) content out ->
  render_inst d r content = Ok out.
Proof.
  intros d cl i c r block inline content out K I S1 S2 NP F. destruct (instantiate_fields _ _ _ _ _ I) as (_ & EK & ET).
  unfold render_inst. rewrite EK, K. unfold code_render. rewrite ET.
  assert (P : pre_parent d i = false).
  { destruct (pre_parent d i) eqn:E; [|reflexivity]. elim NP. unfold pre_parent in E. unfold directly_in, is_tagged.
    destruct (node_at d i) as [n|]; [|discriminate]. destruct (n_parent n) as [| |j] eqn:EP; try discriminate.
    destruct (node_at d j) as [m|] eqn:EM; [|discriminate]. destruct (n_tag m) as [t|] eqn:EG; [|discriminate].
    apply seqb_eq in E. subst t. exists n, j, m. auto. }
  rewrite P. destruct (has_char 10%N content).
  - pose proof S1 as G; unfold template_set in G. rewrite (sitem_get _ _ _ G). cbn [bind]. exact (fmt1_fills _ _ _ _ _ S1 F _ G).
  - pose proof S2 as G; unfold template_set in G. rewrite (sitem_get _ _ _ G). cbn [bind]. exact (fmt1_fills _ _ _ _ _ S2 F _ G).
Qed.
(** The template of a line break is applied twice, to a newline. *)
Theorem C67_break : forall d cl i c r t caps content x out, rc_kind cl = KBreak -> instantiate d cl i c = Ok r ->
  template_set (i_settings r) "template" t -> switched (i_settings r) "capitalized" caps ->
  fills t nl x -> fills t x out -> render_inst d r content = Ok out.
Proof.
  intros d cl i c r t caps content x out K I S1 S2 F1 F2. destruct (instantiate_fields _ _ _ _ _ I) as (_ & EK & _).
  unfold render_inst. rewrite EK, K. unfold break_render. pose proof S1 as G; unfold template_set in G. rewrite (sattr_get _ _ _ G). cbn [bind].
  rewrite (inline_rendered _ t caps nl x S1 S2); [cbn [bind]; exact (fmt1_fills _ _ _ _ _ S1 F2 _ G)|]. destruct caps; exact F1.
Qed.
Theorem C67_nothing : forall d cl i c r content, rc_kind cl = KNon -> instantiate d cl i c = Ok r -> render_inst d r content = Ok [].
Proof. intros d cl i c r content K I. destruct (instantiate_fields _ _ _ _ _ I) as (_ & EK & _). unfold render_inst. now rewrite EK, K. Qed.
(** Links in the text: the content goes through the template and the capitals
    twice, then into the template for links. *)
Theorem C67_link : forall d cl i c r l t caps plain titled reference content x out, rc_kind cl = KLink -> instantiate d cl i c = Ok r ->
  c_link c = Some l -> let s := i_settings r in
  template_set s "template" t -> switched s "capitalized" caps -> link_templates s plain titled reference ->
  fills t (cased caps content) x ->
  (if seqb (lc_link_placement l) (lit "inline") then
     exists e, c_extra c = Some e /\
     match title_of e with
     | Some title => formats [] [(lit "content", FStr (cased caps x)); (lit "href", shown (le_href e)); (lit "title", FStr title)] titled out
     | None => formats [] [(lit "content", FStr (cased caps x)); (lit "href", shown (le_href e))] plain out
     end
   else formats [] [(lit "content", FStr (cased caps x)); (lit "link_reference", FInt (lc_reference l))] reference out) ->
  render_inst d r content = Ok out.
Proof.
  intros d cl i c r l t caps plain titled reference content x out K I T1 s S1 S2 (tp & rest & G1 & G2 & G3) F H.
  destruct (instantiate_fields _ _ _ _ _ I) as (EC & EK & _). unfold render_inst. rewrite EK, K. unfold link_renderer. cbv zeta. fold s.
  pose proof (inline_rendered _ _ _ _ _ S1 S2 F) as IR. destruct S2 as (v & G & T). rewrite (sattr_get _ _ _ G). cbn [bind].
  rewrite <- EC in T1. rewrite (link_told _ _ T1). cbn [bind]. rewrite (sattr_get _ _ _ G1). cbn [bind]. rewrite T.
  destruct (seqb (lc_link_placement l) (lit "inline")).
  - destruct H as (e & T2 & H). rewrite <- EC in T2. rewrite (title_read _ _ T2).
    destruct (title_of e) as [title|]; unfold val_key; rewrite G2; cbn [bind val_index nth_error want_str]; rewrite IR; cbn [bind];
    rewrite (extra_told _ _ T2); cbn [bind]; now apply FormatMain.format_ok.
  - unfold val_key. rewrite G3. cbn [bind want_str]. rewrite IR. cbn [bind]. now apply FormatMain.format_ok.
Qed.
(** Images in the text.  Only an image shown with its target knows its title. *)
Theorem C67_image : forall d cl i c r l caps plain reference content out, rc_kind cl = KImage -> instantiate d cl i c = Ok r ->
  c_link c = Some l -> let s := i_settings r in
  switched s "capitalized" caps -> image_templates s plain reference ->
  (if seqb (lc_image_placement l) (lit "inline")
   then exists e, c_extra c = Some e /\ formats [] [(lit "href", shown (le_href e)); (lit "title", FStr (image_title (Some e)))] plain out
   else formats [] [(lit "title", FStr (image_title (c_extra c))); (lit "link_reference", FInt (lc_reference l))] reference out) ->
  render_inst d r content = Ok out.
Proof.
  intros d cl i c r l caps plain reference content out K I T1 s S2 (tp & G1 & G2 & G3) H.
  destruct (instantiate_fields _ _ _ _ _ I) as (EC & EK & _). unfold render_inst. rewrite EK, K. unfold image_renderer. cbv zeta. fold s.
  destruct S2 as (v & G & T). rewrite (sattr_get _ _ _ G). cbn [bind].
  rewrite <- EC in *. rewrite (link_told _ _ T1). cbn [bind]. rewrite (sattr_get _ _ _ G1). cbn [bind].
  assert (TT : match ctx_title r with Some t => t | None => lit "Image" end = image_title (c_extra (i_ctx r))).
  { unfold image_title. destruct (c_extra (i_ctx r)) as [e|] eqn:E; [now rewrite (title_read _ _ E)|]. unfold ctx_title. now rewrite E. }
  rewrite TT. destruct (seqb (lc_image_placement l) (lit "inline")).
  - destruct H as (e & T2 & H). rewrite T2 in *. unfold val_key; rewrite G2; cbn [bind want_str]. rewrite (extra_told _ _ T2); cbn [bind]; now apply FormatMain.format_ok.
  - unfold val_key. rewrite G3. cbn [bind want_str]. now apply FormatMain.format_ok.
Qed.
(** Listed links, as text: a block. *)
Theorem C67_listed_link : forall d cl i c r page x l e m plain titled content inner, rc_kind cl = KExtLink ->
  c_parent_box c = Some page -> instantiate d cl i c = Ok r -> told c l e -> lc_format l <> lit "gophermap" ->
  let s := i_settings r in
  wears s x -> int_set s "max_link_description" m -> 0 <= m -> listing_templates s plain titled ->
  formats [] (listing_fields (cut_to m content) (lc_reference l) (le_href e) (title_of e))
    (match title_of e with Some _ => titled | None => plain end) inner ->
  exists out, render_inst d r content = Ok out /\ dressed page x (split_on 10%N inner) out.
Proof.
  intros d cl i c r page x l e m plain titled content inner K P I [T1 T2] NG s W S1 M0 (rest & G1) H.
  destruct (instantiate_fields _ _ _ _ _ I) as (EC & EK & _). unfold render_inst. rewrite EK, K. rewrite <- EC in T1, T2.
  unfold extlink_render. rewrite (link_told _ _ T1). cbn [bind]. destruct (seqb_spec (lc_format l) (lit "gophermap")); [contradiction|].
  apply (block_dressed d cl i c r page x content inner); auto; [now rewrite K|].
  unfold inner_render. rewrite EK, K. unfold extlink_inner. cbv zeta. rewrite (link_told _ _ T1), (extra_told _ _ T2). cbn [bind].
  fold s. unfold int_set in S1. rewrite (sattr_get _ _ _ S1). cbn [bind]. change (want_int (VInt m)) with (Ok m). cbn [bind].
  destruct (seqb_spec (lc_format l) (lit "gophermap")); [contradiction|]. rewrite (sattr_get _ _ _ G1). cbn [bind val_index nth_error].
  rewrite (title_read _ _ T2), truncate_cut by auto. destruct (title_of e) as [ti|]; cbn [bind want_str]; now apply FormatMain.format_ok.
Qed.
(** As a line of a gophermap: not a block. *)
Theorem C67_menu_link : forall d cl i c r page x l e m t content line, rc_kind cl = KExtLink ->
  c_parent_box c = Some page -> instantiate d cl i c = Ok r -> told c l e -> lc_format l = lit "gophermap" ->
  let s := i_settings r in
  wears s x -> int_set s "max_link_description" m -> 0 <= m -> template_set s "gophermap_template" t ->
  formats [] (menu_fields (match le_title e with Some t => t | None => cut_to m content end) (lc_reference l) (le_gopher e)) t line ->
  render_inst d r content = Ok (newlines (sd_top (dr_margin x)) ++ line ++ newlines (sd_bottom (dr_margin x))).
Proof.
  intros d cl i c r page x l e m t content line K P I [T1 T2] NG s W S1 M0 G1 H. unfold template_set in G1.
  destruct (instantiate_fields _ _ _ _ _ I) as (EC & EK & _). assert (B : is_block (rc_kind cl) = true) by now rewrite K.
  destruct (block_box _ _ _ _ _ _ _ B P I W) as (lt & BX & _ & _). unfold render_inst. rewrite EK, K. rewrite <- EC in T1, T2.
  unfold extlink_render. rewrite (link_told _ _ T1). cbn [bind]. rewrite NG, seqb_refl.
  unfold extlink_inner. cbv zeta. rewrite (link_told _ _ T1), (extra_told _ _ T2). cbn [bind].
  fold s. unfold int_set in S1. rewrite (sattr_get _ _ _ S1). cbn [bind]. change (want_int (VInt m)) with (Ok m). cbn [bind]. rewrite NG, seqb_refl.
  unfold gophermap_line. rewrite (sattr_get _ _ _ G1). cbn [bind want_str]. rewrite truncate_cut by auto.
  match goal with |- context [format ?a ?b ?k] => replace (format a b k) with (Ok line) by (symmetry; apply FormatMain.format_ok; exact H) end.
  cbn [bind]. unfold the_box. rewrite BX. cbn [bind]. reflexivity.
Qed.
(** Listed images: always a block. *)
Theorem C67_listed_image : forall d cl i c r page x l e m plain titled t content inner, rc_kind cl = KExtImage ->
  c_parent_box c = Some page -> instantiate d cl i c = Ok r -> told c l e ->
  let s := i_settings r in
  wears s x -> int_set s "max_link_description" m -> 0 <= m -> listing_templates s plain titled -> template_set s "gophermap_template" t ->
  let title := match title_of e with Some t => t | None => lit "Image" end in
  (if seqb (lc_format l) (lit "gophermap") then formats [] (menu_fields (cut_to m title) (lc_reference l) (le_gopher e)) t inner
   else if m <? len title then formats [] (listing_fields (cut_to m title) (lc_reference l) (le_href e) (Some title)) titled inner
   else formats [] (listing_fields (cut_to m title) (lc_reference l) (le_href e) None) plain inner) ->
  exists out, render_inst d r content = Ok out /\ dressed page x (split_on 10%N inner) out.
Proof.
  intros d cl i c r page x l e m plain titled t content inner K P I [T1 T2] s W S1 M0 (rest & G1) G3 title H. unfold template_set in G3.
  destruct (instantiate_fields _ _ _ _ _ I) as (EC & EK & _). unfold render_inst. rewrite EK, K. rewrite <- EC in T1, T2.
  apply (block_dressed d cl i c r page x content inner); auto; [now rewrite K|].
  unfold inner_render. rewrite EK, K. unfold extimage_inner. cbv zeta. rewrite (link_told _ _ T1), (extra_told _ _ T2). cbn [bind].
  fold s. unfold int_set in S1. rewrite (sattr_get _ _ _ S1). cbn [bind]. change (want_int (VInt m)) with (Ok m). cbn [bind].
  rewrite (title_read _ _ T2), truncate_cut by auto. fold title. destruct (seqb (lc_format l) (lit "gophermap")).
  - unfold gophermap_line. rewrite (sattr_get _ _ _ G3). cbn [bind want_str]. now apply FormatMain.format_ok.
  - rewrite (sattr_get _ _ _ G1). cbn [bind val_index nth_error]. rewrite Z.gtb_ltb. destruct (m <? len title); cbn [bind want_str]; now apply FormatMain.format_ok.
Qed.
End P.
Print Assumptions C68_template.
Print Assumptions C64_block.
Print Assumptions C65_heading.
Print Assumptions C65_markdown.
Print Assumptions C66_paragraph.
Print Assumptions C66_code_paragraph.
Print Assumptions C66_item.
Print Assumptions C66_pre.
Print Assumptions C66_quote.
Print Assumptions C67_inline.
Print Assumptions C67_code.
Print Assumptions C67_break.
Print Assumptions C67_nothing.
Print Assumptions C67_link.
Print Assumptions C67_image.
Print Assumptions C67_listed_link.
Print Assumptions C67_menu_link.
Print Assumptions C67_listed_image.

(** ** The hypotheses are met *)
Local Existing Instance U0.
Definition on (w : Z) (i : nat) (st : settings) (cl : rcls) (d : dom) : res inst :=
  instantiate d cl i (Ctx (Some st) (Some (root_box w sides0 sides0 sides0 None)) None None).
Definition some_doc (t : string) : dom :=
  match after [start t; txt "some text"; stop t] with Ok d => d | Err _ => Dom [] [] end.
Example template_case :
  let t := [PText (lit "{see} "); PName (lit "content"); PText (lit ": "); PName (lit "href")] in
  written t = lit "{{see}} {content}: {href}" /\ unmixed t
  /\ filled [] [(lit "content", FStr (lit "home")); (lit "href", FStr (lit "/a"))] 0 t (lit "{see} home: /a")
  /\ format (lit "{{see}} {content}: {href}") [] [(lit "content", FStr (lit "home")); (lit "href", FStr (lit "/a"))] = Ok (lit "{see} home: /a").
Proof.
  cbv zeta. split; [vm_compute; reflexivity|]. split; [left; cbn [In]; intuition discriminate|]. split; [|vm_compute; reflexivity].
  apply fi_text with (out := lit "home: /a"). apply fi_name with (a := FStr (lit "home")) (out := lit ": /a"); [split; [discriminate|reflexivity]|reflexivity|].
  apply fi_text with (out := lit "/a"). rewrite <- (app_nil_r (lit "/a")).
  apply fi_name with (a := FStr (lit "/a")); [split; [discriminate|reflexivity]|reflexivity|constructor].
Qed.
Example numbered_case : let t := [PNumber 0; PText (lit "/"); PNumber 1; PText (lit "/"); PNumber 0] in
  written t = lit "{0}/{1}/{0}" /\ unmixed t /\ filled [FStr (lit "a"); FStr (lit "b")] [] 0 t (lit "a/b/a").
Proof.
  cbv zeta. split; [vm_compute; reflexivity|]. split; [left; cbn [In]; intuition discriminate|].
  apply fi_number with (a := FStr (lit "a")) (out := lit "/b/a"); [discriminate|reflexivity|]. apply fi_text with (out := lit "b/a").
  apply fi_number with (a := FStr (lit "b")) (out := lit "/a"); [discriminate|reflexivity|]. apply fi_text with (out := lit "a").
  rewrite <- (app_nil_r (lit "a")). apply fi_number with (a := FStr (lit "a")); [discriminate|reflexivity|constructor].
Qed.
Definition card : settings := [kv "border" (VList [vs "=-"; vs "|"; vs "_"; vs "|"]); kv "padding" (vints [2; 1; 1; 2]); kv "margin" (vints [1; 0; 1; 3])].
Definition card_dress : dress := Dress (Sides 1 0 1 3) (Sides 2 1 1 2) (Borders (lit "=-") (lit "|") (lit "_") (lit "|")).
Example frame_case : exists r, on 20 0 card BlockRenderer (some_doc "div") = Ok r /\ wears (i_settings r) card_dress
  /\ render_inst (some_doc "div") r (lit "some text") = Ok (join nl (map lit
       [""; "   ================="; "   -----------------"; "   |               |"; "   |               |"; "   |  some text    |";
        "   |               |"; "   _________________"; ""]%string)).
Proof.
  eexists. split; [vm_compute; reflexivity|]. split; [|vm_compute; reflexivity].
  split; [eexists; vm_compute; reflexivity|]. split; [eexists; vm_compute; reflexivity|]. eexists. left. vm_compute. reflexivity.
Qed.
Definition fancy : settings := [kv "template" (vs "<{}>"); kv "capitalized" (VBool true); kv "spread" (VInt 1); kv "centered" (VBool true);
  kv "underlined" (VBool true); kv "underline_char" (vs "~")].
Definition fancy_style : heading_style := HeadingStyle (lit "<{}>") true 1 (lit " ") true (Some (false, lit "~")).
Example heading_case : exists r, on 20 0 fancy HeaderRenderer (some_doc "h1") = Ok r
  /\ wears (i_settings r) (Dress (Sides 1 0 1 0) sides0 (Borders [] [] [] [])) /\ heading_set (i_settings r) fancy_style
  /\ fills (hs_template fancy_style) (spread_by 1 (lit " ") (cased true (lit "title"))) (lit "<T I T L E>")
  /\ render_inst (some_doc "h1") r (lit "title") = Ok (join nl (map lit [""; "    <T I T L E>     "; "    ~~~~~~~~~~~     "; ""]%string)).
Proof.
  eexists. split; [vm_compute; reflexivity|].
  split; [split; [eexists; vm_compute; reflexivity|split; [eexists; vm_compute; reflexivity|eexists; left; vm_compute; reflexivity]]|].
  split; [|split; [|vm_compute; reflexivity]].
  - repeat split; cbn [fancy_style hs_template hs_caps hs_spread hs_gap hs_centre hs_underline];
    try (vm_compute; reflexivity); eexists; split; vm_compute; reflexivity.
  - apply FormatMain.format_ok. vm_compute. reflexivity.
Qed.
Definition verse : settings := [kv "initial_indent" (VInt 2); kv "justification" (vs "right"); kv "capitalized" (VBool true); kv "line_template" (vs "% {}")].
Definition verse_cfg : wcfg := Wcfg 0 (spaces 2) [] true true true true true true true 8 None (lit " [...]").
Example paragraph_case : exists r, on 12 0 verse ParagraphRenderer (some_doc "p") = Ok r
  /\ wears (i_settings r) (Dress (Sides 1 0 1 0) sides0 (Borders [] [] [] []))
  /\ template_set (i_settings r) "line_template" (lit "% {}") /\ justification_set (i_settings r) "right"
  /\ wrapper_set (i_settings r) verse_cfg /\ switched (i_settings r) "capitalized" true /\ switched (i_settings r) "skip_for_code_or_pre" true
  /\ ~ only_code_in (some_doc "p") 0
  /\ laid_out "right" verse_cfg 10 (lit "SOME MORE TEXT") [lit "      SOME"; lit " MORE TEXT"]
  /\ Forall2 (fills (lit "% {}")) [lit "      SOME"; lit " MORE TEXT"] [lit "%       SOME"; lit "%  MORE TEXT"]
  /\ render_inst (some_doc "p") r (lit "some more text") = Ok (join nl (map lit [""; "%       SOME"; "%  MORE TEXT"; ""]%string)).
Proof.
  eexists. split; [vm_compute; reflexivity|].
  split; [split; [eexists; vm_compute; reflexivity|split; [eexists; vm_compute; reflexivity|eexists; left; vm_compute; reflexivity]]|].
  split; [vm_compute; reflexivity|].
  split; [split; [vm_compute; reflexivity|cbn [In]; tauto]|].
  split. { repeat split; try (vm_compute; reflexivity); eexists; split; vm_compute; reflexivity. }
  split; [eexists; split; vm_compute; reflexivity|]. split; [eexists; split; vm_compute; reflexivity|].
  split. { intros (n & k & m & t & E1 & E2 & [E3 E4] & E5). vm_compute in E1. injection E1 as <-. vm_compute in E2. injection E2 as <-.
           vm_compute in E3. injection E3 as <-. vm_compute in E4. discriminate. }
  split. { exists [lit "      SOME" ++ nl ++ lit " MORE TEXT"]. split; [|vm_compute; reflexivity].
           change (split_on 10%N (lit "SOME MORE TEXT")) with [lit "SOME MORE TEXT"]. constructor; [apply SetFacts.justify_set; vm_compute; reflexivity|constructor]. }
  split; [|vm_compute; reflexivity].
  repeat constructor; apply FormatMain.format_ok; vm_compute; reflexivity.
Qed.

(** A step-2 numbered item, code set in lines with a bar, a quotation, inline
    elements and links with other templates. *)
Definition listed : dom := match after [start "ol"; start "li"; txt "a"; stop "li"; start "li"; txt "b c"; stop "li"; stop "ol"] with Ok d => d | Err _ => Dom [] [] end.
Definition steps : rcls := Rcls KOrdered [[kv "step" (VInt 5); kv "line_template" (vs "({0}) {1}")]; set_ordered; set_item; set_block; set_renderer].
Definition plain_cfg : wcfg := Wcfg 0 [] [] true true true true true true true 8 None (lit " [...]").
Definition bare (top bottom : Z) : dress := Dress (Sides top 0 bottom 0) sides0 (Borders [] [] [] []).
Ltac bare_case := split; [eexists; vm_compute; reflexivity|split; [eexists; vm_compute; reflexivity|eexists; left; vm_compute; reflexivity]].
Example item_case : exists r, on 6 3 [] steps listed = Ok r /\ wears (i_settings r) (bare 1 0)
  /\ template_set (i_settings r) "line_template" (lit "(6) {}") /\ justification_set (i_settings r) "left"
  /\ wrapper_set (i_settings r) plain_cfg /\ switched (i_settings r) "capitalized" false
  /\ SetSpec.set_text plain_cfg 2 (lit "b c") (lit "left") (lit "b" ++ nl ++ lit "c")
  /\ fills (lit "(6) {}") (lit "b") (lit "(6) b")
  /\ render_inst listed r (lit "b c") = Ok (nl ++ lit "(6) b " ++ nl ++ lit "    c ").
Proof.
  eexists. split; [vm_compute; reflexivity|]. split; [bare_case|].
  split; [vm_compute; reflexivity|].
  split; [split; [vm_compute; reflexivity|cbn [In]; tauto]|].
  split. { repeat split; try (vm_compute; reflexivity); eexists; split; vm_compute; reflexivity. }
  split; [eexists; split; vm_compute; reflexivity|]. split; [apply SetFacts.justify_set; vm_compute; reflexivity|]. split; [|vm_compute; reflexivity].
  apply FormatMain.format_ok. vm_compute. reflexivity.
Qed.
Example pre_case : exists r, on 12 0 [kv "indent" (VInt 2); kv "line_template" (vs "| {}")] PreRenderer (some_doc "pre") = Ok r /\ wears (i_settings r) (bare 1 1)
  /\ template_set (i_settings r) "line_template" (lit "| {}") /\ int_set (i_settings r) "indent" 2
  /\ Forall2 (fun l row => exists y, fills (lit "| {}") l y /\ row = spaces 2 ++ y) (splitlines false (lit "a" ++ nl ++ lit "b")) [lit "  | a"; lit "  | b"]
  /\ render_inst (some_doc "pre") r (lit "a" ++ nl ++ lit "b") = Ok (nl ++ lit "  | a       " ++ nl ++ lit "  | b       " ++ nl).
Proof.
  eexists. split; [vm_compute; reflexivity|]. split; [bare_case|].
  split; [vm_compute; reflexivity|]. split; [vm_compute; reflexivity|].
  split; [|vm_compute; reflexivity]. change (splitlines false (lit "a" ++ nl ++ lit "b")) with [lit "a"; lit "b"].
  constructor; [|constructor; [|constructor]]; eexists; (split; [apply FormatMain.format_ok; vm_compute; reflexivity|vm_compute; reflexivity]).
Qed.
Example inline_case : exists r, on 12 0 [kv "template" (vs "/{}/"); kv "capitalized" (VBool true)] EmRenderer (some_doc "em") = Ok r
  /\ template_set (i_settings r) "template" (lit "/{}/") /\ switched (i_settings r) "capitalized" true
  /\ render_inst (some_doc "em") r (lit "ab") = Ok (lit "/AB/").
Proof.
  eexists. split; [vm_compute; reflexivity|]. split; [vm_compute; reflexivity|].
  split; [eexists; split; vm_compute; reflexivity|]. vm_compute. reflexivity.
Qed.
Example break_case : exists r, on 12 0 [kv "template" (vs "<{}>")] BreakRenderer (some_doc "br") = Ok r
  /\ template_set (i_settings r) "template" (lit "<{}>")
  /\ render_inst (some_doc "br") r [] = Ok (lit "<<" ++ nl ++ lit ">>").
Proof.
  eexists. split; [vm_compute; reflexivity|]. split; [vm_compute; reflexivity|]. vm_compute. reflexivity.
Qed.
Definition a_link (fmt place : string) : ctx :=
  Ctx None (Some (root_box 40 sides0 sides0 sides0 None))
    (Some (LinkCtx (lit fmt) (lit place) (lit place) 7 (lit "h") 70))
    (Some (LinkExtra (Some (lit "/a")) None (GLink (lit "1") (lit "/a") (Some (lit "h")) (Some 70)))).
Definition arrows : rcls := Rcls KLink [[kv "templates" (VDict [kv "reference" (vs "{content}^{link_reference}"); kv "inline" (VList [vs "{content}->{href}"; vs "{title}"])])]; set_link; set_inline; set_renderer].
Example link_case : exists r l e, instantiate (some_doc "a") arrows 0 (a_link "text" "inline") = Ok r /\ told (a_link "text" "inline") l e
  /\ link_templates (i_settings r) (lit "{content}->{href}") (lit "{title}") (lit "{content}^{link_reference}")
  /\ formats [] [(lit "content", FStr (lit "x")); (lit "href", FStr (lit "/a"))] (lit "{content}->{href}") (lit "x->/a")
  /\ render_inst (some_doc "a") r (lit "x") = Ok (lit "x->/a").
Proof.
  eexists _, _, _. split; [vm_compute; reflexivity|]. split; [split; reflexivity|]. split.
  { eexists _, _. repeat split; vm_compute; reflexivity. }
  split; [|vm_compute; reflexivity]. apply FormatMain.format_ok. vm_compute. reflexivity.
Qed.
Definition short_listing : rcls := Rcls KExtLink [[kv "templates" (VList [vs "{description} = {href}"; vs "{title}"]); kv "max_link_description" (VInt 4);
  kv "gophermap_template" (vs "{type}{description}|{port}")]; set_extlink; set_block; set_renderer].
Example listing_case : exists r l e, instantiate (some_doc "a") short_listing 0 (a_link "text" "footer") = Ok r /\ told (a_link "text" "footer") l e
  /\ wears (i_settings r) (bare 0 0) /\ int_set (i_settings r) "max_link_description" 4
  /\ listing_templates (i_settings r) (lit "{description} = {href}") (lit "{title}")
  /\ render_inst (some_doc "a") r (lit "homepage") = Ok (lit "home... = /a" ++ spaces 28).
Proof.
  eexists _, _, _. split; [vm_compute; reflexivity|]. split; [split; reflexivity|]. split; [bare_case|]. split; [vm_compute; reflexivity|].
  split; [|vm_compute; reflexivity]. eexists. vm_compute. reflexivity.
Qed.
Example menu_case : exists r, instantiate (some_doc "a") short_listing 0 (a_link "gophermap" "footer") = Ok r
  /\ template_set (i_settings r) "gophermap_template" (lit "{type}{description}|{port}")
  /\ render_inst (some_doc "a") r (lit "homepage") = Ok (lit "1home...|70").
Proof.
  eexists. split; [vm_compute; reflexivity|]. split; [vm_compute; reflexivity|]. vm_compute. reflexivity.
Qed.
Close Scope Z_scope.
