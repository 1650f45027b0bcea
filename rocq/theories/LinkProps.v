(** Links and images: records of a gophermap, descriptions, settings and
    references.  [closing] and [rendered]: RenderSpec; [entry] is what is listed
    outside the running text. *)
From Verif Require Import BaseFacts StrFacts RenderFacts ElemFacts ElemText LinkFacts LinkSettings LinkRecord Fixture.
From Verif Require Export LinkSpec.
Open Scope Z_scope.

Section P.
Context `{U : Uni}.

(** ** C46: one line with four fields, for links whose title (or text), target
    and host have no tab and no line break *)
Theorem C46_record_partial : forall o g h s sg i n bx out lk, closing o g h s sg -> gophermap g ->
  is_tagged (p_dom s) i n (lit "a") -> link_of n lk -> entry (p_dom s) sg i bx out ->
  (forall hr, lk_href lk = Some hr ->
     one_field hr /\ (Forall (fun c => c < 128)%N hr \/ gl_host (lk_gopher lk) = Some (g_host g))) ->
  one_field (g_host g) ->
  exists c, link_content (p_dom s) sg n (inner_box bx 0 0 None) c
    /\ forall desc, desc = (match lk_title lk with Some t => t | None => truncate 10 c end) -> one_field desc ->
       exists line, out = line ++ nl /\ ~ In 10%N line
         /\ split_on 9%N line = [gl_type (lk_gopher lk) ++ lit "[" ++ str_of_Z (lc_reference (lk_ctx lk)) ++ lit "] " ++ desc;
                                 gl_selector (lk_gopher lk); shown (gl_host (lk_gopher lk)); shown_port (gl_port (lk_gopher lk))].
Proof.
  intros o g h s sg i n bx out lk C G T HL E HR HH.
  assert (NP : g_link g <> lit "inline").
  { intros X. pose proof (cl_new _ _ _ _ _ C) as K. unfold construct in K. cbv zeta in K.
    destruct (_ && _)%bool eqn:E1 in K; [discriminate|]. destruct (_ && _)%bool in K; [discriminate|].
    destruct (dget _ _) as [[? ?]|]; [|discriminate]. apply ok_inj in K. unfold gophermap in G. rewrite K in G, X. cbn [g_format g_link] in G, X.
    rewrite G, X in E1. discriminate. }
  destruct (link_known _ _ _ _ _ _ _ _ C T eq_refl) as (lk' & HL' & HD & _ & KP & _).
  unfold link_of in HL'. rewrite HL in HL'. injection HL' as <-.
  destruct (link_entry_shape _ _ _ _ _ _ _ _ _ _ C T HL NP E) as (c & HC & O). exists c. split; auto. intros desc ED FD.
  unfold gophermap in G. rewrite G in O. change (seqb (lit "gophermap") (lit "gophermap")) with true in O. cbv iota in O. unfold link_entry in O.
  change (cut 10 c) with (truncate 10 c) in O. rewrite <- ED in O.
  eexists. split; [exact O|].
  destruct (type_field _ _ _ _ KP) as [TF _]. assert (SF := selector_field _ _ _ _ KP (fun x E => proj1 (HR x E))).
  assert (HF := host_field _ _ _ _ KP HH (fun x E => proj2 (HR x E))).
  destruct (record_split (lc_reference (lk_ctx lk)) desc _ TF FD SF HF) as [R1 R2]. split; auto.
Qed.

(** ** C47: descriptions, when the text is not padded with blanks, or short or
    long with and without its padding *)
Theorem C47_description_partial : forall max text, 0 <= max ->
  (strip text = text \/ len text <= max \/ max < len (strip text)) ->
  truncate max text = description max text.
Proof.
  intros max text M H. unfold truncate, description, py_slice_to, slice_to.
  replace (max <? 0) with false by (symmetry; apply Z.ltb_ge; lia).
  assert (L : len (strip text) <= len text).
  { unfold strip. destruct (lstrip_spec text) as (a & E1 & _). destruct (rstrip_spec (lstrip text)) as (b & E2 & _).
    rewrite E1 at 2. rewrite E2 at 2. rewrite !len_app. pose proof (len_nonneg a). pose proof (len_nonneg b). lia. }
  destruct (Z.leb_spec (len (strip text)) max) as [S0|S0].
  - destruct (Z.gtb_spec (len text) max) as [S1|S1].
    + destruct H as [H|[H|H]]; [rewrite H in S0|idtac|idtac]; lia.
    + rewrite firstn_all2; [now rewrite app_nil_r|]. unfold len in *. lia.
  - destruct (Z.gtb_spec (len text) max) as [S1|S1]; [reflexivity|]. lia.
Qed.
(** What is listed for a link. *)
Theorem C47_entry_partial : forall o g h s sg i n bx out lk, closing o g h s sg -> ~ gophermap g -> g_link g <> lit "inline" ->
  is_tagged (p_dom s) i n (lit "a") -> link_of n lk -> entry (p_dom s) sg i bx out ->
  exists c, link_content (p_dom s) sg n (inner_box bx 0 0 None) c
    /\ (strip c = c \/ len c <= 10 \/ 10 < len (strip c) ->
        out = rows (line_width bx) (split_on 10%N (nl ++ entry_text (lc_reference (lk_ctx lk)) (description 10 c) (lk_href lk) (lk_title lk)))).
Proof.
  intros o g h s sg i n bx out lk C G NP T HL E.
  destruct (link_entry_shape _ _ _ _ _ _ _ _ _ _ C T HL NP E) as (c & HC & O). exists c. split; auto. intros HH.
  rewrite (seqb_false _ _ G) in O. unfold link_entry in O. change (cut 10 c) with (truncate 10 c) in O.
  rewrite C47_description_partial in O by (auto; lia). exact O.
Qed.
(** A renderer class of the user with its own limit. *)
Theorem C47_limit_partial : forall cl d i ctx r lc href title gl max c, rc_kind cl = KExtLink -> 0 <= max ->
  sattr (class_settings cl) (lit "max_link_description") = Ok (VInt max) ->
  sattr (class_settings cl) (lit "templates") = sattr (class_settings ExtractedLinkRenderer) (lit "templates") ->
  c_settings ctx = None -> c_link ctx = Some lc -> c_extra ctx = Some (LinkExtra href title gl) -> lc_format lc = lit "text" ->
  (strip c = c \/ len c <= max \/ max < len (strip c)) ->
  instantiate d cl i ctx = Ok r ->
  extlink_inner r c = Ok (nl ++ entry_text (lc_reference lc) (description max c) href title).
Proof.
  intros cl d i ctx r lc href title gl max c K M A B CS CL CE F HC I.
  assert (R : i_settings r = class_settings cl /\ i_ctx r = ctx).
  { unfold instantiate in I. cbv zeta in I. rewrite K in I. cbn [bind is_block] in I. unfold adjust in I. rewrite CS in I.
    repeat match type of I with bind ?x _ = Ok _ => destruct x; [cbn [bind] in I|discriminate] end.
    apply ok_inj in I. subst r. cbn [i_settings i_ctx]. auto. }
  destruct R as [R1 R2]. unfold extlink_inner, ctx_link, ctx_extra, ctx_title. rewrite R1, R2, CL, CE. cbn [bind le_title le_href le_gopher].
  rewrite A, B. cbn [bind]. change (want_int (VInt max)) with (Ok max). cbn [bind]. rewrite C47_description_partial by auto.
  rewrite F. change (seqb (lit "text") (lit "gophermap")) with false. cbv iota.
  set (ds := description max c). clearbody ds. destruct href; destruct title as [[|x t]|]; reflexivity.
Qed.

(** ** C48: the settings in the table of extracted links are never used *)
Theorem C48_extracted_refuted : forall o t h, same_but_settings (o_ext o) t -> render_doc (with_ext o t) h = render_doc o h.
Proof. exact ext_settings_ignored. Qed.

(** ** C53: text and list show the same reference *)
Theorem C53_link : forall o g h s sg i n bx bx' out out' lk, closing o g h s sg -> g_link g <> lit "inline" ->
  is_tagged (p_dom s) i n (lit "a") -> link_of n lk ->
  rendered (p_dom s) sg i bx out -> entry (p_dom s) sg i bx' out' ->
  exists ref c, content (p_dom s) sg n bx c /\ out = reference_text c ref /\ opens_with_reference ref out'.
Proof.
  intros o g h s sg i n bx bx' out out' lk C NP T HL R E.
  destruct (link_reference_shape _ _ _ _ _ _ _ _ _ _ C T HL NP R) as (c & HC & O).
  exists (lc_reference (lk_ctx lk)), c. split; auto. split; auto.
  destruct (link_known _ _ _ _ _ _ _ _ C T eq_refl) as (lk' & HL' & HD & _ & KP & _).
  unfold link_of in HL'. rewrite HL in HL'. injection HL' as <-.
  destruct (link_entry_shape _ _ _ _ _ _ _ _ _ _ C T HL NP E) as (c' & _ & O').
  unfold opens_with_reference. destruct (seqb (g_format g) (lit "gophermap")).
  - unfold link_entry, record_text in O'. rewrite <- !app_assoc in O'. eexists _, _. split; [exact O'|]. apply (type_field _ _ _ _ KP).
  - unfold link_entry, entry_text in O'.
    set (hd := lit "[" ++ str_of_Z (lc_reference (lk_ctx lk)) ++ lit "] ") in *.
    match type of O' with _ = rows ?w (split_on _ (nl ++ lit "[" ++ ?z ++ lit "] " ++ ?t)) =>
      destruct (rows_blank_head w hd t) as (rest & X); [|unfold hd in X; rewrite <- !app_assoc in X; rewrite X in O'] end.
    + unfold hd. rewrite !in_app_iff. pose proof (digits_field (lc_reference (lk_ctx lk)) 10%N eq_refl).
      change (lit "[") with [91%N]; change (lit "] ") with [93%N; 32%N]; cbn [In]; intuition discriminate.
    + exists (spaces (line_width bx') ++ nl), rest. rewrite <- app_assoc. split; [exact O'|].
      intros I. apply in_app_or in I as [I|[I|[]]]; [|discriminate]. apply repeat_spec in I. discriminate.
Qed.
Theorem C53_image : forall o g h s sg i n bx bx' out out' lk, closing o g h s sg -> g_image g <> lit "inline" ->
  is_tagged (p_dom s) i n (lit "img") -> link_of n lk ->
  rendered (p_dom s) sg i bx out -> entry (p_dom s) sg i bx' out' ->
  exists ref, out = reference_text (lit "Image") ref /\ opens_with_reference ref out'.
Proof.
  intros o g h s sg i n bx bx' out out' lk C NP T HL R E.
  exists (lc_reference (lk_ctx lk)). split; [exact (image_reference_shape _ _ _ _ _ _ _ _ _ _ C T HL NP R)|].
  destruct (link_known _ _ _ _ _ _ _ _ C T eq_refl) as (lk' & HL' & HD & _ & KP & _).
  unfold link_of in HL'. rewrite HL in HL'. injection HL' as <-.
  pose proof (image_entry_shape _ _ _ _ _ _ _ _ _ _ C T HL NP E) as O'.
  set (hd := lit "[" ++ str_of_Z (lc_reference (lk_ctx lk)) ++ lit "] ").
  assert (HN : ~ In 10%N hd).
  { unfold hd. rewrite !in_app_iff. pose proof (digits_field (lc_reference (lk_ctx lk)) 10%N eq_refl).
    change (lit "[") with [91%N]; change (lit "] ") with [93%N; 32%N]; cbn [In]; intuition discriminate. }
  destruct (type_field _ _ _ _ KP) as [[_ TF] TB].
  unfold opens_with_reference. destruct (seqb (g_format g) (lit "gophermap")).
  - unfold image_entry, record_text in O'. rewrite <- !app_assoc in O'.
    match type of O' with _ = rows ?w (split_on _ (?ty ++ lit "[" ++ ?z ++ lit "] " ++ ?t)) =>
      destruct (rows_head w (ty ++ hd) t) as (rest & X) end.
    { intros I. apply in_app_or in I as [I|I]; auto. }
    unfold hd in X. rewrite <- !app_assoc in X. rewrite X in O'. eexists _, rest. split; [exact O'|exact TB].
  - unfold image_entry, entry_text in O'.
    match type of O' with _ = rows ?w (split_on _ (nl ++ lit "[" ++ ?z ++ lit "] " ++ ?t)) =>
      destruct (rows_blank_head w hd t HN) as (rest & X); unfold hd in X; rewrite <- !app_assoc in X; rewrite X in O' end.
    exists (spaces (line_width bx') ++ nl), rest. rewrite <- app_assoc. split; [exact O'|].
    intros I. apply in_app_or in I as [I|[I|[]]]; [|discriminate]. apply repeat_spec in I. discriminate.
Qed.
End P.

(** ** Cases that meet the hypotheses, and refutations *)
Local Existing Instance U0.
Definition page (format link image : string) (left : Z) : options :=
  Options 67 (Some (root_box 67 (Sides 0 0 0 left) sides0 sides0 None)) [] [] (lit format) (lit link) (lit image) (lit "host") 70 true.
Definition a_link (target text : string) : list op := [starta "a" [("href", target)]%string; txt text; stop "a"].
Definition titled_link (title : str) : list op :=
  [OStart (lit "a") [(lit "href", Some (lit "/x")); (lit "title", Some title)]; txt "x"; stop "a"].

Example record_case : exists g s sg n lk out,
  closing (page "gophermap" "footer" "inline" 0) g ([start "p"] ++ a_link "gopher://h.org/dir/a.txt" "some text") s sg /\ gophermap g
  /\ is_tagged (p_dom s) 1 n (lit "a") /\ link_of n lk /\ entry (p_dom s) sg 1 (g_box g) out
  /\ (forall hr, lk_href lk = Some hr -> one_field hr /\ (Forall (fun c => c < 128)%N hr \/ gl_host (lk_gopher lk) = Some (g_host g)))
  /\ one_field (g_host g) /\ one_field (truncate 10 (lit "some text")).
Proof.
  eexists; eexists; eexists; eexists; eexists; eexists.
  split; [constructor; [split; reflexivity|vm_compute; reflexivity|vm_compute; reflexivity|vm_compute; reflexivity]|].
  split; [vm_compute; reflexivity|]. split; [split; vm_compute; reflexivity|]. split; [vm_compute; reflexivity|].
  split; [vm_compute; reflexivity|]. split.
  - intros hr X. injection X as <-. split; [split; vm_compute; intuition discriminate|]. left. repeat constructor.
  - split; split; vm_compute; intuition discriminate.
Qed.
Example entry_case : exists g s sg n lk out,
  closing (page "text" "footer" "inline" 0) g ([start "p"] ++ a_link "/x" "some longer text") s sg /\ ~ gophermap g
  /\ g_link g <> lit "inline" /\ is_tagged (p_dom s) 1 n (lit "a") /\ link_of n lk /\ entry (p_dom s) sg 1 (g_box g) out
  /\ (strip (lit "some longer text") = lit "some longer text").
Proof.
  eexists; eexists; eexists; eexists; eexists; eexists.
  split; [constructor; [split; reflexivity|vm_compute; reflexivity|vm_compute; reflexivity|vm_compute; reflexivity]|].
  split; [vm_compute; discriminate|]. split; [vm_compute; discriminate|]. split; [split; vm_compute; reflexivity|]. split; [vm_compute; reflexivity|].
  split; vm_compute; reflexivity.
Qed.
Definition short_links : rcls := Rcls KExtLink ([kv "max_link_description" (VInt 3)] :: rc_mro ExtractedLinkRenderer).
Example limit_case : rc_kind short_links = KExtLink
  /\ sattr (class_settings short_links) (lit "max_link_description") = Ok (VInt 3)
  /\ sattr (class_settings short_links) (lit "templates") = sattr (class_settings ExtractedLinkRenderer) (lit "templates")
  /\ 3 < len (strip (lit " word ")).
Proof. vm_compute. auto. Qed.
Example reference_case : exists g s sg n m lk lk' o1 o2 o3 o4,
  closing (page "text" "footer" "after_block" 0) g ([start "p"] ++ a_link "/x" "text" ++ [starta "img" [("src", "/y.png")]%string]) s sg
  /\ g_link g <> lit "inline" /\ g_image g <> lit "inline"
  /\ is_tagged (p_dom s) 1 n (lit "a") /\ link_of n lk /\ rendered (p_dom s) sg 1 (g_box g) o1 /\ entry (p_dom s) sg 1 (g_box g) o2
  /\ is_tagged (p_dom s) 3 m (lit "img") /\ link_of m lk' /\ rendered (p_dom s) sg 3 (g_box g) o3 /\ entry (p_dom s) sg 3 (g_box g) o4.
Proof.
  do 11 eexists. split; [constructor; [split; reflexivity|vm_compute; reflexivity|vm_compute; reflexivity|vm_compute; reflexivity]|].
  split; [vm_compute; discriminate|]. split; [vm_compute; discriminate|].
  repeat split; vm_compute; reflexivity.
Qed.

(** A tab in the title makes a fifth field, a line break a second line. *)
Theorem C46_title_tab_refuted : exists t o, t = lit "a" ++ tab ++ lit "b"
  /\ render_doc (page "gophermap" "footer" "inline" 0) (titled_link t) = Ok o
  /\ o = lit "[x][1]" ++ nl ++ lit "1[1] a" ++ tab ++ lit "b" ++ tab ++ lit "/x" ++ tab ++ lit "host" ++ tab ++ lit "70" ++ nl.
Proof. eexists; eexists. split; [reflexivity|]. split; [vm_compute; reflexivity|vm_compute; reflexivity]. Qed.
Theorem C46_title_break_refuted : exists t o, t = lit "a" ++ nl ++ lit "b"
  /\ render_doc (page "gophermap" "footer" "inline" 0) (titled_link t) = Ok o
  /\ o = lit "[x][1]" ++ nl ++ lit "1[1] a" ++ nl ++ lit "b" ++ tab ++ lit "/x" ++ tab ++ lit "host" ++ tab ++ lit "70" ++ nl.
Proof. eexists; eexists. split; [reflexivity|]. split; [vm_compute; reflexivity|vm_compute; reflexivity]. Qed.
(** The record after that of an image is not at the start of its line. *)
Theorem C46_image_refuted : exists h o,
  h = [starta "img" [("src", "/x.png")]%string; starta "img" [("src", "/y.png")]%string]
  /\ render_doc (page "gophermap" "footer" "footer" 0) h = Ok o
  /\ o = lit "[Image][1][Image][2]" ++ nl ++ lit "I[1] Image" ++ tab ++ lit "/x.png" ++ tab ++ lit "host" ++ tab ++ lit "70" ++ nl
         ++ spaces 67 ++ lit "I[2] Image" ++ tab ++ lit "/y.png" ++ tab ++ lit "host" ++ tab ++ lit "70" ++ nl.
Proof. eexists; eexists. split; [reflexivity|]. split; [vm_compute; reflexivity|vm_compute; reflexivity]. Qed.
(** The left margin of the page is put in front of records too. *)
Theorem C46_margin_refuted : exists o,
  render_doc (page "gophermap" "footer" "inline" 2) (a_link "/x" "x") = Ok o
  /\ o = lit "  [x][1]" ++ nl ++ lit "  1[1] x" ++ tab ++ lit "/x" ++ tab ++ lit "host" ++ tab ++ lit "70" ++ nl.
Proof. eexists. split; [vm_compute; reflexivity|vm_compute; reflexivity]. Qed.
(** Nine characters with a blank on each side are listed with an ellipsis. *)
Theorem C47_padded_refuted : exists o, description 10 (lit " 123456789 ") = lit "123456789"
  /\ render_doc (page "text" "footer" "inline" 0) (a_link "/x" " 123456789 ") = Ok o
  /\ o = lit "[ 123456789 ][1]" ++ nl ++ nl ++ lit "[1] 123456789...: /x".
Proof. eexists. split; [vm_compute; reflexivity|]. split; [vm_compute; reflexivity|vm_compute; reflexivity]. Qed.
(** Settings for links in the main table do not reach links placed inline. *)
Definition link_rules (st : settings) : options :=
  Options 67 None [(lit "a", ([sl (el "a")], RPair (Some LinkRenderer) (Some st)))] [] (lit "text") (lit "inline") (lit "inline") [] 70 true.
Theorem C48_inline_refuted : forall st, render_doc (link_rules st) (a_link "/x" "text") = Ok (lit "[text](/x)").
Proof. intros st. vm_compute. reflexivity. Qed.
(** Tables that differ. *)
Example settings_case : exists t, same_but_settings (o_ext (with_ext default_options [(lit "a", ([sl (el "a")], RPair (Some ExtractedLinkRenderer) (Some [])))])) t
  /\ t = [(lit "a", ([sl (el "a")], RPair (Some ExtractedLinkRenderer) (Some [kv "max_link_description" (VInt 3)])))].
Proof. eexists. split; [|reflexivity]. constructor; [repeat split|constructor]. Qed.

Print Assumptions C46_record_partial.
Print Assumptions C46_title_tab_refuted.
Print Assumptions C46_title_break_refuted.
Print Assumptions C46_image_refuted.
Print Assumptions C46_margin_refuted.
Print Assumptions C47_description_partial.
Print Assumptions C47_entry_partial.
Print Assumptions C47_limit_partial.
Print Assumptions C47_padded_refuted.
Print Assumptions C48_extracted_refuted.
Print Assumptions C48_inline_refuted.
Print Assumptions C53_link.
Print Assumptions C53_image.
Close Scope Z_scope.
