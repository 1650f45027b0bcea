(** What headings, lists, inline markup, code and quotations look like.  The
    theorems are about every document, page box and placement with the
    library's own renderers ([closing]); they say what an element contributes
    ([rendered]) given the text of its children ([content]). *)
From Verif Require Import BaseFacts StrFacts SelFacts TreeFacts DomFacts LineFacts BoxFacts RenderFacts ElemFacts ElemText QuoteFacts Fixture.
From Verif Require Export ElemSpec.
Open Scope Z_scope.

Section P.
Context `{U : Uni}.

(** ** C32: headings *)
Theorem C32_heading_partial : forall o g h s sg i n t k bx out, closing o g h s sg -> In (t, k) headings ->
  is_tagged (p_dom s) i n (lit t) -> rendered (p_dom s) sg i bx out ->
  exists c, content (p_dom s) sg n (inner_box bx 1 1 None) c
    /\ out = nl ++ rows (line_width bx) (split_on 10%N (lit k ++ lit " " ++ c ++ lit " " ++ lit k)) ++ nl.
Proof. exact heading_shape. Qed.
(** The heading is one line of its own when its content is one line. *)
Theorem C32_heading_line_partial : forall o g h s sg i n t k bx out, closing o g h s sg -> In (t, k) headings ->
  is_tagged (p_dom s) i n (lit t) -> rendered (p_dom s) sg i bx out ->
  exists c, content (p_dom s) sg n (inner_box bx 1 1 None) c
    /\ (~ In 10%N c -> exists m, out = nl ++ (lit k ++ lit " " ++ c ++ lit " " ++ lit k ++ spaces m) ++ nl).
Proof.
  intros o g h s sg i n t k bx out C I T R. destruct (heading_shape _ _ _ _ _ _ _ _ _ _ _ C I T R) as (c & H1 & H2).
  exists c. split; auto. intros NL. exists (line_width bx - len (lit k ++ lit " " ++ c ++ lit " " ++ lit k)).
  rewrite H2. rewrite split_on_none.
  - unfold rows. cbn [map]. change (join nl [pad (line_width bx) (lit k ++ lit " " ++ c ++ lit " " ++ lit k)]) with (pad (line_width bx) (lit k ++ lit " " ++ c ++ lit " " ++ lit k)). unfold pad. repeat (rewrite <- app_assoc; cbn [app]). reflexivity.
  - assert (K : ~ In 10%N (lit k)).
    { clear -I. cbn [headings In] in I.
      repeat (destruct I as [I|I]; [injection I as <- <-; vm_compute; intuition discriminate|]). contradiction. }
    assert (SP : ~ In 10%N (lit " ")) by (vm_compute; intuition discriminate).
    rewrite !in_app_iff. tauto.
Qed.

(** ** C33: numbering, when only items are in the list *)
Theorem C33_numbers_partial : forall o g h s sg i n j m before behind bx out, closing o g h s sg ->
  is_tagged (p_dom s) i n (lit "li") -> n_parent n = PNode j -> is_tagged (p_dom s) j m (lit "ol") ->
  n_children m = before ++ i :: behind ->
  (forall x, In x before -> exists nx, is_tagged (p_dom s) x nx (lit "li")) ->
  rendered (p_dom s) sg i bx out ->
  exists label top c lines, label = str_of_Z (1 + Z.of_nat (length (list_items (p_dom s) before))) ++ lit ". " /\ 0 <= top <= 1
    /\ content (p_dom s) sg n (inner_box bx top 0 (Some (label ++ lit "{}"))) c
    /\ wrapped (wrap_width bx - len label) c lines
    /\ out = newlines top ++ rows (line_width bx) (labelled label lines).
Proof.
  intros o g h s sg i n j m before behind bx out C T HP [TM1 TM2] HB LI R. destruct T as [T1 T2].
  assert (IO : in_ol (p_dom s) i = true) by (unfold in_ol, parent_tag; rewrite T1, HP, TM1, TM2; reflexivity).
  destruct (ol_shape _ _ _ _ _ _ _ _ _ C (conj T1 T2) IO R) as (z & top & c & lines & EZ & HT & HC & HW & E).
  assert (Z1 : z = 1 + Z.of_nat (length before)).
  { unfold ordinal in EZ. rewrite T1, HP in EZ. unfold children_of in EZ. rewrite TM1, HB in EZ.
    pose proof (reach_wf _ _ _ (cl_fed _ _ _ _ _ C)) as W. pose proof (wf_nodup _ W (PNode j)) as ND. unfold children_of in ND. rewrite TM1, HB in ND.
    assert (NI : forall l, ~ In i l -> nat_index i (l ++ i :: behind) = Some (length l)).
    { induction l as [|x l IH]; intros H; cbn [app nat_index length]; [now rewrite Nat.eqb_refl|].
      destruct (Nat.eqb_spec i x); [elim H; now left|]. rewrite IH; [auto|intros X; apply H; now right]. }
    rewrite NI in EZ; [injection EZ as <-; lia|]. intros X. apply NoDup_remove_2 in ND. apply ND. apply in_or_app. now left. }
  assert (F : list_items (p_dom s) before = before).
  { clear -LI. induction before as [|x l IH]; auto. cbn [list_items filter] in *. destruct (LI x (or_introl eq_refl)) as (nx & E1 & E2).
    rewrite E1, E2, seqb_refl. f_equal. apply IH. intros y Y. apply LI. now right. }
  rewrite F. subst z. eexists _, top, c, lines. split; [reflexivity|]. split; auto. rewrite <- app_assoc. split; auto.
Qed.

(** The numbers of a renderer class with its own start and step, given as class
    settings: the k-th child is labelled [start + (k-1) * step]. *)
Theorem C33_start_step_partial : forall d cl i n j m before behind ctx r a b, rc_kind cl = KOrdered ->
  sattr (class_settings cl) (lit "start_index") = Ok (VInt a) -> sattr (class_settings cl) (lit "step") = Ok (VInt b) ->
  sattr (class_settings cl) (lit "line_template") = Ok (vs "{0}. {1}") ->
  node_at d i = Some n -> n_parent n = PNode j -> node_at d j = Some m -> n_children m = before ++ i :: behind ->
  ~ In i before -> c_settings ctx = None ->
  instantiate d cl i ctx = Ok r ->
  sattr (i_settings r) (lit "line_template") = Ok (VStr (str_of_Z (a + Z.of_nat (length before) * b) ++ lit ". {}")).
Proof.
  intros d cl i n j m before behind ctx r a b K A B L HN HP HM HB NI CS H. unfold instantiate in H. cbv zeta in H.
  rewrite K, A, B, L in H. cbn [bind] in H. change (want_int (VInt a)) with (Ok a) in H. change (want_int (VInt b)) with (Ok b) in H. cbn [bind] in H.
  assert (O : ordinal d i a b = Ok (Z.of_nat (length before) * b + a)).
  { unfold ordinal, children_of. rewrite HN, HP, HM, HB.
    assert (G : forall l, ~ In i l -> nat_index i (l ++ i :: behind) = Some (length l)).
    { induction l as [|x l IH]; intros F; cbn [app nat_index length]; [now rewrite Nat.eqb_refl|].
      destruct (Nat.eqb_spec i x); [elim F; now left|]. rewrite IH; [auto|intros X; apply F; now right]. }
    now rewrite G. }
  rewrite O in H. cbn [bind vs want_str] in H. set (z := Z.of_nat (length before) * b + a) in *.
  change (format (lit "{0}. {1}") [FInt z; FStr (lit "{}")] []) with (Ok (str_of_Z z ++ lit ". {}" : str)) in H. cbn [bind] in H.
  unfold adjust in H. rewrite CS in H. cbn [bind is_block] in H.
  apply bind_Ok in H as (bv & E1 & H). apply bind_Ok in H as (bb & E2 & H). apply bind_Ok in H as (bx & E3 & H). apply ok_inj in H. subst r.
  cbn [i_settings]. unfold sattr. rewrite dget_dset_same. do 4 f_equal. unfold z. lia.
Qed.

(** ** C34: inline markup *)
Theorem C34_markers : forall o g h s sg i n t k bx out, closing o g h s sg -> In (t, k) markers ->
  is_tagged (p_dom s) i n (lit t) -> rendered (p_dom s) sg i bx out ->
  exists c, content (p_dom s) sg n bx c /\ out = lit k ++ c ++ lit k.
Proof. exact inline_shape. Qed.
Theorem C34_break : forall o g h s sg i n bx out, closing o g h s sg ->
  is_tagged (p_dom s) i n (lit "br") -> rendered (p_dom s) sg i bx out -> out = nl.
Proof. exact break_shape. Qed.

(** ** C35: code and pre *)
Theorem C35_code_partial : forall o g h s sg i n bx out, closing o g h s sg ->
  is_tagged (p_dom s) i n (lit "code") -> rendered (p_dom s) sg i bx out ->
  exists c, content (p_dom s) sg n bx c
    /\ (directly_in (p_dom s) i "pre" -> out = c)
    /\ (~ directly_in (p_dom s) i "pre" -> In 10%N c -> out = lit "```" ++ nl ++ c ++ nl ++ lit "```" ++ nl)
    /\ (~ directly_in (p_dom s) i "pre" -> ~ In 10%N c -> out = lit "`" ++ c ++ lit "`").
Proof.
  intros o g h s sg i n bx out C T R. destruct (code_shape _ _ _ _ _ _ _ _ _ C T R) as (c & HC & E). exists c. split; auto.
  assert (P : pre_parent (p_dom s) i = true <-> directly_in (p_dom s) i "pre").
  { destruct T as [T _]. unfold pre_parent, directly_in, is_tagged. rewrite T. split.
    - intros H. destruct (n_parent n) as [| |j] eqn:EP; try discriminate. destruct (node_at (p_dom s) j) as [m|] eqn:EM; try discriminate.
      destruct (n_tag m) as [t|] eqn:ET; try discriminate. exists n, j, m. destruct (seqb_spec t (lit "pre")); try discriminate. subst t. auto.
    - intros (n' & j & m & E1 & E2 & E3 & E4). injection E1 as <-. rewrite E2, E3, E4. apply seqb_refl. }
  assert (Q : has_char 10%N c = true <-> In 10%N c).
  { unfold has_char. rewrite existsb_exists. split; [intros (x & X1 & X2); apply N.eqb_eq in X2; now subst|intros X; exists 10%N; split; auto]. }
  destruct (pre_parent (p_dom s) i); [split; [auto|split; intros F; elim F; now apply P]|].
  split; [intros F; apply P in F; discriminate|]. destruct (has_char 10%N c); split; intros _ F; auto.
  - elim F. now apply Q.
  - apply Q in F. discriminate.
Qed.
Theorem C35_pre : forall o g h s sg i n bx out, closing o g h s sg ->
  is_tagged (p_dom s) i n (lit "pre") -> rendered (p_dom s) sg i bx out ->
  exists c ls, content (p_dom s) sg n (inner_box bx 1 1 None) c /\ lines_of c ls
    /\ out = nl ++ (match ls with [] => spaces (line_width bx)
                    | _ => rows (line_width bx) (map (fun b => spaces 4 ++ b) (bodies ls)) end) ++ nl.
Proof. exact pre_shape. Qed.

(** ** C36: quotations *)
Theorem C36_quote : forall o g h s sg i n bx out, closing o g h s sg ->
  is_tagged (p_dom s) i n (lit "blockquote") -> rendered (p_dom s) sg i bx out ->
  exists c ls, content (p_dom s) sg n (inner_box bx 1 1 (Some (lit "> {}"))) c /\ lines_of c ls
    /\ out = nl ++ (match ls with [] => spaces (line_width bx)
                    | _ => rows (line_width bx) (map (fun b => lit "> " ++ b) (bodies ls)) end) ++ nl.
Proof. exact quote_shape. Qed.
(** One marker per level: a line of the content of a quotation [k] quotations
    inside another comes out after [k + 1] markers. *)
Theorem C36_nested : forall o g h s sg, closing o g h s sg ->
  forall k i j, quote_chain (p_dom s) k i j -> forall bx out, rendered (p_dom s) sg i bx out ->
  exists n bx' c, is_tagged (p_dom s) j n (lit "blockquote") /\ content (p_dom s) sg n bx' c
    /\ forall ls l, lines_of c ls -> In l (bodies ls) -> exists m, shows_line out (copies (S k) (lit "> ") ++ l ++ spaces m).
Proof. exact quote_chain_shows. Qed.

(** ** C56: suppressed elements.  For any rule table, not only the library's. *)
Theorem C56_nothing_partial : forall g h s sg i n t st bx out, run g h pstate0 = Ok s ->
  assign_all g (p_dom s) (p_asg s) (seq 0 (length (d_nodes (p_dom s)))) = Ok sg ->
  is_tagged (p_dom s) i n t -> t <> lit "a" -> t <> lit "img" ->
  In (get_renderer g (p_dom s) i) [Ok (RPlain (Some NonRenderer)); Ok (RPair (Some NonRenderer) st)] ->
  rendered (p_dom s) sg i bx out -> out = [].
Proof.
  intros g h s sg i n t st bx out HR HA T NA NI G R. pose proof (reach_wf _ _ _ HR) as W. destruct T as [T1 T2].
  assert (HD : n_data n = None). { pose proof (wf_kind _ W _ _ T1) as K. rewrite T2 in K. destruct (n_data n); [contradiction|auto]. }
  assert (IL : is_link t = false).
  { unfold is_link. destruct (seqb_spec t (lit "a")); [contradiction|]. destruct (seqb_spec t (lit "img")); [contradiction|]. reflexivity. }
  assert (HL : n_link n = None).
  { pose proof (lo_info _ _ (reach_links _ _ _ HR) _ _ T1) as K. unfold link_info in K. rewrite T2, IL in K. exact K. }
  destruct (assign_all_get _ _ _ _ _ i HA) as (a & EA & EG). { apply in_seq. pose proof (node_at_lt _ _ _ T1). lia. }
  assert (AR : a_rend a = Some NonRenderer).
  { unfold assign_one in EA. rewrite T1, T2, IL in EA. destruct G as [G|[G|[]]]; rewrite <- G in EA; cbn [bind] in EA; apply ok_inj in EA; subst a; reflexivity. }
  destruct (element_rendered _ _ _ _ _ _ _ (reach_downward _ _ _ HR) (conj T1 T2) HD HL R) as (r & bx' & c & (cl & E1 & E2) & _ & _ & O).
  rewrite EG, AR in E1. injection E1 as <-. unfold instantiate in E2. cbn [NonRenderer rc_kind is_block bind] in E2. apply ok_inj in E2. subst r.
  unfold render_inst in O. cbn [i_kind] in O. now apply ok_inj in O.
Qed.
End P.

(** ** Cases and findings *)
Local Existing Instance U0.
(** A document that meets the hypotheses above: node [i] of [h] is a [t]. *)
Definition meets (h : list op) (i : nat) (t : string) : Prop :=
  exists s sg n out, closing default_options g0 h s sg /\ is_tagged (p_dom s) i n (lit t)
    /\ rendered (p_dom s) sg i (g_box g0) out.
Ltac meet := eexists; eexists; eexists; eexists; split;
  [constructor; [split; reflexivity|reflexivity|vm_compute; reflexivity|vm_compute; reflexivity]
  |split; [split; vm_compute; reflexivity|vm_compute; reflexivity]].
Example heading_case : meets [start "h2"; txt "Title "; start "em"; txt "x"; stop "em"; stop "h2"] 0 "h2".
Proof. meet. Qed.
Example item_case : meets [start "ol"; start "li"; txt "a"; stop "li"; start "li"; txt "b"; stop "li"; stop "ol"] 3 "li".
Proof. meet. Qed.
Example inline_case : meets [start "p"; txt "a "; start "b"; txt "{x}"; start "i"; txt "y"; stop "i"; stop "b"; start "br"; stop "p"] 2 "b".
Proof. meet. Qed.
Example break_case : meets [start "p"; txt "a "; start "br"; txt "b"; stop "p"] 2 "br".
Proof. meet. Qed.
Example code_case : meets [start "p"; start "code"; txt "x = 1"; stop "code"; stop "p"] 1 "code".
Proof. meet. Qed.
Example pre_case : meets [start "pre"; start "code"; txt "x = 1"; OData nl; txt "  y"; stop "code"; stop "pre"] 0 "pre".
Proof. meet. Qed.
Definition quote_doc : list op :=
  [start "blockquote"; start "p"; txt "a b"; stop "p"; start "blockquote"; start "p"; txt "c"; stop "p"; stop "blockquote"; stop "blockquote"].
Example quote_case : meets quote_doc 0 "blockquote".
Proof. meet. Qed.
Example chain_case : exists s sg out, closing default_options g0 quote_doc s sg
  /\ quote_chain (p_dom s) 1 0 3 /\ rendered (p_dom s) sg 0 (g_box g0) out.
Proof.
  eexists; eexists; eexists; split; [constructor; [split; reflexivity|reflexivity|vm_compute; reflexivity|vm_compute; reflexivity]|].
  split; [|vm_compute; reflexivity]. eapply qc_in.
  - split; vm_compute; reflexivity.
  - cbn. right. left. reflexivity.
  - eapply qc_here. split; vm_compute; reflexivity.
Qed.
(** The third item of a list with a class of its own starting at 10 by 5. *)
Definition by_fives : rcls :=
  Rcls KOrdered ([kv "start_index" (VInt 10); kv "step" (VInt 5)] :: rc_mro OrderedListItemRenderer).
Example start_step_case : exists s r,
  run g0 [start "ol"; start "li"; stop "li"; start "li"; stop "li"; start "li"; stop "li"] pstate0 = Ok s
  /\ sattr (class_settings by_fives) (lit "start_index") = Ok (VInt 10)
  /\ sattr (class_settings by_fives) (lit "step") = Ok (VInt 5)
  /\ sattr (class_settings by_fives) (lit "line_template") = Ok (vs "{0}. {1}")
  /\ instantiate (p_dom s) by_fives 3 (Ctx None (Some (g_box g0)) None None) = Ok r
  /\ sattr (i_settings r) (lit "line_template") = Ok (vs "20. {}").
Proof. eexists. eexists. repeat split; vm_compute; reflexivity. Qed.

(** C32, C33 and C35 as listed in properties.jsonl do not hold. *)
Definition renders (h : list op) (o : str) : Prop := render_doc default_options h = Ok o.
(** No blank line between inline text and a heading, or a heading and inline text. *)
Theorem C32_blank_before_refuted : exists h,
  h = [txt "x"; start "h1"; txt "T"; stop "h1"] /\ renders h (lit "x" ++ nl ++ lit "# T #" ++ nl).
Proof. eexists. split; [reflexivity|]. vm_compute. reflexivity. Qed.
Theorem C32_blank_after_refuted : exists h,
  h = [start "h1"; txt "T"; stop "h1"; txt "x"] /\ renders h (nl ++ lit "# T #" ++ nl ++ lit "x").
Proof. eexists. split; [reflexivity|]. vm_compute. reflexivity. Qed.
(** A line break in a heading leaves hashes on one side of each of its lines. *)
Theorem C32_break_refuted : exists h,
  h = [start "h1"; txt "a"; start "br"; txt "b"; stop "h1"] /\ renders h (nl ++ lit "# a" ++ nl ++ lit "b #" ++ nl).
Proof. eexists. split; [reflexivity|]. vm_compute. reflexivity. Qed.
(** White space between the items is counted as well: the first item is number
    2, the second number 4. *)
Theorem C33_whitespace_refuted : exists h,
  h = [start "ol"; txt " "; start "li"; txt "a"; stop "li"; txt " "; start "li"; txt "b"; stop "li"; stop "ol"]
  /\ renders h (nl ++ lit " 2. a" ++ nl ++ lit "4. b" ++ nl).
Proof. eexists. split; [reflexivity|]. vm_compute. reflexivity. Qed.
(** start_index given in the rule table is ignored. *)
Definition starting_at (z : Z) : options :=
  Options 67 None [(lit "ol > li", ([sl (chi (el "ol") (el "li"))],
      RPair (Some OrderedListItemRenderer) (Some [kv "start_index" (VInt z)])))]
    [] (lit "text") (lit "footer") (lit "inline") [] 70 true.
Theorem C33_table_start_refuted : forall z, render_doc (starting_at z) [start "ol"; start "li"; txt "a"; stop "li"; stop "ol"]
  = Ok (nl ++ lit "1. a" ++ nl).
Proof. intros z. vm_compute. reflexivity. Qed.
(** Code inside pre, but not directly, gets its marks all the same. *)
Theorem C35_inside_pre_refuted : exists h,
  h = [start "pre"; start "b"; start "code"; txt "x"; stop "code"; stop "b"; stop "pre"]
  /\ renders h (nl ++ lit "    **`x`**" ++ nl).
Proof. eexists. split; [reflexivity|]. vm_compute. reflexivity. Qed.
(** C56: removing a suppressed element changes the rest: the link inside it is
    listed and takes a number. *)
Definition without_nav : options :=
  Options 67 None [(lit "nav", ([sl (el "nav")], RPlain (Some NonRenderer)))]
    [] (lit "text") (lit "footer") (lit "inline") [] 70 true.
Example suppressed_case : exists g s sg n out,
  construct without_nav = Ok g
  /\ run g [start "nav"; start "p"; txt "a"; stop "p"; stop "nav"] pstate0 = Ok s
  /\ assign_all g (p_dom s) (p_asg s) (seq 0 (length (d_nodes (p_dom s)))) = Ok sg
  /\ is_tagged (p_dom s) 0 n (lit "nav")
  /\ In (get_renderer g (p_dom s) 0) [Ok (RPlain (Some NonRenderer)); Ok (RPair (Some NonRenderer) (Some []))]
  /\ rendered (p_dom s) sg 0 (g_box g) out.
Proof.
  eexists; eexists; eexists; eexists; eexists.
  split; [vm_compute; reflexivity|]. split; [vm_compute; reflexivity|]. split; [vm_compute; reflexivity|].
  split; [split; vm_compute; reflexivity|]. split; [right; left; vm_compute; reflexivity|vm_compute; reflexivity].
Qed.
Theorem C56_links_refuted : exists inner rest o1 o2,
  inner = [start "nav"; starta "a" [("href", "/x")]%string; txt "x"; stop "a"; stop "nav"]
  /\ rest = [starta "a" [("href", "/y")]%string; txt "y"; stop "a"]
  /\ render_doc without_nav (inner ++ rest) = Ok o1 /\ render_doc without_nav rest = Ok o2 /\ o1 <> o2.
Proof.
  eexists; eexists; eexists; eexists. split; [reflexivity|]. split; [reflexivity|]. split; [vm_compute; reflexivity|].
  split; [vm_compute; reflexivity|]. vm_compute. discriminate.
Qed.
Print Assumptions C32_heading_partial.
Print Assumptions C32_heading_line_partial.
Print Assumptions C32_blank_before_refuted.
Print Assumptions C32_blank_after_refuted.
Print Assumptions C32_break_refuted.
Print Assumptions C33_numbers_partial.
Print Assumptions C33_start_step_partial.
Print Assumptions C33_whitespace_refuted.
Print Assumptions C33_table_start_refuted.
Print Assumptions C34_markers.
Print Assumptions C34_break.
Print Assumptions C35_code_partial.
Print Assumptions C35_pre.
Print Assumptions C35_inside_pre_refuted.
Print Assumptions C36_quote.
Print Assumptions C36_nested.
Print Assumptions C56_nothing_partial.
Print Assumptions C56_links_refuted.
Close Scope Z_scope.
