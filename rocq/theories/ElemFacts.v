(** What each of the library's renderers makes of its content. *)
From Verif Require Import BaseFacts StrFacts SelFacts LineFacts BoxFacts AnsiStyle.
From Verif Require Export RenderFacts ElemSpec.
Open Scope Z_scope.

Section E.
Context `{U : Uni}.

(** ** Templates *)
Definition brace (c : N) : bool := ((c =? 123) || (c =? 125))%N.
Lemma run_plain : forall f p t m, forallb (fun c => negb (brace c)) p = true ->
  run_template f (p ++ t) InText m = let* (x, m') := run_template f t InText m in Ok (p ++ x, m').
Proof.
  intros f. induction p as [|c p IH]; intros t m H.
  - cbn [app]. destruct (run_template f t InText m) as [[? ?]|]; reflexivity.
  - cbn [forallb] in H. apply andb_prop in H as [H1 H2]. unfold brace in H1. cbn [app run_template].
    destruct (c =? 123)%N; [discriminate|]. destruct (c =? 125)%N; [discriminate|].
    rewrite IH by auto. destruct (run_template f t InText m) as [[? ?]|]; reflexivity.
Qed.
Lemma str_of_Z_plain : forall z, forallb (fun c => negb (brace c)) (str_of_Z z) = true.
Proof.
  assert (G : forall u, forallb (fun c => negb (brace c)) (uint_str u) = true) by (induction u; auto).
  intros z. unfold str_of_Z. destruct (Z.to_int z); auto. cbn [forallb]. now rewrite G.
Qed.
Lemma label_format : forall z x, format (str_of_Z z ++ lit ". {}") [FStr x] [] = Ok (str_of_Z z ++ lit ". " ++ x).
Proof.
  intros. unfold format, build. rewrite run_plain by apply str_of_Z_plain.
  match goal with |- context [run_template ?f (lit ". {}") InText ?m] =>
    replace (run_template f (lit ". {}") InText m) with (Ok (lit ". " ++ x ++ [] : str, FAuto 1)) by reflexivity end.
  cbn [bind]. now rewrite app_nil_r.
Qed.

(** ** Blocks without border, padding and side margins *)
Lemma rows_nil : forall w, rows w [[]] = spaces w.
Proof. intros. unfold rows, pad. cbn [map join app]. change (len []) with 0. now rewrite Z.sub_0_r. Qed.
Lemma outer_flush : forall b s, sd_left (b_margin b) = 0 ->
  outer_render b s = newlines (sd_top (b_margin b)) ++ s ++ newlines (sd_bottom (b_margin b)).
Proof.
  intros b s H. unfold outer_render. rewrite H. change (spaces 0) with ([] : str).
  rewrite (map_ext _ (fun l => l)) by reflexivity. now rewrite map_id, splitlines_concat.
Qed.
Definition no_border : val := VList [vs ""; vs ""; vs ""; vs ""].
Lemma line_width_inner : forall bx top bottom t, padded_width (inner_box bx top bottom t) = line_width bx.
Proof.
  intros. unfold padded_width, inner_box, line_width, child_box, lr, both. cbn [b_width b_total_margin b_total_border b_total_ltp b_ltp add_lr sd_left sd_right].
  unfold sides0. cbn [sd_left sd_right]. lia.
Qed.
Lemma block_flush : forall d r bx top bottom t c inner,
  i_box r = Some (inner_box bx top bottom t) -> sattr (i_settings r) (lit "border") = Ok no_border ->
  inner_render d r c = Ok inner ->
  block_render d r c = Ok (newlines top ++ rows (line_width bx) (split_on 10%N inner) ++ newlines bottom).
Proof.
  intros d r bx top bottom t c inner HB HS HI. unfold block_render. rewrite HI. cbn [bind].
  unfold border_render, the_box. rewrite HB, HS. cbn [bind].
  change (borders_of_val no_border) with (Ok (Borders [] [] [] [])). cbn [bind].
  rewrite outer_flush by reflexivity. cbn [b_margin inner_box child_box sd_top sd_bottom].
  f_equal. f_equal. f_equal. unfold rows. f_equal. unfold border_rows. cbn [bo_top bo_bottom map].
  cbn [inner_box child_box b_padding sides0 sd_top sd_bottom repeat Z.to_nat app].
  rewrite !app_nil_r. apply map_ext. intros l. unfold border_row, pad. cbn [bo_left bo_right].
  rewrite line_width_inner. cbn [inner_box child_box b_padding sides0 sd_left]. change (spaces 0) with ([] : str).
  cbn [app]. now rewrite app_nil_r.
Qed.

(** ** Instances *)
Definition plain_ctx (st : settings) (bx : box) : ctx := Ctx (Some st) (Some bx) None None.
Definition block_inst (cl : rcls) (st : settings) (bx : box) (i : nat) (top bottom : Z) (t : option str) : inst :=
  Inst (rc_kind cl) (dupdate (class_settings cl) st) (plain_ctx st bx) i (Some (inner_box bx top bottom t)) true.

Lemma div_inst : forall d i bx, instantiate d BlockRenderer i (plain_ctx [] bx) = Ok (block_inst BlockRenderer [] bx i 0 0 None).
Proof. reflexivity. Qed.
Lemma pre_inst : forall d i bx, instantiate d PreRenderer i (plain_ctx [] bx) = Ok (block_inst PreRenderer [] bx i 1 1 None).
Proof. reflexivity. Qed.
Lemma quote_inst : forall d i bx, instantiate d BlockQuoteRenderer i (plain_ctx [] bx)
  = Ok (block_inst BlockQuoteRenderer [] bx i 1 1 (Some (lit "> {}"))).
Proof. reflexivity. Qed.
Lemma list_inst : forall d i bx, instantiate d ListRenderer i (plain_ctx [] bx) = Ok (block_inst ListRenderer [] bx i 1 1 None).
Proof. reflexivity. Qed.
Lemma dl_inst : forall d i bx, instantiate d DefinitionListRenderer i (plain_ctx [] bx)
  = Ok (block_inst DefinitionListRenderer [] bx i 1 1 None).
Proof. reflexivity. Qed.
Lemma dd_inst : forall d i bx, instantiate d DefinitionListItemRenderer i (plain_ctx [] bx)
  = Ok (block_inst DefinitionListItemRenderer [] bx i 1 0 (Some (lit ": {}"))).
Proof. reflexivity. Qed.
Lemma p_inst : forall d i bx st, extra_settings (lit "p") st ->
  exists top bottom, 0 <= top <= 1 /\ 0 <= bottom <= 1 /\
  instantiate d ParagraphRenderer i (plain_ctx st bx) = Ok (block_inst ParagraphRenderer st bx i top bottom (Some (lit "{}"))).
Proof.
  intros d i bx st [-> |[[_ [<- |[<- |[<- |[]]]]]|[[H _]|[H _]]]].
  - exists 1, 1. repeat split; lia.
  - exists 0, 1. repeat split; lia.
  - exists 1, 0. repeat split; lia.
  - exists 0, 0. repeat split; lia.
  - vm_compute in H; discriminate.
  - vm_compute in H; discriminate.
Qed.
Lemma li_inst : forall d i bx st, extra_settings (lit "li") st ->
  exists top, 0 <= top <= 1 /\
  instantiate d ListItemRenderer i (plain_ctx st bx) = Ok (block_inst ListItemRenderer st bx i top 0 (Some (lit "* {}"))).
Proof.
  intros d i bx st [-> |[[H _]|[[_ [<- |[<- |[]]]]|[H _]]]].
  - exists 1. repeat split; lia.
  - vm_compute in H; discriminate.
  - exists 0. repeat split; lia.
  - exists 1. repeat split; lia.
  - vm_compute in H; discriminate.
Qed.
Lemma dt_inst : forall d i bx st, extra_settings (lit "dt") st ->
  exists top, 0 <= top <= 2 /\
  instantiate d DefinitionListTermHeaderRenderer i (plain_ctx st bx)
    = Ok (block_inst DefinitionListTermHeaderRenderer st bx i top 0 None).
Proof.
  intros d i bx st [-> |[[H _]|[[H _]|[_ ->]]]].
  - exists 2. repeat split; lia.
  - vm_compute in H; discriminate.
  - vm_compute in H; discriminate.
  - exists 0. repeat split; lia.
Qed.
(** An item of an ordered list. *)
Definition ol_settings (z : Z) (st : settings) : settings :=
  dupdate (dset (lit "line_template") (VStr (str_of_Z z ++ lit ". {}")) (class_settings OrderedListItemRenderer)) st.
Lemma ol_inst : forall d i bx st r, extra_settings (lit "li") st ->
  instantiate d OrderedListItemRenderer i (plain_ctx st bx) = Ok r ->
  exists top z, 0 <= top <= 1 /\ ordinal d i 1 1 = Ok z
  /\ r = Inst KOrdered (ol_settings z st) (plain_ctx st bx) i (Some (inner_box bx top 0 (Some (str_of_Z z ++ lit ". {}")))) true.
Proof.
  intros d i bx st r HX H. unfold instantiate in H. cbv zeta in H.
  change (rc_kind OrderedListItemRenderer) with KOrdered in H. cbv iota in H.
  change (sattr (class_settings OrderedListItemRenderer) (lit "start_index")) with (Ok (VInt 1)) in H.
  change (sattr (class_settings OrderedListItemRenderer) (lit "step")) with (Ok (VInt 1)) in H.
  change (sattr (class_settings OrderedListItemRenderer) (lit "line_template")) with (Ok (VStr (lit "{0}. {1}"))) in H.
  cbn [bind want_str] in H. change (want_int (VInt 1)) with (Ok 1) in H. cbn [bind] in H.
  destruct (ordinal d i 1 1) as [z|] eqn:EO; cbn [bind] in H; [|discriminate H].
  change (format (lit "{0}. {1}") [FInt z; FStr (lit "{}")] []) with (Ok (str_of_Z z ++ lit ". {}" : str)) in H. cbn [bind] in H.
  assert (T : template_of_val (Some (VStr (str_of_Z z ++ lit ". {}"))) = Ok (Some (str_of_Z z ++ lit ". {}"))).
  { unfold template_of_val. destruct (str_of_Z z); reflexivity. }
  set (tp := str_of_Z z ++ lit ". {}" : str) in *. unfold adjust in H. cbn [plain_ctx c_settings c_parent_box] in H.
  change (is_block KOrdered) with true in H. cbv iota in H.
  assert (G : forall st top, st = [] \/ st = margin_setting [top; 0; 0; 0] ->
     sattr (ol_settings z st) (lit "border") = Ok no_border /\
     (generate_box KOrdered (ol_settings z st) (Borders [] [] [] []) (Some bx)
      = let* t := template_of_val (Some (VStr tp)) in
        Ok (Some (inner_box bx (match st with [] => 1 | _ => top end) 0 t)))).
  { intros st0 top [-> | ->]; split; reflexivity. }
  assert (F : forall top, (st = [] \/ st = margin_setting [top; 0; 0; 0]) -> 0 <= top <= 1 ->
    r = Inst KOrdered (ol_settings z st) (plain_ctx st bx) i (Some (inner_box bx (match st with [] => 1 | _ => top end) 0 (Some tp))) true).
  { intros top HS Ht. destruct (G st top HS) as [G1 G2]. change (dupdate _ st) with (ol_settings z st) in H. rewrite G1 in H. cbn [bind] in H.
    change (borders_of_val no_border) with (Ok (Borders [] [] [] [])) in H. cbn [bind] in H. rewrite G2, T in H. cbn [bind] in H. now injection H as <-. }
  destruct HX as [-> |[[E _]|[[_ [<- |[<- |[]]]]|[E _]]]]; try (vm_compute in E; discriminate).
  - exists 1, z. split; [lia|]. split; auto. exact (F 1 (or_introl eq_refl) ltac:(lia)).
  - exists 0, z. split; [lia|]. split; auto. exact (F 0 (or_intror eq_refl) ltac:(lia)).
  - exists 1, z. split; [lia|]. split; auto. exact (F 1 (or_intror eq_refl) ltac:(lia)).
Qed.
(** A heading. *)
Lemma heading_inst : forall d i n t k bx r, In (t, k) headings -> is_tagged d i n (lit t) ->
  instantiate d MarkdownHeaderRenderer i (plain_ctx [] bx) = Ok r ->
  r = Inst KMdHeader (dset (lit "template") (VStr (lit k ++ lit " {} " ++ lit k)) (class_settings MarkdownHeaderRenderer))
        (plain_ctx [] bx) i (Some (inner_box bx 1 1 None)) true.
Proof.
  intros d i n t k bx r HI [HN HT] H.
  assert (M : md_template d i = Ok (lit k ++ lit " {} " ++ lit k)).
  { unfold md_template. rewrite HN, HT. cbn [headings In] in HI.
    repeat (destruct HI as [HI|HI]; [injection HI as <- <-; reflexivity|]). contradiction. }
  unfold instantiate in H. cbv zeta in H. change (rc_kind MarkdownHeaderRenderer) with KMdHeader in H. cbv iota in H.
  cbn [bind] in H. rewrite M in H. cbn [bind] in H. set (tp := lit k ++ lit " {} " ++ lit k : str) in *. clearbody tp.
  change (Ok (Inst KMdHeader (dset (lit "template") (VStr tp) (class_settings MarkdownHeaderRenderer))
        (plain_ctx [] bx) i (Some (inner_box bx 1 1 None)) true) = Ok r) in H. now injection H as <-.
Qed.
End E.
Close Scope Z_scope.
Open Scope Z_scope.
Section F.
Context `{U : Uni}.
Lemma ok_inj : forall {A} (a b : A), Ok a = Ok b -> b = a.
Proof. intros A a b H. now injection H. Qed.
(** An element that is not a link, under the library's own rules. *)
Lemma elem : forall o g h s sg i n t bx out cl, closing o g h s sg -> is_tagged (p_dom s) i n t ->
  is_link t = false -> class_for t (in_ol (p_dom s) i) = Some cl -> rendered (p_dom s) sg i bx out ->
  exists st r bx' c, extra_settings t st /\ instantiate (p_dom s) cl i (plain_ctx st bx) = Ok r
    /\ (if i_block r then i_box r = Some bx' else bx' = bx)
    /\ content (p_dom s) sg n bx' c /\ render_inst (p_dom s) r c = Ok out.
Proof.
  intros o g h s sg i n t bx out cl C T L K R. destruct (assigned _ _ _ _ _ _ _ _ C T) as (HD & A & _).
  rewrite K in A. destruct A as (AR & st & AS & X & _). pose proof (cl_fed _ _ _ _ _ C) as F.
  assert (NL : n_link n = None).
  { pose proof (lo_info _ _ (reach_links _ _ _ F) i n (proj1 T)) as I. unfold link_info in I. rewrite (proj2 T), L in I. exact I. }
  destruct (element_rendered _ _ _ _ _ _ _ (reach_downward _ _ _ F) T HD NL R) as (r & bx' & c & (cl' & E1 & E2) & B & CT & O).
  rewrite AR in E1. injection E1 as <-. rewrite AS, NL in E2. exists st, r, bx', c. auto.
Qed.
Lemma elem_other : forall o g h s sg i n t bx out, closing o g h s sg -> is_tagged (p_dom s) i n t ->
  is_link t = false -> class_for t (in_ol (p_dom s) i) = None -> rendered (p_dom s) sg i bx out ->
  content (p_dom s) sg n bx out.
Proof.
  intros o g h s sg i n t bx out C T L K R. destruct (assigned _ _ _ _ _ _ _ _ C T) as (HD & A & _).
  rewrite K in A. pose proof (cl_fed _ _ _ _ _ C) as F.
  assert (NL : n_link n = None).
  { pose proof (lo_info _ _ (reach_links _ _ _ F) i n (proj1 T)) as I. unfold link_info in I. rewrite (proj2 T), L in I. exact I. }
  destruct (element_rendered _ _ _ _ _ _ _ (reach_downward _ _ _ F) T HD NL R) as (r & bx' & c & (cl' & E1 & E2) & B & CT & O).
  rewrite A in E1. injection E1 as <-. 
  change (instantiate (p_dom s) Renderer i (Ctx (a_settings (asg_get i sg)) (Some bx) (match n_link n with Some lk => Some (lk_ctx lk) | None => None end) None))
    with (Ok (Inst KRenderer (adjust [] (Ctx (a_settings (asg_get i sg)) (Some bx) (match n_link n with Some lk => Some (lk_ctx lk) | None => None end) None)) (Ctx (a_settings (asg_get i sg)) (Some bx) (match n_link n with Some lk => Some (lk_ctx lk) | None => None end) None) i None false)) in E2.
  injection E2 as <-. cbn [i_block] in B. subst bx'. cbn [render_inst i_kind] in O. injection O as <-. exact CT.
Qed.
Lemma no_extra : forall t st, t <> lit "p" -> t <> lit "li" -> t <> lit "dt" -> extra_settings t st -> st = [].
Proof. intros t st H1 H2 H3 [H|[[H _]|[[H _]|[H _]]]]; auto; contradiction. Qed.

(** *** Inline elements *)
Lemma inline_shape : forall o g h s sg i n t m bx out, closing o g h s sg -> In (t, m) markers ->
  is_tagged (p_dom s) i n (lit t) -> rendered (p_dom s) sg i bx out ->
  exists c, content (p_dom s) sg n bx c /\ out = lit m ++ c ++ lit m.
Proof.
  intros o g h s sg i n t m bx out C HI T R.
  assert (G : exists cl, class_for (lit t) (in_ol (p_dom s) i) = Some cl /\ is_link (lit t) = false
     /\ lit t <> lit "p" /\ lit t <> lit "li" /\ lit t <> lit "dt"
     /\ forall d i bx c, exists r, instantiate d cl i (plain_ctx [] bx) = Ok r /\ i_block r = false
          /\ (forall out, render_inst d r c = Ok out -> out = lit m ++ c ++ lit m)).
  { clear T. cbn [markers In] in HI.
    repeat (destruct HI as [HI|HI]; [injection HI as <- <-; eexists; split; [reflexivity|]; split; [reflexivity|];
      split; [vm_compute; discriminate|]; split; [vm_compute; discriminate|]; split; [vm_compute; discriminate|];
      intros; eexists; split; [reflexivity|]; split; [reflexivity|]; intros o' H; vm_compute in H; injection H as <-; vm_compute; now rewrite ?app_nil_r|]).
    contradiction. }
  destruct G as (cl & K & L & N1 & N2 & N3 & G).
  destruct (elem _ _ _ _ _ _ _ _ _ _ _ C T L K R) as (st & r & bx' & c & X & I & B & CT & O).
  apply no_extra in X; auto. subst st. destruct (G (p_dom s) i bx c) as (r' & I' & B' & O'). rewrite I in I'. injection I' as ->.
  rewrite B' in B. subst bx'. exists c. split; auto.
Qed.
Lemma break_shape : forall o g h s sg i n bx out, closing o g h s sg ->
  is_tagged (p_dom s) i n (lit "br") -> rendered (p_dom s) sg i bx out -> out = nl.
Proof.
  intros o g h s sg i n bx out C T R.
  destruct (elem _ _ _ _ _ _ _ _ _ _ _ C T eq_refl eq_refl R) as (st & r & bx' & c & X & I & B & CT & O).
  apply no_extra in X; [|vm_compute; discriminate..]. subst st. vm_compute in I. injection I as <-. vm_compute in O. now injection O as <-.
Qed.
(** *** Code and preformatted text *)
Lemma code_shape : forall o g h s sg i n bx out, closing o g h s sg ->
  is_tagged (p_dom s) i n (lit "code") -> rendered (p_dom s) sg i bx out ->
  exists c, content (p_dom s) sg n bx c
    /\ out = if pre_parent (p_dom s) i then c
             else if has_char 10%N c then lit "```" ++ nl ++ c ++ nl ++ lit "```" ++ nl
             else lit "`" ++ c ++ lit "`".
Proof.
  intros o g h s sg i n bx out C T R.
  destruct (elem _ _ _ _ _ _ _ _ _ _ _ C T eq_refl eq_refl R) as (st & r & bx' & c & X & I & B & CT & O).
  apply no_extra in X; [|vm_compute; discriminate..]. subst st.
  change (instantiate (p_dom s) CodeRenderer i (plain_ctx [] bx)) with (Ok (Inst KCode (class_settings CodeRenderer) (plain_ctx [] bx) i None false)) in I.
  injection I as <-. cbn [i_block] in B. subst bx'. exists c. split; auto.
  unfold render_inst, code_render in O. cbn [i_kind i_tag i_settings] in O.
  destruct (pre_parent (p_dom s) i); [congruence|]. destruct (has_char 10%N c).
  - change (Ok (lit "```" ++ nl ++ c ++ nl ++ lit "```" ++ nl : str) = Ok out) in O. congruence.
  - change (Ok (lit "`" ++ c ++ lit "`" : str) = Ok out) in O. congruence.
Qed.
Lemma mapM_total : forall {A B} (f : A -> res B) (h : A -> B) l, (forall a, f a = Ok (h a)) -> mapM f l = Ok (map h l).
Proof. induction l as [|a l IH]; intros H; auto. cbn [mapM map]. rewrite H. cbn [bind]. rewrite IH by auto. reflexivity. Qed.
(** Rows free of newlines. *)
Lemma rows_join : forall w ls, Forall (fun l : str => ~ In 10%N l) ls ->
  rows w (split_on 10%N (join nl ls)) = match ls with [] => spaces w | _ => rows w ls end.
Proof.
  intros w [|l ls] H; [apply rows_nil|]. unfold nl. rewrite (split_on_join 10%N (l :: ls)); auto. discriminate.
Qed.
Lemma splitlines_bodies : forall c, exists ls, lines_of c ls /\ splitlines false c = bodies ls.
Proof. intros c. destruct (lines_of_exists c) as (ls & H). exists ls. split; auto. now apply lines_of_splitlines in H. Qed.
Lemma lines_no_break : forall s ls, lines_of s ls -> Forall (fun l : str * str => no_break (fst l)) ls.
Proof. intros s ls H. induction H; constructor; auto. Qed.
Lemma prefix_no_nl : forall s ls p, lines_of s ls -> ~ In 10%N p ->
  Forall (fun l : str => ~ In 10%N l) (map (fun b => p ++ b) (bodies ls)).
Proof.
  intros s ls p H HP. apply Forall_map. unfold bodies. apply Forall_map. pose proof (lines_no_break _ _ H) as NB.
  eapply Forall_impl; [|exact NB]. intros [b e] NB1 I. cbn [fst] in *. apply in_app_or in I as [I|I]; auto.
  apply NB1 in I. discriminate.
Qed.
Lemma pre_shape : forall o g h s sg i n bx out, closing o g h s sg ->
  is_tagged (p_dom s) i n (lit "pre") -> rendered (p_dom s) sg i bx out ->
  exists c ls, content (p_dom s) sg n (inner_box bx 1 1 None) c /\ lines_of c ls
    /\ out = nl ++ (match ls with [] => spaces (line_width bx)
                    | _ => rows (line_width bx) (map (fun b => spaces 4 ++ b) (bodies ls)) end) ++ nl.
Proof.
  intros o g h s sg i n bx out C T R.
  destruct (elem _ _ _ _ _ _ _ _ _ _ _ C T eq_refl eq_refl R) as (st & r & bx' & c & X & I & B & CT & O).
  apply no_extra in X; [|vm_compute; discriminate..]. subst st. rewrite pre_inst in I. injection I as <-.
  cbn [i_block block_inst i_box] in B. injection B as <-. destruct (splitlines_bodies c) as (ls & H1 & H2). exists c, ls.
  split; auto. split; auto. change (block_render (p_dom s) (block_inst PreRenderer [] bx i 1 1 None) c = Ok out) in O.
  assert (IN : inner_render (p_dom s) (block_inst PreRenderer [] bx i 1 1 None) c = Ok (join nl (map (fun b => spaces 4 ++ b) (bodies ls)))).
  { change (pre_inner (block_inst PreRenderer [] bx i 1 1 None) c = Ok (join nl (map (fun b => spaces 4 ++ b) (bodies ls)))).
    unfold pre_inner. rewrite H2. rewrite (mapM_total _ (fun b => spaces 4 ++ b)); [reflexivity|]. intros b.
    change (Ok (spaces 4 ++ (b ++ []) : str) = Ok (spaces 4 ++ b)). now rewrite app_nil_r. }
  rewrite (block_flush _ (block_inst PreRenderer [] bx i 1 1 None) bx 1 1 None _ _ eq_refl eq_refl IN) in O. apply ok_inj in O. subst out.
  rewrite rows_join by (eapply prefix_no_nl; [eauto|vm_compute; intuition discriminate]).
  change (newlines 1) with nl. destruct ls; reflexivity.
Qed.
Lemma quote_shape : forall o g h s sg i n bx out, closing o g h s sg ->
  is_tagged (p_dom s) i n (lit "blockquote") -> rendered (p_dom s) sg i bx out ->
  exists c ls, content (p_dom s) sg n (inner_box bx 1 1 (Some (lit "> {}"))) c /\ lines_of c ls
    /\ out = nl ++ (match ls with [] => spaces (line_width bx)
                    | _ => rows (line_width bx) (map (fun b => lit "> " ++ b) (bodies ls)) end) ++ nl.
Proof.
  intros o g h s sg i n bx out C T R.
  destruct (elem _ _ _ _ _ _ _ _ _ _ _ C T eq_refl eq_refl R) as (st & r & bx' & c & X & I & B & CT & O).
  apply no_extra in X; [|vm_compute; discriminate..]. subst st. rewrite quote_inst in I. injection I as <-.
  cbn [i_block block_inst i_box] in B. injection B as <-. destruct (splitlines_bodies c) as (ls & H1 & H2). exists c, ls.
  split; auto. split; auto. set (r := block_inst _ _ _ _ _ _ _) in O. change (block_render (p_dom s) r c = Ok out) in O.
  assert (IN : inner_render (p_dom s) r c = Ok (join nl (map (fun b => lit "> " ++ b) (bodies ls)))).
  { change (quote_inner r c = Ok (join nl (map (fun b => lit "> " ++ b) (bodies ls)))).
    unfold quote_inner. rewrite H2. change (the_box r) with (Ok (inner_box bx 1 1 (Some (lit "> {}")))).
    change (sattr (i_settings r) (lit "line_template")) with (Ok (vs "> {}")). cbn [bind].
    rewrite (mapM_total _ (fun b => lit "> " ++ b)); [reflexivity|]. intros b.
    change (Ok (lit "> " ++ (b ++ []) : str) = Ok (lit "> " ++ b)). now rewrite app_nil_r. }
  rewrite (block_flush _ r bx 1 1 _ _ _ eq_refl eq_refl IN) in O. apply ok_inj in O. subst out.
  rewrite rows_join by (eapply prefix_no_nl; [eauto|vm_compute; intuition discriminate]).
  change (newlines 1) with nl. destruct ls; reflexivity.
Qed.
(** *** Headings *)
Lemma heading_shape : forall o g h s sg i n t k bx out, closing o g h s sg -> In (t, k) headings ->
  is_tagged (p_dom s) i n (lit t) -> rendered (p_dom s) sg i bx out ->
  exists c, content (p_dom s) sg n (inner_box bx 1 1 None) c
    /\ out = nl ++ rows (line_width bx) (split_on 10%N (lit k ++ lit " " ++ c ++ lit " " ++ lit k)) ++ nl.
Proof.
  intros o g h s sg i n t k bx out C HI T R.
  assert (K : class_for (lit t) (in_ol (p_dom s) i) = Some MarkdownHeaderRenderer /\ is_link (lit t) = false
     /\ lit t <> lit "p" /\ lit t <> lit "li" /\ lit t <> lit "dt"
     /\ forall c, format (lit k ++ lit " {} " ++ lit k) [FStr c] [] = Ok (lit k ++ lit " " ++ c ++ lit " " ++ lit k)).
  { clear T. cbn [headings In] in HI.
    repeat (destruct HI as [HI|HI]; [injection HI as <- <-; split; [reflexivity|]; split; [reflexivity|];
      split; [vm_compute; discriminate|]; split; [vm_compute; discriminate|]; split; [vm_compute; discriminate|]; reflexivity|]).
    contradiction. }
  destruct K as (K & L & N1 & N2 & N3 & F).
  destruct (elem _ _ _ _ _ _ _ _ _ _ _ C T L K R) as (st & r & bx' & c & X & I & B & CT & O).
  apply no_extra in X; auto. subst st. apply (heading_inst _ _ _ _ _ _ _ HI T) in I.
  assert (EB : i_box r = Some (inner_box bx 1 1 None)) by now rewrite I.
  assert (EBL : i_block r = true) by now rewrite I. rewrite EBL, EB in B. injection B as <-.
  exists c. split; auto. assert (EK : i_kind r = KMdHeader) by now rewrite I.
  unfold render_inst in O. rewrite EK in O.
  set (tp := lit k ++ lit " {} " ++ lit k : str) in *.
  assert (IN : inner_render (p_dom s) r c = Ok (lit k ++ lit " " ++ c ++ lit " " ++ lit k)).
  { unfold inner_render. rewrite EK. rewrite <- F. rewrite I. clear. clearbody tp.
    transitivity (bind (fmt1 (VStr tp) c) (fun x => Ok x)); [reflexivity|]. unfold fmt1. cbn [want_str bind].
    destruct (format tp [FStr c] []); reflexivity. }
  assert (ES : sattr (i_settings r) (lit "border") = Ok no_border) by now rewrite I.
  rewrite (block_flush _ _ bx 1 1 None _ _ EB ES IN) in O. now apply ok_inj in O.
Qed.
End F.
Close Scope Z_scope.
