(** Box and block properties: C29, C30, C31, C55. *)
From Verif Require Import BoxFacts Fixture.
Open Scope Z_scope.

Section Boxes.
Context `{U : Uni}.

(** C29: the widths available at the bottom of a chain of nested boxes. *)
Theorem C29_widths : forall width margin padding border template levels,
  let b := nest (root_box width margin padding border template) levels in
  let all f := sum (map f levels) in
  b_width b = width
  /\ inner_width b = width - (both margin + all (fun l => both (lv_margin l)))
                           - (both padding + all (fun l => both (lv_padding l)))
                           - (both border + all (fun l => both (lv_border l)))
  /\ inner_width_excluding_line_template b
     = inner_width b - all (fun l => template_width (lv_template l)).
Proof.
  intros width margin padding border template levels b all.
  destruct (nest_totals (root_box width margin padding border template) levels) as (I1 & I2 & I3 & I4 & I5).
  fold b in I1, I2, I3, I4, I5.
  unfold inner_width_excluding_line_template, inner_width. rewrite I1, I2, I3, I4, I5.
  unfold all, lr, both. cbn. repeat split; lia.
Qed.
(** Creating a Box changes no list object that existed before, so neither its
    ancestors nor the settings it was created from. *)
Theorem C29_no_aliasing : forall h width margin padding border template parent h' o,
  new_hbox h width margin padding border template parent = Ok (h', o) ->
  forall a l, nth_error h a = Some l -> nth_error h' a = Some l.
Proof. intros. destruct (new_hbox_frame _ _ _ _ _ _ _ _ _ H) as [G _]. auto. Qed.
(** The Box object has the values the other theorems speak about. *)
Theorem C29_construction : forall h width margin padding border template parent h' o sm sp sb,
  argument h margin sm -> argument h padding sp -> argument h border sb ->
  new_hbox h width margin padding border template parent = Ok (h', o) ->
  match parent with
  | None => represents h' o (root_box width sm sp sb template)
  | Some q => forall b, represents h q b -> represents h' o (child_box b sm sp sb template)
  end.
Proof. intros. eapply new_hbox_represents; eauto. Qed.

(** C30: every line of the bordered area has the same length, the page width
    minus the margins, when each content line fits. *)
Theorem C30_rectangular : forall d cl i c r page content out,
  is_block (rc_kind cl) = true -> c_parent_box c = Some page -> instantiate d cl i c = Ok r ->
  border_render r content = Ok out ->
  both (b_total_border page) = 0 -> 0 <= both (b_total_padding page) -> b_total_ltp page = 0 ->
  exists b bo, i_box r = Some b /\ border_sides bo = b_border b /\
    (nonneg (b_margin b) -> nonneg (b_padding b) -> 0 <= inner_width b -> 0 <= b_ltp b ->
     ~ In 10%N (bo_top bo ++ bo_right bo ++ bo_bottom bo ++ bo_left bo) ->
     (forall l, In l (split_on 10%N content) -> len l <= inner_width b) ->
     forall l, In l (split_on 10%N out) ->
       len l = b_width page - both (b_total_margin page) - both (b_margin b)).
Proof.
  intros d cl i c r page content out HB HP HI HR PB PP PT.
  destruct (instantiate_block d cl i c r page HB HP HI) as (bv & bo & m & pd & t & E1 & E2 & _ & _ & _ & E3 & _).
  unfold border_render, the_box in HR. rewrite E3, E1 in HR. cbn [bind] in HR. rewrite E2 in HR. cbn [bind] in HR.
  injection HR as <-. eexists; exists bo. split; [exact E3|]. split; [reflexivity|].
  set (b := child_box page m pd (border_sides bo) t).
  intros (M1 & M2 & M3 & M4) (D1 & D2 & D3 & D4) HW HT HN HF.
  change (b_margin b) with m in *. change (b_padding b) with pd in *.
  assert (NI : ~ In 10%N (bo_top bo) /\ ~ In 10%N (bo_right bo) /\ ~ In 10%N (bo_bottom bo) /\ ~ In 10%N (bo_left bo))
    by (rewrite !in_app_iff in HN; tauto). destruct NI as (N1 & N2 & N3 & N4).
  assert (ROWS : Forall (fun l : str => ~ In 10%N l
     /\ len l = b_width page - both (b_total_margin page) - both m) (border_rows b bo content)).
  { pose proof (len_nonneg (bo_left bo)). pose proof (len_nonneg (bo_right bo)).
    assert (WI : inner_width b = b_width page - lr (b_total_margin page) - both m - lr (b_total_padding page)
                 - both pd - len (bo_left bo) - len (bo_right bo))
      by (unfold b, inner_width, child_box, lr, both in *; cbn in *; lia).
    assert (PW : padded_width b = b_width page - lr (b_total_margin page) - both m - len (bo_left bo) - len (bo_right bo))
      by (unfold b, padded_width, child_box, lr, both in *; cbn in *; lia).
    assert (BW : bordered_width b = b_width page - lr (b_total_margin page) - both m)
      by (unfold b, bordered_width, child_box, lr, both in *; cbn in *; lia).
    assert (SP : forall n, ~ In 10%N (spaces n)) by (intros n C; unfold spaces in C; apply repeat_spec in C; discriminate).
    unfold lr, both in *.
    apply Forall_rows.
    - apply Forall_map, Forall_forall. intros x Hx. split.
      + intros C. apply srep1_In in C. congruence.
      + rewrite srep1_len. lia.
    - unfold vertical_pad. split; [rewrite !in_app_iff; firstorder|]. rewrite !len_app, spaces_len. lia.
    - apply Forall_map, Forall_forall. intros l Hl. specialize (HF l Hl).
      pose proof (split_on_nochar 10%N content) as NC. rewrite Forall_forall in NC. specialize (NC l Hl).
      unfold border_row. split; [rewrite !in_app_iff; firstorder|].
      change (b_padding b) with pd. rewrite !len_app, !spaces_len. pose proof (len_nonneg l). lia.
    - apply Forall_map, Forall_forall. intros x Hx. split.
      + intros C. apply srep1_In in C. congruence.
      + rewrite srep1_len. lia. }
  intros l Hl. unfold nl in Hl. rewrite split_on_join in Hl.
  - rewrite Forall_forall in ROWS. now apply ROWS.
  - unfold border_rows. intros C. apply (f_equal (@length _)) in C. rewrite !app_length, !map_length in C.
    destruct (split_on_cons 10%N content) as (x & y & E). rewrite E in C. simpl in C. lia.
  - eapply Forall_impl; [|exact ROWS]. intros x [Hx _]. exact Hx.
Qed.

(** C31, a chain of nested blocks: what the block renderers make of [content]
    inside the given levels (each with its border strings), outermost first. *)
Record blevel := BLevel { bl_margin : sides; bl_padding : sides; bl_border : borders }.
Fixpoint chain (page : box) (levels : list blevel) (content : str) : str :=
  match levels with
  | [] => content
  | l :: r =>
      let b := child_box page (bl_margin l) (bl_padding l) (border_sides (bl_border l)) None in
      outer_render b (join nl (border_rows b (bl_border l) (chain b r content)))
  end.
Definition innermost (page : box) (levels : list blevel) : box :=
  nest page (map (fun l => Level (bl_margin l) (bl_padding l) (border_sides (bl_border l)) None) levels).
(** Only the innermost block may have padding; below a left or right border there
    are no top or bottom borders. *)
Fixpoint tame (above : Z) (levels : list blevel) : Prop :=
  match levels with
  | [] => True
  | l :: r =>
      nonneg (bl_margin l) /\ nonneg (bl_padding l)
      /\ (r <> [] -> both (bl_padding l) = 0)
      /\ (above = 0 \/ bo_top (bl_border l) = [] /\ bo_bottom (bl_border l) = [])
      /\ tame (above + len (bo_left (bl_border l)) + len (bo_right (bl_border l))) r
  end.
(** C31 for such chains of any depth.  Missing: padding around blocks, borders
    around bordered blocks, and blocks next to each other (all refuted below). *)
Theorem C31_chain_partial : forall levels width content,
  tame 0 levels ->
  let page := root_box width sides0 sides0 sides0 None in
  0 <= inner_width (innermost page levels) ->
  fits (inner_width (innermost page levels)) content ->
  fits width (chain page levels content).
Proof.
  assert (G : forall levels page content above, lr (b_total_border page) = above -> b_total_ltp page = 0 ->
    lr (b_total_padding page) = 0 -> tame above levels ->
    0 <= room (innermost page levels) ->
    within (fun _ => true) (room (innermost page levels)) 0 content ->
    within (fun _ => true) (room page) 0 (chain page levels content) /\ room (innermost page levels) <= room page).
  { induction levels as [|l r IH]; intros page content above HA HT HP HTM HR HC.
    - cbn [innermost map nest fold_left] in *. split; [exact HC|reflexivity].
    - cbn [tame] in HTM. destruct HTM as (T1 & T2 & T3 & T4 & T5). cbn [chain]. cbv zeta.
      set (b := child_box page (bl_margin l) (bl_padding l) (border_sides (bl_border l)) None).
      change (innermost page (l :: r)) with (innermost b r) in HR, HC |- *.
      pose proof (len_nonneg (bo_left (bl_border l))). pose proof (len_nonneg (bo_right (bl_border l))).
      assert (RB : room page = room b + both (bl_margin l) + both (bl_padding l) + len (bo_left (bl_border l)) + len (bo_right (bl_border l)))
        by (unfold b, room, inner_width_excluding_line_template, child_box, lr, both; cbn; lia).
      destruct T1 as (M1 & M2 & M3 & M4). destruct T2 as (D1 & D2 & D3 & D4).
      assert (IB : within (fun _ => true) (room b) 0 (chain b r content) /\ room (innermost b r) <= room b).
      { destruct r as [|l2 r]; [split; [exact HC|reflexivity]|].
        apply IH with (above := above + len (bo_left (bl_border l)) + len (bo_right (bl_border l))); auto.
        - unfold b, child_box, lr in *. cbn in *. lia.
        - unfold b, child_box, lr in *. cbn in *. specialize (T3 ltac:(discriminate)). unfold both in T3. lia. }
      destruct IB as [IB1 IB2]. split; [|unfold both in *; lia].
      apply (block_step page (bl_margin l) (bl_padding l) (bl_border l) None); try (repeat split; assumption); auto.
      + simpl. lia.
      + destruct T4 as [T4|T4]; [right; split; lia|now left].
      + fold b. unfold both in *. lia.
      + fold b. cbn [template_width]. rewrite Z.add_0_r. exact IB1. }
  intros levels width content HT page HI HF.
  assert (TT : forall levels, inner_width (innermost page levels) = room (innermost page levels)).
  { intros ls. unfold room, inner_width, inner_width_excluding_line_template, innermost.
    destruct (nest_totals page (map (fun l => Level (bl_margin l) (bl_padding l) (border_sides (bl_border l)) None) ls)) as (_ & _ & _ & _ & ->).
    rewrite map_map. cbn [lv_template template_width].
    assert (Z0 : forall A (l : list A), sum (map (fun _ => 0) l) = 0) by (induction l; simpl; auto).
    rewrite Z0. cbn. lia. }
  rewrite TT in *. rewrite fits_within in HF by exact HI.
  destruct (G levels page content 0 eq_refl eq_refl eq_refl HT HI HF) as [W L].
  assert (RP : room page = width) by (unfold room, inner_width_excluding_line_template, page, lr; cbn; lia).
  rewrite RP in *. apply fits_within; [lia|exact W].
Qed.

(** [chain] is what the plain block renderer does. *)
Theorem C31_chain_is_block : forall d cl i c r page content out,
  rc_kind cl = KBlock -> c_parent_box c = Some page -> instantiate d cl i c = Ok r ->
  block_render d r content = Ok out ->
  exists l bv, sides_of_val (dget (lit "margin") (i_settings r)) = Ok (bl_margin l)
    /\ sides_of_val (dget (lit "padding") (i_settings r)) = Ok (bl_padding l)
    /\ dget (lit "border") (i_settings r) = Some bv /\ borders_of_val bv = Ok (bl_border l)
    /\ out = chain page [l] content.
Proof.
  intros d cl i c r page content out HK HP HI H.
  destruct (instantiate_block d cl i c r page ltac:(now rewrite HK) HP HI) as (bv & bo & m & pd & t & E1 & E2 & E4 & E5 & E6 & E3 & E7).
  rewrite HK in E6, E7. cbn in E6. injection E6 as <-.
  exists (BLevel m pd bo), bv. cbn [bl_margin bl_padding bl_border]. split; auto. split; auto.
  split; [unfold sattr in E1; destruct (dget (lit "border") (i_settings r)); congruence|]. split; auto.
  unfold block_render, inner_render in H. rewrite E7 in H. cbn [bind] in H.
  unfold border_render, the_box in H. rewrite E3, E1 in H. cbn [bind] in H. rewrite E2 in H. cbn [bind] in H.
  injection H as <-. reflexivity.
Qed.

(** C55: a block's rendering is its bordered content with the left margin in
    front of every line, between its top and bottom margin newlines. *)
Theorem C55_spacing : forall d cl i c r page content out,
  is_block (rc_kind cl) = true -> c_parent_box c = Some page -> instantiate d cl i c = Ok r ->
  block_render d r content = Ok out ->
  exists margin inner bordered body,
    sides_of_val (dget (lit "margin") (i_settings r)) = Ok margin
    /\ inner_render d r content = Ok inner /\ border_render r inner = Ok bordered
    /\ prefixed (spaces (sd_left margin)) bordered body
    /\ out = newlines (sd_top margin) ++ body ++ newlines (sd_bottom margin).
Proof.
  intros d cl i c r page content out HB HP HI H.
  destruct (instantiate_block d cl i c r page HB HP HI) as (bv & bo & m & pd & t & _ & _ & EM & _ & _ & E3 & _).
  unfold block_render in H. destruct (inner_render d r content) as [inner|] eqn:E1; [|discriminate]. cbn [bind] in H.
  destruct (border_render r inner) as [bordered|] eqn:E2; [|discriminate]. cbn [bind] in H.
  unfold the_box in H. rewrite E3 in H. cbn [bind] in H. injection H as <-.
  destruct (outer_render_eq (child_box page m pd (border_sides bo) t) bordered) as (body & P & E).
  exists m, inner, bordered, body. auto.
Qed.
End Boxes.
Print Assumptions C29_widths.
Print Assumptions C29_no_aliasing.
Print Assumptions C29_construction.
Print Assumptions C30_rectangular.
Print Assumptions C31_chain_partial.
Print Assumptions C31_chain_is_block.
Print Assumptions C55_spacing.

Local Existing Instance U0.
(** C31 is false in general: three documents on a page of the given width, with
    positive inner widths everywhere, with a line longer than the page. *)
Definition page_options (w : Z) (t : table) : options :=
  Options 67 (Some (root_box w sides0 sides0 sides0 None)) t [] (lit "text") (lit "footer") (lit "inline") [] 70 true.
Definition block (t : string) (s : settings) : str * (list selector * rspec rcls) :=
  (lit t, ([sl (el t)], RPair (Some BlockRenderer) (Some s))).
Definition frame : val := VList [vs "-"; vs "|"; vs "-"; vs "|"].
(** A bordered block in a block with padding. *)
Theorem C31_padding_refuted : exists out,
  render_doc (page_options 12 [block "div" [kv "padding" (vints [0; 3; 0; 3])]; block "section" [kv "border" frame]])
    [start "div"; start "section"; txt "ab"; stop "section"; stop "div"] = Ok out
  /\ exists l, In l (split_on 10%N out) /\ len l > 12.
Proof.
  eexists. split; [vm_compute; reflexivity|]. exists (lit "   |ab        |"). vm_compute. split; [|reflexivity]. auto.
Qed.
(** A bordered block in a bordered block: the inner top border ignores the outer
    border. *)
Theorem C31_border_refuted : exists out,
  render_doc (page_options 12 [block "div" [kv "border" frame]])
    [start "div"; start "div"; txt "ab"; stop "div"; stop "div"] = Ok out
  /\ exists l, In l (split_on 10%N out) /\ len l > 12.
Proof.
  eexists. split; [vm_compute; reflexivity|]. exists (lit "|------------|"). vm_compute. split; [|reflexivity]. auto.
Qed.
(** Two blocks side by side: nothing ends the line of the first. *)
Theorem C31_siblings_refuted : exists out,
  render_doc (page_options 8 []) [start "div"; txt "aaaa"; stop "div"; start "div"; txt "bbbb"; stop "div"] = Ok out
  /\ exists l, In l (split_on 10%N out) /\ len l > 8.
Proof.
  eexists. split; [vm_compute; reflexivity|]. exists (lit "aaaa    bbbb"). vm_compute. split; [|reflexivity]. auto.
Qed.
Print Assumptions C31_padding_refuted.
Print Assumptions C31_border_refuted.
Print Assumptions C31_siblings_refuted.

(** The hypotheses are met by ordinary cases. *)
Example C29_case : exists h o h' o',
  new_hbox [[0; 3; 0; 2]] 40 None (Some 0%nat) None None None = Ok (h, o)
  /\ new_hbox h 99 (Some 0%nat) (Some 0%nat) None (Some (lit "> {}")) (Some o) = Ok (h', o')
  /\ represents h o (root_box 40 sides0 (Sides 0 3 0 2) sides0 None)
  /\ represents h' o' (child_box (root_box 40 sides0 (Sides 0 3 0 2) sides0 None) (Sides 0 3 0 2) (Sides 0 3 0 2) sides0 (Some (lit "> {}")))
  /\ hb_width o' = 40.
Proof. do 4 eexists. split; [vm_compute; reflexivity|]. split; [vm_compute; reflexivity|]. vm_compute. repeat split; reflexivity. Qed.
Definition dom1 : dom := match after [start "div"; txt "some text"; stop "div"] with Ok d => d | Err _ => Dom [] [] end.
Definition framed : rcls := Rcls KBlock [[kv "border" frame; kv "padding" (vints [1; 2; 1; 2]); kv "margin" (vints [1; 0; 1; 3])]; set_block; set_renderer].
Example C30_case : exists r,
  instantiate dom1 framed 0 (Ctx None (Some (root_box 20 sides0 sides0 sides0 None)) None None) = Ok r
  /\ border_render r (lit "some" ++ nl ++ lit "text") = Ok (join nl (map lit
       ["-----------------"; "|               |"; "|  some         |"; "|  text         |"; "|               |"; "-----------------"]%string))
  /\ block_render dom1 r (lit "some text") = Ok (join nl (map lit
       [""; "   -----------------"; "   |               |"; "   |  some text    |"; "   |               |"; "   -----------------"; ""]%string)).
Proof. eexists. split; [vm_compute; reflexivity|]. split; vm_compute; reflexivity. Qed.
Example C31_case : let levels := [BLevel (Sides 1 2 1 3) sides0 (Borders [] (lit "|") [] (lit "|"));
                                 BLevel (Sides 0 1 0 1) (Sides 1 2 1 2) (Borders [] (lit ">") [] (lit "<"))] in
  tame 0 levels /\ inner_width (innermost (root_box 30 sides0 sides0 sides0 None) levels) = 15
  /\ chain (root_box 30 sides0 sides0 sides0 None) levels (lit "fifteen letters")
     = join nl (map lit [""; "   | <                   > |"; "   | <  fifteen letters  > |"; "   | <                   > |"; ""]%string).
Proof.
  split; [|split; vm_compute; reflexivity].
  cbn [tame bl_margin bl_padding bl_border bo_top bo_bottom]. unfold nonneg, both. cbn [sd_top sd_right sd_bottom sd_left sides0].
  repeat split; try lia; try (intros; lia); try congruence; try (now left); try (right; split; reflexivity).
Qed.
