(** C79: renderer classes written by the caller. *)
From Verif Require Import WrapFacts WrapLoop WrapWidth.
From Verif Require Import BaseFacts StrFacts SelFacts LineFacts BoxFacts AnsiStyle RenderFacts ElemFacts PageBase PageFacts SettingsFacts DressFacts DressProps TreeFacts HistoryFacts DomFacts DocFacts PageRead StyleMain StyleShow ShapeBack OwnAlike TripFacts Fixture.
From Verif Require Import GoodFacts.
From Verif Require Export OwnSpec TripSpec.

(** C79: two parsers whose tables differ only in classes that behave alike do the
    same on every sequence of calls: they raise the same exceptions at the same
    calls, and [parsed] is the same. *)
Theorem C79_interchange : forall `{U : Uni} o o' calls, same_options o o' -> used o calls = used o' calls.
Proof. intros U o o' l H. now apply used_same. Qed.
Theorem C79_interchange_text : forall `{U : Uni} o o' src, same_options o o' -> render_text o src = render_text o' src.
Proof. intros U o o' src H. now apply pieces_same. Qed.
Theorem C79_interchange_doc : forall `{U : Uni} o o' h, same_options o o' -> render_doc o h = render_doc o' h.
Proof. intros U o o' h H. now apply doc_same. Qed.

(** C79: a subclass that changes nothing behaves like its base, whether it has
    settings of its own (none) or inherits them. *)
Theorem C79_subclass : forall `{U : Uni} k mro, alike (Rcls k ([] :: mro)) (Rcls k mro).
Proof.
  intros U k mro d i x. assert (E : class_settings (Rcls k ([] :: mro)) = class_settings (Rcls k mro)).
  { unfold class_settings. rewrite !bases_kept. cbn [rc_mro SettingsFacts.kept]. destruct (existsb _ _); [reflexivity|]. cbn [rev]. now rewrite fold_left_app. }
  unfold instantiate. rewrite E. cbn [rc_kind].
  match goal with |- match ?m with _ => _ end => destruct m end; auto.
Qed.
Theorem C79_subclass_pass : forall `{U : Uni} k s mro, equal_settings s s -> alike (Rcls k (s :: s :: mro)) (Rcls k (s :: mro)).
Proof.
  intros U k s mro Q d i x. assert (E : class_settings (Rcls k (s :: s :: mro)) = class_settings (Rcls k (s :: mro))).
  { unfold class_settings. rewrite !bases_kept. cbn [rc_mro]. change (SettingsFacts.kept (s :: s :: mro)) with (if existsb (settings_eqb s) (SettingsFacts.kept (s :: mro)) then SettingsFacts.kept (s :: mro) else s :: SettingsFacts.kept (s :: mro)).
    replace (existsb (settings_eqb s) (SettingsFacts.kept (s :: mro))) with true; [reflexivity|]. symmetry. cbn [SettingsFacts.kept].
    destruct (existsb (settings_eqb s) (SettingsFacts.kept mro)) eqn:E; [exact E|]. cbn [existsb]. now rewrite (proj2 (settings_is s s) Q). }
  unfold instantiate. rewrite E. cbn [rc_kind].
  match goal with |- match ?m with _ => _ end => destruct m end; auto.
Qed.

(** C79: what the caller's [render] is given, and that what it returns, or
    raises, is what the element shows, or raises. *)
Theorem C79_render : forall `{U : Uni} d o mro i x r n tg a page content,
  node_at d i = Some n -> n_tag n = Some tg -> carries n a -> c_parent_box x = Some page -> instantiate d (Rcls (KOwn o) mro) i x = Ok r ->
  render_inst d r content =
  ow_method o (View tg (map (kept a) (ow_attrs o)) (map (fun k => dget k (i_settings r)) (ow_settings o)) (Some page) None (c_link x) (c_extra x)) content.
Proof.
  intros U d o mro i x r n tg a page content N T A B HI. destruct (instantiate_fields _ _ _ _ _ HI) as (EC & EK & ET). unfold render_inst. rewrite EK. cbn [rc_kind].
  unfold own_render. rewrite (view_read d r o n tg a page); try congruence. now rewrite (boxless d (Rcls (KOwn o) mro) i x r eq_refl HI), EC.
Qed.
(** C79: the same for [_inner_render] of a caller's block: its own box is the
    element's, and what it returns is framed. *)
Theorem C79_block : forall `{U : Uni} d o mro i x r n tg a page dr content,
  node_at d i = Some n -> n_tag n = Some tg -> carries n a -> c_parent_box x = Some page -> instantiate d (Rcls (KOwnBlock o) mro) i x = Ok r ->
  wears (i_settings r) dr ->
  match ow_method o (View tg (map (kept a) (ow_attrs o)) (map (fun k => dget k (i_settings r)) (ow_settings o)) (Some page)
    (Some (child_box page (dr_margin dr) (dr_padding dr)
       (Sides (len (bo_top (dr_border dr))) (len (bo_right (dr_border dr))) (len (bo_bottom (dr_border dr))) (len (bo_left (dr_border dr)))) None))
    (c_link x) (c_extra x)) content with
  | Err ex => render_inst d r content = Err ex
  | Ok inner => exists out, render_inst d r content = Ok out /\ dressed page dr (split_on 10%N inner) out
  end.
Proof.
  intros U d o mro i x r n tg a page dr content N T A B HI W. destruct (instantiate_fields _ _ _ _ _ HI) as (EC & EK & ET).
  destruct (block_box d (Rcls (KOwnBlock o) mro) i x r page dr eq_refl B HI W) as (lt & L1 & _ & L3). cbn in L3. apply ok_inj in L3. subst lt.
  assert (I : inner_render d r content = ow_method o (View tg (map (kept a) (ow_attrs o)) (map (fun k => dget k (i_settings r)) (ow_settings o)) (Some page)
    (Some (child_box page (dr_margin dr) (dr_padding dr) (border_sides (dr_border dr)) None)) (c_link x) (c_extra x)) content).
  { unfold inner_render. rewrite EK. cbn [rc_kind]. unfold own_render. rewrite (view_read d r o n tg a page) by congruence. now rewrite L1, EC. }
  unfold border_sides in I. destruct (ow_method o _ content) as [inner|ex].
  - destruct (block_dressed d (Rcls (KOwnBlock o) mro) i x r page dr content inner eq_refl B HI W I) as (out & O1 & O2). exists out. split; auto.
    unfold render_inst. now rewrite EK.
  - unfold render_inst. rewrite EK. cbn [rc_kind]. unfold block_render. now rewrite I.
Qed.

(** C79, every history of handler calls and all tables: when everything before it
    is shown and something raises - a caller's method ([tr_own], [tr_own_block] in
    TripSpec) or anything else - that exception is what closing the parser raises. *)
Theorem C79_raises : forall `{U : Uni} o g h ex,
  construct o = Ok g -> ~ In OClose h -> feed_error g h = None ->
  untroubled g (tree_of h) ->
  table_ok (o_renderers o) -> table_ok (o_ext o) ->
  broken_page g (tree_of h) ex -> render_doc o h = Err ex.
Proof.
  intros U o g h ex CN NC FE UT T1 T2 SP. unfold render_doc. rewrite CN. cbn [bind]. rewrite run_app.
  pose proof (feed_outcome g h [] pstate0 eq_refl NC) as X. fold (feed_error g h) in X. rewrite FE in X. destruct X as (s & X). rewrite X. cbn [bind run step].
  destruct (tree_of_document _ _ _ X) as [D P]. destruct (fresh_run _ _ _ X NC) as [FC FA].
  pose proof (proj1 (untroubled_iff _ _) UT) as [C1 C2]. pose proof (construct_built _ _ _ _ (reach_wf _ _ _ X) D P CN C1 C2 T1 T2) as BU. destruct (assign_total g s BU) as (sg & AS).
  now rewrite (close_breaks g s _ sg (reach_good _ _ _ X) D P BU AS FA ex SP).
Qed.

(** ** Examples *)
Local Existing Instance U0.
(** A caller's class that does what EmRenderer does. *)
Definition my_em : own := Own [] [lit "capitalized"; lit "template"] (fun v content =>
  match vw_settings v with
  | None :: _ => Err EKey
  | [Some cap; Some (VStr t)] => format t [FStr (capitalize_if (truth cap) content)] []
  | _ => Err EAttr
  end).
Example my_em_alike : alike (Rcls (KOwn my_em) (rc_mro EmRenderer)) EmRenderer.
Proof.
  intros d i x. unfold instantiate. change (class_settings (Rcls (KOwn my_em) (rc_mro EmRenderer))) with (class_settings EmRenderer).
  cbn [rc_kind EmRenderer bind is_block i_block i_box]. split; [reflexivity|]. split; [reflexivity|]. intros content.
  unfold render_inst. cbn [i_kind i_settings]. unfold own_render, inline_render, sitem, sattr, view_of. cbn [i_settings].
  cbn [ow_method my_em vw_settings ow_settings map].
  match goal with |- context [dget (lit "capitalized") ?s] => generalize s end. intros s.
  destruct (dget (lit "capitalized") s) as [cap|]; cbn [bind]; [|reflexivity].
  destruct (dget (lit "template") s) as [[| | |t| | |]|]; reflexivity.
Qed.
(** So every page is the same with it in the place of EmRenderer. *)
Definition with_em (c : rcls) : options :=
  Options 67 None [(lit "em", ([sl (el "em")], RPlain (Some c))); (lit "i", ([sl (el "i")], RPlain (Some c)))] [] (lit "text") (lit "footer") (lit "inline") [] 70 true.
Example my_em_pages : forall src, render_text (with_em (Rcls (KOwn my_em) (rc_mro EmRenderer))) src = render_text (with_em EmRenderer) src.
Proof.
  intros src. apply C79_interchange_text. unfold with_em, same_options. cbn [o_width o_box o_renderers o_ext o_format o_link o_image o_host o_port o_optimise].
  assert (T : same_table (o_renderers (with_em (Rcls (KOwn my_em) (rc_mro EmRenderer)))) (o_renderers (with_em EmRenderer))).
  { apply Forall2_cons; [split; [reflexivity|split; [reflexivity|exact my_em_alike]]|]. apply Forall2_cons; [split; [reflexivity|split; [reflexivity|exact my_em_alike]]|]. apply Forall2_nil. }
  repeat split; try reflexivity; [exact T|apply Forall2_nil].
Qed.
(** A class that is like none of the library's: the name of the element, its
    class attribute and the columns left, around the content. *)
Definition tagger : own := Own [lit "class"] [lit "mark"] (fun v content =>
  match vw_settings v with
  | [Some (VStr m)] =>
      Ok (vw_tag v ++ m ++ match vw_attrs v with [Some (AvList (c :: _))] => c | _ => [] end ++ m ++
          match vw_box v with Some b => str_of_Z (inner_width b) | None => [] end ++ m ++ content)
  | _ => Err EKey
  end).
Definition own_page : options :=
  Options 67 None [(lit "kbd", ([sl (el "kbd")], RPlain (Some (Rcls (KOwn tagger) [[kv "mark" (VStr (lit ":"))]; set_renderer]))));
                   (lit "div", ([sl (el "div")], RPlain (Some (Rcls (KOwnBlock tagger) [[kv "mark" (VStr (lit "/"))]; set_block; set_renderer]))));
                   (lit "var", ([sl (el "var")], RPlain (Some (Rcls (KOwn tagger) [set_renderer]))))] [] (lit "text") (lit "footer") (lit "inline") [] 70 true.
Example own_page_shown : render_text own_page (lit "<div class='x y'>press <kbd class='k'>Q</kbd> now</div>") = Ok (lit "div/x/67/press kbd:k::Q now").
Proof. vm_compute. reflexivity. Qed.
(** A caller's method that raises. *)
Example own_page_raises : render_text own_page (lit "<div>a</div><div>press <var>Q</var> now</div>") = Err EKey.
Proof. vm_compute. reflexivity. Qed.
(** A subclass of EmRenderer with no settings of its own, and one that passes. *)
Example em_subclass : alike (Rcls KInline ([] :: rc_mro EmRenderer)) EmRenderer.
Proof. apply C79_subclass. Qed.
Example em_pass : equal_settings set_em set_em.
Proof. apply settings_is. reflexivity. Qed.

Print Assumptions C79_interchange.
Print Assumptions C79_interchange_text.
Print Assumptions C79_interchange_doc.
Print Assumptions C79_subclass.
Print Assumptions C79_subclass_pass.
Print Assumptions C79_render.
Print Assumptions C79_block.
Print Assumptions C79_raises.
