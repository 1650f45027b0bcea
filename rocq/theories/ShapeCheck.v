(** Deciding that tables have settings of the right shape. *)
From Verif Require Import WrapFacts WrapLoop WrapWidth.
From Verif Require Import BaseFacts StrFacts SelFacts.
From Verif Require Export ShapeSpec.
Open Scope Z_scope.

Definition template_check (v : val) : bool := match v with VStr _ => true | _ => false end.
Definition number_check (v : val) : bool := match v with VInt _ => true | _ => false end.
Definition text_check (v : val) : bool := match v with VStr _ => true | _ => false end.
Definition four_numbers_check (v : val) : bool :=
  match v with VNone => true | VList (VInt _ :: VInt _ :: VInt _ :: VInt _ :: _) => true | _ => false end.
Definition four_texts_check (v : val) : bool :=
  match v with VList [VStr _; VStr _; VStr _; VStr _] | VTuple [VStr _; VStr _; VStr _; VStr _] => true | _ => false end.
Definition two_check (v : val) : bool := match v with VList (a :: b :: _) => template_check a && template_check b | _ => false end.
Definition just_check (v : val) : bool :=
  match v with VStr s => existsb (fun j => seqb s (lit j)) ["none"; "full"; "center"; "left"; "right"]%string | _ => false end.
Definition templates_check (k : kind) (v : val) : bool :=
  match k with
  | KLink => match v with VDict d => match dget (lit "inline") d, dget (lit "reference") d with Some a, Some b => two_check a && template_check b | _, _ => false end | _ => false end
  | KImage => match v with VDict d => match dget (lit "inline") d, dget (lit "reference") d with Some a, Some b => template_check a && template_check b | _, _ => false end | _ => false end
  | KExtLink | KExtImage => two_check v
  | _ => true
  end.
Definition shape_check (k : kind) (key : str) (v : val) : bool :=
  let is := fun names => existsb (fun n => seqb key (lit n)) names in
  if is ["template"; "line_template"; "block_template"; "inline_template"; "gophermap_template"]%string then template_check v
  else if is ["border"]%string then four_texts_check v
  else if is ["margin"; "padding"]%string then four_numbers_check v
  else if is ["spread"; "indent"; "initial_indent"; "subsequent_indent"; "tabsize"]%string then number_check v
  else if is ["spread_char"; "underline_char"]%string then text_check v
  else if is ["justification"]%string then just_check v
  else if is ["max_link_description"]%string then match v with VInt z => 0 <=? z | _ => false end
  else if is ["templates"]%string then templates_check k v
  else true.
Lemma template_a : forall v, template_check v = true -> a_template v.
Proof. intros v H. destruct v; try discriminate. eexists. reflexivity. Qed.
Lemma two_checked : forall v, two_check v = true -> two_templates v.
Proof. intros v H. destruct v as [| | | |[|a [|b l]]| | ]; try discriminate. cbn [two_check] in H. apply andb_prop in H as [H1 H2]. exists a, b, l. auto using template_a. Qed.
Lemma shape_checked : forall k key v, shape_check k key v = true -> shape_of k key v.
Proof.
  intros k key v H. unfold shape_check in H. unfold shape_of. cbv zeta in *.
  destruct (existsb _ _); [now apply template_a|].
  destruct (existsb _ _). { destruct v as [| | | |l|l| ]; try discriminate; destruct l as [|[] [|[] [|[] [|[] []]]]]; try discriminate H; eexists _, _, _, _; [left|right]; reflexivity. }
  destruct (existsb _ _). { destruct v as [| | | |l| | ]; try discriminate; [now left|]. destruct l as [|[] [|[] [|[] [|[] l]]]]; try discriminate H. right. eexists _, _, _, _, _. reflexivity. }
  destruct (existsb _ _). { destruct v; try discriminate. eexists. reflexivity. }
  destruct (existsb _ _). { destruct v; try discriminate. eexists. reflexivity. }
  destruct (existsb _ _). { destruct v; try discriminate. cbn [just_check] in H. apply existsb_exists in H as (j & J & E). apply seqb_eq in E. subst. exists j. auto. }
  destruct (existsb _ _). { destruct v; try discriminate. eexists. split; [reflexivity|]. now apply Z.leb_le. }
  destruct (existsb _ _); [|exact I]. destruct k; try exact I; cbn [templates_check] in H; try (now apply two_checked); destruct v as [| | | | | |d]; try discriminate;
  destruct (dget (lit "inline") d) as [x|] eqn:E1; try discriminate; destruct (dget (lit "reference") d) as [y|] eqn:E2; try discriminate; apply andb_prop in H as [H1 H2]; exists d, x, y; auto 10 using template_a, two_checked.
Qed.
Definition values_check (k : kind) (s : settings) : bool := forallb (fun kv => shape_check k (fst kv) (snd kv)) s.
Definition shaped_check (k : kind) (s : settings) : bool :=
  forallb (fun key => match dget (lit key) s with Some _ => true | None => false end) (needed k) && values_check k s.
Lemma values_checked : forall k s, values_check k s = true -> forall key v, dget key s = Some v -> shape_of k key v.
Proof.
  intros k s H key v E. apply shape_checked. revert E. unfold values_check in H. induction s as [|[k' v'] s IH]; cbn [dget]; [discriminate|]. cbn [forallb fst snd] in H. apply andb_prop in H as [H1 H2].
  destruct (seqb_spec key k') as [->|]; [intros E; now injection E as <-|auto].
Qed.
Lemma shaped_checked : forall k s, shaped_check k s = true -> shaped k s.
Proof.
  intros k s H. apply andb_prop in H as [H1 H2]. split; [|now apply values_checked]. intros key J. eapply forallb_forall in H1; [|exact J]. cbv beta in H1.
  destruct (dget (lit key) s); [discriminate|congruence].
Qed.
Definition class_check (cl : rcls) : bool :=
  let s := class_settings cl in
  shaped_check (rc_kind cl) s
  && match rc_kind cl with
     | KOrdered => match dget (lit "start_index") s, dget (lit "step") s with Some b, Some c => number_check b && number_check c | _, _ => false end
     | _ => true
     end.
Lemma class_checked : forall cl, class_check cl = true -> class_shaped cl.
Proof.
  intros cl H. apply andb_prop in H as [H1 H2]. split; [now apply shaped_checked|]. intros K. rewrite K in H2.
  destruct (dget (lit "start_index") (class_settings cl)) as [b|] eqn:E2; [|discriminate].
  destruct (dget (lit "step") (class_settings cl)) as [c|] eqn:E3; [|discriminate]. apply andb_prop in H2 as [H4 H5].
  split; [exists b; split; auto; destruct b|exists c; split; auto; destruct c]; try discriminate; eexists; reflexivity.
Qed.
Definition spec_values_check (k : kind) (r : rspec rcls) : bool := match r with RPair _ (Some s) => values_check k s | _ => true end.
Definition tables_check (g : cfg) : bool :=
  let specs := g_default g :: map (@ru_spec rcls) (g_rules g) in
  let ext := (match g_ext_a g with Some r => [r] | None => [] end) ++ map (@ru_spec rcls) (g_ext_rules g) in
  forallb (fun r => match rule_renderer r with Some cl => class_check cl && forallb (spec_values_check (rc_kind cl)) specs | None => true end) specs
  && forallb (fun r => match rule_renderer r with Some cl => class_check cl | None => true end) ext.
Lemma tables_checked : forall g, tables_check g = true -> shaped_tables g.
Proof.
  intros g H. unfold tables_check in H. cbv zeta in H. apply andb_prop in H as [H1 H2]. rewrite forallb_forall in H1, H2.
  assert (SP : forall r, (r = g_default g \/ exists ru, In ru (g_rules g) /\ r = ru_spec ru) -> In r (g_default g :: map (@ru_spec rcls) (g_rules g))).
  { intros r [->|(ru & J & ->)]; [now left|]. right. now apply in_map. }
  split.
  - intros r cl J N. specialize (H1 r (SP r J)). unfold names in N. rewrite N in H1. apply andb_prop in H1 as [A B]. split; [now apply class_checked|].
    intros r' J' key v E. rewrite forallb_forall in B. specialize (B r' (SP r' J')). destruct r' as [|c' [s'|]]; try discriminate E. cbn [spec_values_check rule_setting] in *. eapply values_checked; eauto.
  - intros r cl J N. assert (J' : In r ((match g_ext_a g with Some r => [r] | None => [] end) ++ map (@ru_spec rcls) (g_ext_rules g))).
    { apply in_or_app. destruct J as [->|(ru & J & ->)]; [left; now left|]. right. now apply in_map. }
    specialize (H2 r J'). unfold names in N. rewrite N in H2. now apply class_checked.
Qed.
Close Scope Z_scope.
