(** C85: what a formatter makes of a call, and how a box is shown. *)
From Coq Require DecimalZ.
From Verif Require Import BaseFacts StrFacts.
From Verif Require Export FormatterSpec.
Open Scope Z_scope.

Lemma split_blank : forall b s, blank b -> split_ws_aux [] (b ++ s) = split_ws_aux [] s.
Proof.
  induction b as [|c b IH]; intros s B; auto. cbn [app split_ws_aux]. rewrite (B c) by now left. apply IH. intros y J. apply B. now right.
Qed.
Lemma split_run : forall w s cur, (forall c, In c w -> is_space c = false) -> split_ws_aux cur (w ++ s) = split_ws_aux (rev w ++ cur) s.
Proof.
  induction w as [|c w IH]; intros s cur B; auto. cbn [app split_ws_aux rev]. rewrite (B c) by now left. rewrite IH by (intros y J; apply B; now right).
  now rewrite <- app_assoc.
Qed.
Lemma words_split : forall s ws, words s ws -> split_ws s = ws.
Proof.
  intros s ws H. unfold split_ws. induction H as [s B|b w r ws B NE NS E H IH].
  - rewrite <- (app_nil_r s). now rewrite split_blank.
  - rewrite split_blank, split_run, app_nil_r by auto. rewrite <- IH. assert (RN : rev w <> []) by (intros K; apply NE; rewrite <- (rev_involutive w), K; reflexivity).
    destruct r as [|c r]; cbn [split_ws_aux].
    + destruct (rev w) eqn:RW; [congruence|]. rewrite <- RW. now rewrite rev_involutive.
    + rewrite E. destruct (rev w) eqn:RW; [congruence|]. rewrite <- RW. now rewrite rev_involutive.
Qed.
Lemma run_of : forall (p : N -> bool) s, exists a b, s = a ++ b /\ (forall c, In c a -> p c = true) /\ match b with [] => True | c :: _ => p c = false end.
Proof.
  intros p. induction s as [|c s (a & b & E & A & B)].
  - exists [], []. split; auto.
  - destruct (p c) eqn:P.
    + exists (c :: a), b. split; [now rewrite E|]. split; auto. intros y [<-|J]; auto.
    + exists [], (c :: s). split; auto.
Qed.
Lemma words_some : forall n s, (length s <= n)%nat -> exists ws, words s ws.
Proof.
  induction n as [|n IH]; intros s L.
  - destruct s; [|cbn in L; lia]. exists []. constructor. intros c [].
  - destruct (run_of is_space s) as (b & t & E & B & T). destruct t as [|c t].
    + exists []. constructor. rewrite E, app_nil_r. exact B.
    + destruct (run_of (fun x => negb (is_space x)) (c :: t)) as (w & r & E' & W & R).
      assert (NE : w <> []).
      { intros ->. cbn [app] in E'. subst r. now rewrite T in R. }
      destruct (IH r) as (ws & H).
      { apply (f_equal (@length N)) in E'. rewrite E in L. rewrite !app_length in *. destruct w; [congruence|]. cbn [length] in *. lia. }
      exists (w :: ws). rewrite E, E'. constructor; auto.
      * intros y J. apply W in J. now apply negb_true_iff.
      * destruct r; auto. now apply negb_false_iff.
Qed.
Lemma words_iff : forall s ws, split_ws s = ws <-> words s ws.
Proof.
  intros s ws. split; [|apply words_split]. intros <-. destruct (words_some _ s (le_n _)) as (ws & H). now rewrite (words_split _ _ H).
Qed.
Lemma fold_class : forall l v0, fold_left (fun (cls : option str) a => if seqb (fst a) (lit "class") then snd a else cls) l v0
  = match fold_left (fun (cls : option (option str)) a => if seqb (fst a) (lit "class") then Some (snd a) else cls) l None with Some v => v | None => v0 end.
Proof.
  assert (G : forall l v0 x, fold_left (fun (cls : option str) a => if seqb (fst a) (lit "class") then snd a else cls) l (match x with Some v => v | None => v0 end)
  = match fold_left (fun (cls : option (option str)) a => if seqb (fst a) (lit "class") then Some (snd a) else cls) l x with Some v => v | None => v0 end).
  { induction l as [|a l IH]; intros v0 x; cbn [fold_left]; auto. rewrite <- IH. destruct (seqb (fst a) (lit "class")); reflexivity. }
  intros l v0. exact (G l v0 None).
Qed.
Lemma class_read : forall l v, class_value l v <-> fold_left (fun cls a => if seqb (fst a) (lit "class") then snd a else cls) l (Some []) = v.
Proof.
  assert (A : forall l (v0 : option str), (forall v, ~ In (lit "class", v) l) -> fold_left (fun cls a => if seqb (fst a) (lit "class") then snd a else cls) l v0 = v0).
  { induction l as [|[k x] l IH]; intros v0 H; auto. cbn [fold_left fst snd]. destruct (seqb_spec k (lit "class")) as [->|]; [elim (H x); now left|].
    apply IH. intros v J. apply (H v). now right. }
  assert (B : forall l v, class_value l v -> fold_left (fun cls a => if seqb (fst a) (lit "class") then snd a else cls) l (Some []) = v).
  { intros l v H. destruct H as [l H|a v b H]; [now apply A|]. rewrite fold_left_app. cbn [fold_left fst snd]. rewrite seqb_refl. now apply A. }
  assert (C : forall l, exists v, class_value l v).
  { induction l as [|[k x] l (v & H)]; [exists (Some []); constructor; intros v []|].
    inversion H as [l' N E1 E2|a w b N E1 E2].
    - destruct (seqb_spec k (lit "class")) as [->|NK]; [exists x; now apply (cv_last [])|]. exists (Some []). constructor. intros w [J|J]; [congruence|now apply (N w)].
    - exists v. now apply (cv_last ((k, x) :: a)). }
  intros l v. split; [apply B|]. intros <-. destruct (C l) as (v & H). now rewrite (B l v H).
Qed.
Lemma classes_ok : forall l ws, extract_classes l = Ok ws <-> exists v, class_value l (Some v) /\ words v ws.
Proof.
  intros l ws. unfold extract_classes. split.
  - destruct (fold_left _ l _) as [v|] eqn:E; [|discriminate]. intros H. injection H as H. exists v. split; [now apply class_read|now apply words_iff].
  - intros (v & H & W). apply class_read in H. rewrite H. apply words_iff in W. now rewrite W.
Qed.
Lemma classes_err : forall l e, extract_classes l = Err e <-> class_value l None /\ e = EAttr.
Proof.
  intros l e. unfold extract_classes. split.
  - destruct (fold_left _ l _) as [v|] eqn:E; [discriminate|]. intros H. injection H as <-. split; auto. now apply class_read.
  - intros (H & ->). apply class_read in H. now rewrite H.
Qed.

(** For every formatter, the library's or a subclass: exactly what a call
    returns and what it raises. *)
Theorem C85_returns : forall f tag content c out, call_formatter f tag content c = Ok out <-> returns f tag content c out.
Proof.
  intros f tag content c out. unfold call_formatter, returns. fold (attrs_of c). split.
  - intros H. apply bind_Ok in H as (ws & E & H). apply bind_Ok in H as (st & S1 & H). apply bind_Ok in H as (bx & S2 & H).
    apply classes_ok in E as (v & V & W). exists v, ws, st, bx. auto.
  - intros (v & ws & st & bx & V & W & S1 & S2 & H). assert (E : extract_classes (attrs_of c) = Ok ws) by (apply classes_ok; eauto).
    rewrite E. cbn [bind]. rewrite S1. cbn [bind]. rewrite S2. exact H.
Qed.
Theorem C85_raises : forall f tag content c e, call_formatter f tag content c = Err e <-> raises f tag content c e.
Proof.
  intros f tag content c e. unfold call_formatter. fold (attrs_of c). split.
  - intros H. destruct (extract_classes (attrs_of c)) as [ws|e'] eqn:E.
    2:{ apply classes_err in E as [E ->]. cbn in H. injection H as <-. now constructor. }
    apply classes_ok in E as (v & V & W). cbn [bind] in H. destruct (ff_settings f tag (FCtx c ws None None)) as [st|e'] eqn:S1.
    2:{ cbn in H. injection H as <-. eapply ra_settings; eauto. }
    cbn [bind] in H. destruct (ff_box f tag (FCtx c ws (Some st) None)) as [bx|e'] eqn:S2.
    2:{ cbn in H. injection H as <-. eapply ra_box; eauto. }
    cbn [bind] in H. eapply ra_format; eauto.
  - intros H. destruct H as [V|v ws e V W S1|v ws st e V W S1 S2|v ws st bx e V W S1 S2 H].
    1:{ assert (E : extract_classes (attrs_of c) = Err EAttr) by (apply classes_err; auto). now rewrite E. }
    all: assert (E : extract_classes (attrs_of c) = Ok ws) by (apply classes_ok; eauto); rewrite E; cbn [bind]; rewrite S1; auto; cbn [bind]; rewrite S2; auto.
Qed.
(** The base class gives the content back, unless there is a class attribute
    without a value. *)
Theorem C85_base : forall defaults tag content c,
  (call_formatter (base_formatter defaults) tag content c = Ok content <-> ~ class_value (attrs_of c) None)
  /\ (call_formatter (base_formatter defaults) tag content c = Err EAttr <-> class_value (attrs_of c) None).
Proof.
  intros defaults tag content c. unfold call_formatter. fold (attrs_of c). destruct (extract_classes (attrs_of c)) as [ws|e] eqn:E.
  - cbn. apply classes_ok in E as (v & V & _). assert (NV : ~ class_value (attrs_of c) None) by (intros K; apply class_read in V, K; congruence). intuition discriminate.
  - cbn. apply classes_err in E as [V ->]. intuition discriminate.
Qed.
(** The box it passes on measures like the box around it. *)
Theorem C85_box : forall defaults tag x p, fc_parent (fx_call x) = Some p -> exists b, ff_box (base_formatter defaults) tag x = Ok (Some b)
  /\ b_width b = b_width p /\ inner_width b = inner_width p /\ bordered_width b = bordered_width p
  /\ inner_width_excluding_line_template b = inner_width_excluding_line_template p.
Proof.
  intros defaults tag x p H. cbn [ff_box base_formatter]. rewrite H. eexists. split; [reflexivity|].
  unfold inner_width, bordered_width, inner_width_excluding_line_template, child_box, add_lr, lr. cbn. repeat split; lia.
Qed.
Theorem C85_no_box : forall defaults tag x, fc_parent (fx_call x) = None -> ff_box (base_formatter defaults) tag x = Ok None.
Proof. intros defaults tag x H. cbn [ff_box base_formatter]. now rewrite H. Qed.
(** How a box is shown tells its margins, padding and border, its width and the
    room inside. *)
Lemma uint_inj : forall u v, uint_str u = uint_str v -> u = v.
Proof. induction u; destruct v; cbn [uint_str]; intros H; try discriminate H; try reflexivity; injection H as H; f_equal; auto. Qed.
Lemma shown_inj : forall z z', str_of_Z z = str_of_Z z' -> z = z'.
Proof.
  intros z z' H. apply DecimalZ.to_int_inj. unfold str_of_Z in H. destruct (Z.to_int z) as [u|u], (Z.to_int z') as [v|v].
  - f_equal. now apply uint_inj.
  - destruct u; discriminate H.
  - destruct v; discriminate H.
  - injection H as H. f_equal. now apply uint_inj.
Qed.
Definition numeric (c : N) : Prop := c = 45%N \/ (48 <= c <= 57)%N.
Lemma shown_numeric : forall z c, In c (str_of_Z z) -> numeric c.
Proof.
  assert (G : forall u c, In c (uint_str u) -> numeric c).
  { unfold numeric. induction u; intros c J; cbn [uint_str] in J; [destruct J|..]; (destruct J as [<-|J]; [right; lia|auto]). }
  intros z c J. unfold str_of_Z in J. destruct (Z.to_int z); [eauto|]. destruct J as [<-|J]; [now left|eauto].
Qed.
Lemma cut_at : forall (a a' : str) c s s', (forall x, In x a -> numeric x) -> (forall x, In x a' -> numeric x) -> ~ numeric c ->
  a ++ c :: s = a' ++ c :: s' -> a = a' /\ s = s'.
Proof.
  induction a as [|x a IH]; intros [|y a'] c s s' A A' NC H; cbn [app] in H.
  - injection H as H. auto.
  - injection H as H1 H2. subst y. elim NC. apply A'. now left.
  - injection H as H1 H2. subst x. elim NC. apply A. now left.
  - injection H as H1 H2. subst y. destruct (IH a' c s s') as [-> ->]; auto; intros z J; [apply A|apply A']; now right.
Qed.
Lemma shown_cut : forall z z' c s s', ~ numeric c -> str_of_Z z ++ c :: s = str_of_Z z' ++ c :: s' -> z = z' /\ s = s'.
Proof. intros z z' c s s' NC H. apply cut_at in H as [H ->]; eauto using shown_numeric, shown_inj. Qed.
Lemma sides_cut : forall m m' s s', repr_sides m ++ s = repr_sides m' ++ s' -> m = m' /\ s = s'.
Proof.
  intros [t r b l] [t' r' b' l'] s s' H. unfold repr_sides, repr_ints in H. cbn [sd_top sd_right sd_bottom sd_left map] in H.
  assert (J : forall a b c d : str, join (lit ", ") [a; b; c; d] = a ++ 44%N :: 32%N :: b ++ 44%N :: 32%N :: c ++ 44%N :: 32%N :: d) by reflexivity.
  rewrite !J in H. change (lit "[") with [91%N] in H. change (lit "]") with [93%N] in H.
  repeat (rewrite <- !app_assoc in H || cbn [app] in H). injection H as H.
  assert (N1 : ~ numeric 44) by (unfold numeric; lia). assert (N2 : ~ numeric 93) by (unfold numeric; lia).
  apply shown_cut in H as [-> H]; auto. injection H as H. apply shown_cut in H as [-> H]; auto. injection H as H. apply shown_cut in H as [-> H]; auto. injection H as H.
  apply shown_cut in H as [-> H]; auto.
Qed.
Theorem C85_shown : forall b b', repr_box b = repr_box b' ->
  b_margin b = b_margin b' /\ b_padding b = b_padding b' /\ b_border b = b_border b' /\ b_width b = b_width b' /\ inner_width b = inner_width b'.
Proof.
  intros b b' H. unfold repr_box in H. apply app_inv_head in H. apply sides_cut in H as [E1 H]. apply app_inv_head in H. apply sides_cut in H as [E2 H]. apply app_inv_head in H.
  apply sides_cut in H as [E3 H]. apply app_inv_head in H. assert (N1 : ~ numeric 44) by (unfold numeric; lia). assert (N2 : ~ numeric 32) by (unfold numeric; lia).
  change (lit ", iw: ") with (44%N :: lit " iw: ") in H. change (lit " ]") with [32%N; 93%N] in H. cbn [app] in H.
  apply shown_cut in H as [E4 H]; auto. apply app_inv_head in H. apply shown_cut in H as [E5 _]; auto.
Qed.
Print Assumptions C85_shown.
Print Assumptions C85_returns.
Print Assumptions C85_raises.
Print Assumptions C85_base.
Print Assumptions C85_box.
Print Assumptions C85_no_box.

(** ** Cases *)
Definition a_call : fcall := FCall (Some [(lit "class", Some (lit "a")); (lit "id", None); (lit "class", Some (lit " b  c"))]) (Some (root_box 67 sides0 sides0 sides0 None)) [].
(** A subclass that shows what it is given. *)
Definition telling : formatter :=
  Formatter (fun tag x => Ok [(lit "tag", VStr tag)]) (ff_box (base_formatter []))
    (fun tag content x => Ok (join (lit "|") (tag :: content :: fx_classes x ++ match fx_box x with Some (Some b) => [repr_box b] | _ => [] end))).
Example telling_case : returns telling (lit "p") (lit "text") a_call
  (lit "p|text|b|c|Box [ m: [0, 0, 0, 0], p: [0, 0, 0, 0], b: [0, 0, 0, 0], w: 67, iw: 67 ]").
Proof. apply C85_returns. vm_compute. reflexivity. Qed.
Example valueless_case : raises (base_formatter []) (lit "p") (lit "text") (FCall (Some [(lit "class", Some (lit "a")); (lit "class", None)]) None []) EAttr.
Proof. apply C85_raises. vm_compute. reflexivity. Qed.
Example base_case : ~ class_value (attrs_of a_call) None.
Proof. intros H. apply class_read in H. discriminate. Qed.
Close Scope Z_scope.
