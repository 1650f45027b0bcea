(** From what a renderer makes of an element to what the element looks like. *)
From Verif Require FormatMain.
From Verif Require Import WrapFacts WrapLoop WrapWidth.
From Verif Require Import BaseFacts StrFacts SelFacts LineFacts BoxFacts AnsiStyle RenderFacts ElemFacts SettingsFacts DressFacts DressProps PageBase PageFacts.
From Verif Require Import StyleShow.
From Verif Require Export ShapeSpec.
Open Scope Z_scope.

Section A.
Context `{U : Uni}.
(** ** Settings *)
Ltac shape H := match type of H with shape_of _ _ _ => unfold shape_of in H; cbv zeta in H; cbn [existsb] in H; repeat match type of H with context [seqb (lit ?a) (lit ?b)] => let e := eval vm_compute in (seqb (lit a) (lit b)) in change (seqb (lit a) (lit b)) with e in H end; cbn [orb] in H end.
Section S.
Variables (k : kind) (s : settings).
Hypothesis SH : shaped k s.
Lemma has : forall key, In key (needed k) -> exists v, dget (lit key) s = Some v /\ shape_of k (lit key) v.
Proof. destruct SH as [A B]. intros key J. apply A in J. destruct (dget (lit key) s) as [v|] eqn:E; [|congruence]. exists v. split; auto. Qed.
Lemma has_truth : forall key, In key (needed k) -> exists b, switched s key b.
Proof. intros key J. destruct (has key J) as (v & E & _). exists (truth v), v. auto. Qed.
Lemma has_template : forall key, In key ["template"; "line_template"; "block_template"; "inline_template"; "gophermap_template"]%string ->
  In key (needed k) -> exists t, template_set s key t.
Proof.
  intros key K J. destruct (has key J) as (v & E & H).
  assert (T : a_template v) by (cbn [In] in K; repeat (destruct K as [<-|K]; [shape H; exact H|]); contradiction).
  destruct T as (t & ->). exists t. exact E.
Qed.
Lemma has_number : forall key, In key ["spread"; "indent"; "initial_indent"; "subsequent_indent"]%string -> In key (needed k) -> exists z, int_set s key z.
Proof.
  intros key K J. destruct (has key J) as (v & E & H).
  assert (T : a_number v) by (cbn [In] in K; repeat (destruct K as [<-|K]; [shape H; exact H|]); contradiction).
  destruct T as (z & ->). exists z. exact E.
Qed.
Lemma has_text : forall key, In key ["spread_char"; "underline_char"]%string -> In key (needed k) -> exists z, str_set s key z.
Proof.
  intros key K J. destruct (has key J) as (v & E & H).
  assert (T : a_text v) by (cbn [In] in K; repeat (destruct K as [<-|K]; [shape H; exact H|]); contradiction).
  destruct T as (z & ->). exists z. exact E.
Qed.
Lemma has_sides : forall key, In key ["margin"; "padding"]%string -> exists x, sides_set s key x.
Proof.
  intros key K. destruct SH as [_ B]. unfold sides_set. destruct (dget (lit key) s) as [v|] eqn:E; [|eauto].
  pose proof (B _ _ E) as H. assert (T : four_numbers v) by (cbn [In] in K; repeat (destruct K as [<-|K]; [shape H; exact H|]); contradiction).
  destruct T as [->|(t & r & b & l & rest & ->)]; [eauto|]. exists (Sides t r b l), rest. reflexivity.
Qed.
Lemma has_border : In "border"%string (needed k) -> exists b, border_set s b
  /\ (let l := [VStr (bo_top b); VStr (bo_right b); VStr (bo_bottom b); VStr (bo_left b)] in
      dget (lit "border") s = Some (VList l) \/ dget (lit "border") s = Some (VTuple l)).
Proof.
  intros J. destruct (has _ J) as (v & E & H). shape H. destruct H as (t & r & b & l & H). exists (Borders t r b l). cbn [bo_top bo_right bo_bottom bo_left]. unfold border_set.
  cbn [bo_top bo_right bo_bottom bo_left]. destruct H as [->| ->]; (split; [exists []|]; auto).
Qed.
Lemma has_wears : In "border"%string (needed k) -> exists x, wears s x
  /\ (let b := dr_border x in let l := [VStr (bo_top b); VStr (bo_right b); VStr (bo_bottom b); VStr (bo_left b)] in
      dget (lit "border") s = Some (VList l) \/ dget (lit "border") s = Some (VTuple l)).
Proof.
  intros J. destruct (has_border J) as (b & B1 & B2). destruct (has_sides "margin"%string) as (m & M); [now left|]. destruct (has_sides "padding"%string) as (p & P); [right; now left|].
  exists (Dress m p b). split; [|exact B2]. split; auto.
Qed.
Lemma has_just : In "justification"%string (needed k) -> exists j, justification_set s j.
Proof. intros J. destruct (has _ J) as (v & E & H). shape H. destruct H as (j & -> & K). exists j. split; auto. Qed.
Lemma has_wrapper : In "initial_indent"%string (needed k) -> In "subsequent_indent"%string (needed k) -> exists cfg, wrapper_set s cfg.
Proof.
  intros J1 J2. destruct (has_number "initial_indent"%string) as (n1 & N1); [cbn; tauto|auto|]. destruct (has_number "subsequent_indent"%string) as (n2 & N2); [cbn; tauto|auto|].
  assert (T : exists ts, match dget (lit "tabsize") s with Some v => v = VInt ts | None => ts = 8 end).
  { destruct SH as [_ B]. destruct (dget (lit "tabsize") s) as [v|] eqn:E; [|eauto]. pose proof (B _ _ E) as H. shape H. exact H. }
  destruct T as (ts & T).
  exists (Wcfg 0 (spaces n1) (spaces n2) (opt_truth s "expand_tabs" true) (opt_truth s "replace_whitespace" true)
        (opt_truth s "fix_sentence_endings" false) (opt_truth s "break_long_words" true) (opt_truth s "drop_whitespace" true)
        (match dget (lit "break_on_hyphens") s with Some (VBool b) => b | Some _ => false | None => true end)
        (opt_truth s "break_on_hyphens" true) ts None (lit " [...]")).
  unfold wrapper_set, chosen, opt_truth. cbn.
  split; [exists n1; auto|]. split; [exists n2; auto|].
  repeat match goal with |- _ /\ _ => split end; try reflexivity; try exact T; match goal with |- match ?x with _ => _ end => destruct x as [[]|]; reflexivity end.
Qed.
Lemma has_two : forall v, two_templates v -> exists plain titled rest, v = VList (VStr plain :: VStr titled :: rest).
Proof. intros v (a & b & rest & -> & (t & ->) & (t' & ->)). now exists t, t', rest. Qed.
Lemma has_max : In "max_link_description"%string (needed k) -> exists m, int_set s "max_link_description" m /\ 0 <= m.
Proof. intros J. destruct (has _ J) as (v & E & H). shape H. destruct H as (z & -> & P). exists z. auto. Qed.
Lemma has_templates : In "templates"%string (needed k) -> exists v, dget (lit "templates") s = Some v /\ templates_for k v.
Proof. intros J. destruct (has _ J) as (v & E & H). shape H. exists v. auto. Qed.
End S.
Lemma fmt1_back : forall s key t x out v, template_set s key t -> dget (lit key) s = Some v -> fmt1 v x = Ok out -> fills t x out.
Proof.
  intros s key t x out v H E F. unfold template_set in H. rewrite H in E. injection E as <-. unfold fmt1 in F. cbn [want_str bind] in F. now apply FormatMain.format_ok.
Qed.
End A.
Close Scope Z_scope.
