(** The shipped rule tables have the shape and the selectors C70 asks for. *)
From Verif Require Import WrapFacts WrapLoop WrapWidth.
From Verif Require Import BaseFacts StrFacts SelFacts TreeFacts DomFacts DocFacts.
From Verif Require Import PageSpec PageRead StyleMain ShapeMain ShapeCheck.
From Verif Require Export ShapeSpec.
Open Scope Z_scope.

Lemma construct_tables : forall o o' g g', construct o = Ok g -> construct o' = Ok g' -> o_renderers o = o_renderers o' -> o_ext o = o_ext o' ->
  g_rules g = g_rules g' /\ g_default g = g_default g' /\ g_ext_rules g = g_ext_rules g' /\ g_ext_a g = g_ext_a g'.
Proof.
  intros o o' g g' H H' E1 E2. unfold construct in *. rewrite <- E1, <- E2 in H'.
  destruct (_ && _)%bool in H; [discriminate|]. destruct (_ && _)%bool in H; [discriminate|]. destruct (_ && _)%bool in H'; [discriminate|]. destruct (_ && _)%bool in H'; [discriminate|].
  destruct (dget [] _) as [[ss r]|]; [|discriminate]. injection H as <-. injection H' as <-. auto.
Qed.
Definition with_table (t : table) : options := Options 67 None t [] (lit "text") (lit "footer") (lit "inline") [] 70 true.
Lemma table_shaped : forall t, (match construct (with_table t) with Ok g => tables_check g | Err _ => false end) = true ->
  forall o g, construct o = Ok g -> o_renderers o = t -> o_ext o = [] -> shaped_tables g.
Proof.
  intros t H o g CN E1 E2. destruct (construct (with_table t)) as [g'|] eqn:CN'; [|discriminate].
  destruct (construct_tables _ _ _ _ CN CN') as (A1 & A2 & A3 & A4); [exact E1|exact E2|]. apply tables_checked. unfold tables_check in *. now rewrite A1, A2, A3, A4.
Qed.
Definition keyed_check (t : table) : bool :=
  forallb (fun row => match snd (snd row) with RPair _ (Some s) => (fix go (l : list str) := match l with [] => true | x :: r => negb (smem x r) && go r end) (dkeys s) | _ => true end) t.
Lemma keyed_checked : forall t, keyed_check t = true -> table_ok t.
Proof.
  intros t H k sels c s J. unfold keyed_check in H. rewrite forallb_forall in H. specialize (H _ J). cbn [snd] in H. unfold keyed. change (map fst s) with (dkeys s). revert H. generalize (dkeys s) as l.
  induction l as [|x l IH]; intros H; constructor; apply andb_prop in H as [H1 H2]; auto. apply negb_true_iff in H1. intros K. apply smem_In in K. congruence.
Qed.
Close Scope Z_scope.
