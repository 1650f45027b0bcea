(** Lines inside nested quotations. *)
From Verif Require Import BaseFacts StrFacts LineFacts BoxFacts ElemFacts ElemText.
Open Scope Z_scope.
Section Q.
Context `{U : Uni}.

Lemma lines_of_app : forall s l1, lines_of s l1 -> forall x l2, (exists a, s = a ++ nl) -> lines_of x l2 -> lines_of (s ++ x) (l1 ++ l2).
Proof.
  induction 1 as [|b t r ls NB LE NE Z C HL IH]; intros x l2 (a & HA) HX.
  - destruct a; discriminate.
  - cbn [app]. rewrite <- !app_assoc. destruct r as [|y r].
    + inversion HL; subst; [|exfalso; destruct b0, t0; simpl in *; congruence]. cbn [app]. rewrite app_nil_r in HA.
      assert (T10 : exists t0, t = t0 ++ nl).
      { destruct (exists_last (l := t)) as (t0 & z & ->).
        - intros ->. rewrite app_nil_r in HA. subst b. specialize (NB 10%N). rewrite in_app_iff in NB.
          discriminate NB. right; now left.
        - rewrite app_assoc in HA. apply app_inj_tail in HA as [_ ->]. now exists t0. }
      destruct T10 as (t0 & ->). constructor; auto.
      * intros H. destruct t0; discriminate.
      * intros H. destruct t0 as [|? [|]]; discriminate.
    + constructor; auto.
      * intros H. specialize (Z H). discriminate.
      * intros H r' E. injection E as -> _. exact (C H r eq_refl).
      * apply IH; auto. destruct (exists_last (l := y :: r)) as (r0 & z & E); [discriminate|]. rewrite E in HA |- *.
        rewrite !app_assoc in HA. apply app_inj_tail in HA as [_ ->]. now exists r0.
Qed.
Lemma shows_line_in : forall s l ls, shows_line s l -> no_break l -> lines_of s ls -> In l (bodies ls).
Proof.
  intros s l ls (a & b & ->) NB H. destruct (lines_of_exists (a ++ nl)) as (l1 & H1).
  destruct (lines_of_exists b) as (l3 & H3).
  assert (H2 : lines_of (l ++ nl) [(l, nl)]).
  { rewrite <- (app_nil_r (l ++ nl)), <- app_assoc. apply (lines_cons l nl [] []); auto; [| |discriminate|constructor].
    - right. right. exists 10%N. auto.
    - destruct l; discriminate. }
  pose proof (lines_of_app _ _ H1 _ _ (ex_intro _ a eq_refl) (lines_of_app _ _ H2 _ _ (ex_intro _ l eq_refl) H3)) as G.
  rewrite <- !app_assoc in G. rewrite (lines_of_unique _ _ _ H G). unfold bodies. rewrite map_app. apply in_or_app. right. now left.
Qed.
Lemma in_rows : forall w ls l, In l ls -> exists a b, nl ++ rows w ls ++ nl = a ++ nl ++ pad w l ++ nl ++ b.
Proof.
  intros w ls l. induction ls as [|x [|y r] IH]; [intros []| |].
  - intros [->|[]]. exists [], []. now rewrite app_nil_r.
  - intros [->|I].
    + exists [], (rows w (y :: r) ++ nl). unfold rows. cbn [map]. rewrite join_cons2. cbn [app]. now rewrite <- !app_assoc.
    + destruct (IH I) as (a & b & E). exists (nl ++ pad w x ++ a), b. unfold rows in *. cbn [map] in *. rewrite join_cons2.
      rewrite <- !app_assoc. rewrite <- E. now rewrite <- ?app_assoc.
Qed.
Lemma shows_pre : forall a b s l, shows_line s l -> shows_line (a ++ s ++ b) l.
Proof. intros a b s l (x & y & ->). exists (a ++ x), (y ++ b). now rewrite <- !app_assoc. Qed.
Lemma shows_concat : forall parts s l, In s parts -> shows_line s l -> shows_line (concat parts) l.
Proof.
  intros parts s l I H. apply in_split in I as (a & b & ->). rewrite concat_app. cbn [concat]. now apply shows_pre.
Qed.
Lemma quote_shows : forall o g h s sg i n bx out, closing o g h s sg ->
  is_tagged (p_dom s) i n (lit "blockquote") -> rendered (p_dom s) sg i bx out ->
  exists c, content (p_dom s) sg n (inner_box bx 1 1 (Some (lit "> {}"))) c
    /\ forall ls l, lines_of c ls -> In l (bodies ls) -> exists m, shows_line out (lit "> " ++ l ++ spaces m).
Proof.
  intros o g h s sg i n bx out C T R. destruct (quote_shape _ _ _ _ _ _ _ _ _ C T R) as (c & ls & HC & HL & E).
  exists c. split; auto. intros ls' l HL' I. rewrite (lines_of_unique _ _ _ HL' HL) in I.
  exists (line_width bx - len (lit "> " ++ l)). rewrite app_assoc. subst out.
  destruct ls as [|x ls]; [contradiction|].
  destruct (in_rows (line_width bx) (map (fun b => lit "> " ++ b) (bodies (x :: ls))) (lit "> " ++ l)) as (a & b & E).
  - apply in_map_iff. eauto.
  - exists a, b. exact E.
Qed.
Lemma no_break_app : forall a b, no_break a -> no_break b -> no_break (a ++ b).
Proof. intros a b HA HB c I. apply in_app_or in I as [I|I]; auto. Qed.
Lemma no_break_spaces : forall m, no_break (spaces m).
Proof. intros m c I. unfold spaces in I. apply repeat_spec in I. now subst. Qed.
Lemma no_break_copies : forall k x, no_break x -> no_break (copies k x).
Proof. induction k; intros x H; [intros c []|]. cbn [copies]. apply no_break_app; auto. Qed.
Lemma spaces_app : forall a b, exists m, spaces a ++ spaces b = spaces m.
Proof.
  intros a b. exists (Z.max 0 a + Z.max 0 b). unfold spaces. rewrite <- repeat_app. f_equal. lia.
Qed.
Lemma bodies_no_break : forall s ls l, lines_of s ls -> In l (bodies ls) -> no_break l.
Proof. induction 1; intros I; [contradiction|]. destruct I as [<- |I]; auto. Qed.
Lemma quote_chain_shows : forall o g h s sg, closing o g h s sg ->
  forall k i j, quote_chain (p_dom s) k i j -> forall bx out, rendered (p_dom s) sg i bx out ->
  exists n bx' c, is_tagged (p_dom s) j n (lit "blockquote") /\ content (p_dom s) sg n bx' c
    /\ forall ls l, lines_of c ls -> In l (bodies ls) -> exists m, shows_line out (copies (S k) (lit "> ") ++ l ++ spaces m).
Proof.
  intros o g h s sg C k i j Q. induction Q as [i n T|k i n i' j T I Q IH]; intros bx out R.
  - destruct (quote_shows _ _ _ _ _ _ _ _ _ C T R) as (c & HC & G). exists n, (inner_box bx 1 1 (Some (lit "> {}"))), c.
    split; auto.
  - destruct (quote_shows _ _ _ _ _ _ _ _ _ C T R) as (c & HC & G).
    destruct HC as (parts & links & F1 & F2 & EC).
    assert (P : exists x, In x parts /\ rendered (p_dom s) sg i' (inner_box bx 1 1 (Some (lit "> {}"))) x).
    { clear -F1 I. induction F1 as [|a b l l' H _ IH]; [contradiction|]. destruct I as [->|I]; [exists b; split; [now left|auto]|].
      destruct (IH I) as (x & X1 & X2). exists x. split; auto. now right. }
    destruct P as (x & PX & RX). destruct (IH _ _ RX) as (n' & bx' & c' & T' & HC' & G'). exists n', bx', c'. split; auto. split; auto.
    intros ls l HL HI. destruct (G' ls l HL HI) as (m & SL).
    assert (NB : no_break (copies (S k) (lit "> ") ++ l ++ spaces m)).
    { apply no_break_app; [apply no_break_copies|apply no_break_app; [eapply bodies_no_break; eauto|apply no_break_spaces]].
      intros z HZ. vm_compute in HZ. destruct HZ as [<- |[<- |[]]]; reflexivity. }
    assert (S' : shows_line c (copies (S k) (lit "> ") ++ l ++ spaces m)).
    { subst c. apply (shows_pre []). eapply shows_concat; eauto. }
    destruct (lines_of_exists c) as (lc & HLc). pose proof (shows_line_in _ _ _ S' NB HLc) as IN.
    destruct (G _ _ HLc IN) as (m' & S''). destruct (spaces_app m m') as (m2 & E2). exists m2. rewrite <- E2.
    change (copies (S (S k)) (lit "> ")) with (lit "> " ++ copies (S k) (lit "> ")). rewrite <- !app_assoc in S'' |- *. rewrite <- app_assoc in S''. exact S''.
Qed.
End Q.
Close Scope Z_scope.
