(** Source text in pieces: reading one piece, and all of them. *)
From Verif Require Import BaseFacts StrFacts TreeFacts TokFacts CrashFacts.
From Verif Require Export ChunkFacts.
Open Scope N_scope.

Lemma prefix_split : forall (a b x z : str), a ++ b = x ++ z -> (exists y, z = y ++ b /\ a = x ++ y) \/ (exists y, x = a ++ y /\ b = y ++ z /\ y <> []).
Proof.
  intros a b x z H. apply app_eq_app in H. destruct H as (l & [[H1 H2]|[H1 H2]]); [left; eauto|]. destruct l as [|c l]; [left; exists []; rewrite app_nil_r in *; cbn in *; auto|]. right. exists (c :: l). repeat split; auto. discriminate.
Qed.
(** A proper prefix of a text with one last character. *)
Lemma prefix_last : forall (a : str) c x z, a ++ [c] = x ++ z -> z <> [] -> exists y, a = x ++ y.
Proof.
  intros a c x z H NE. destruct (prefix_split _ _ _ _ H) as [(y & _ & E)|(y & -> & E & NY)]; [eauto|]. destruct y as [|d y]; [now elim NY|]. injection E as <- E. destruct y, z; try discriminate. now elim NE.
Qed.
Lemma not_in_prefix : forall (c : N) a x y, ~ In c a -> a = x ++ y -> ~ In c x.
Proof. intros c a x y H -> I. apply H. apply in_or_app. now left. Qed.
Lemma search_none : forall p s, (forall a c, s = a ++ c -> p c = None) -> search p s = None.
Proof.
  intros p s H. induction s as [|c s IH]; cbn [search]; rewrite (H [] _ eq_refl); [reflexivity|]. apply IH. intros a d E. apply (H (c :: a) d). now rewrite E.
Qed.
Lemma comment_inv : forall s r, comment_close s = Some r -> exists t, s = 45 :: 45 :: t /\ t <> [].
Proof.
  intros s r H. unfold comment_close, close_at in H. destruct s as [|a s]; [discriminate|]. destruct (N.eqb_spec a 45); [|discriminate]. subst a. destruct s as [|b s]; [discriminate|]. destruct (N.eqb_spec b 45); [|discriminate]. subst b.
  exists s. split; [reflexivity|]. intros ->. discriminate.
Qed.
Lemma comment_waits : forall b p z, comment_body b -> b ++ [45; 45; 62] = p ++ z -> z <> [] -> search comment_close p = None.
Proof.
  intros b p z (B1 & B2) E NZ. apply search_none. intros a c EP. destruct (comment_close c) as [r|] eqn:C; [|reflexivity]. exfalso. destruct (comment_inv _ _ C) as (t & -> & NT). subst p.
  replace ((a ++ 45 :: 45 :: t) ++ z) with ((a ++ [45; 45]) ++ t ++ z) in E by (rewrite <- !app_assoc; reflexivity).
  destruct (prefix_split _ _ _ _ E) as [(y & _ & EB)|(y & EA & EC & NY)].
  - apply (B1 a y). rewrite EB, <- app_assoc. reflexivity.
  - destruct y as [|y1 y]; [now elim NY|]. injection EC as <- EC. destruct y as [|y2 y].
    + apply (B2 a). change [45; 45] with ([45] ++ [45]) in EA. rewrite app_assoc in EA. apply app_inj_tail in EA. symmetry. apply EA.
    + injection EC as <- EC. destruct t as [|t0 t]; [now elim NT|]. destruct y as [|y3 y]; [|destruct y; discriminate]. cbn [app] in EC. injection EC as _ EC. destruct t; [|discriminate]. cbn in EC. now elim NZ.
Qed.

Section D.
Context `{U : Uni}.

(** ** Marks: what is read at once *)
Inductive mark : str -> list op -> option str -> Prop :=
| mk_start : forall t a st, start_as true t a st -> mark st [OStart t a] (if seqb t (lit "script") || seqb t (lit "style") then Some t else None)
| mk_slash : forall t a st, slashed_as true t a st -> mark st [OStart t a; OEnd t] None
| mk_end : forall t en, end_as t en -> mark en [OEnd t] None
| mk_aside : forall x, aside x -> mark x [] None.

Lemma mark_first : forall M evs cd, mark M evs cd -> exists r, M = 60 :: r.
Proof. intros M evs cd H. destruct H as [t a st H|t a st H|t en H|x H]; destruct H; eauto. Qed.
Lemma mark_tokens : forall f M evs cd x, mark M evs cd -> tokens f None (M ++ x) = emit_all evs (tokens f cd x).
Proof.
  intros f M evs cd x H. destruct H as [t a st H|t a st H|t en H|y H].
  - now rewrite (start_tokens f t a st x H).
  - now rewrite (slashed_tokens f t a st x H).
  - now rewrite (end_tokens f t en x H).
  - now rewrite aside_tokens.
Qed.

Lemma no_gt : forall w, Forall html_blank w -> ~ In 62 w.
Proof. intros w F. apply blanks_not; auto. unfold html_blank. lia. Qed.
Lemma names_no_gt : forall nm, Forall name_part nm -> ~ In 62 nm.
Proof. intros nm F I. rewrite Forall_forall in F. destruct (name_facts 62 (F _ I)) as (_ & _ & _ & A & _). now apply A. Qed.
Lemma attrs_no_gt : forall a s b, attrs_as true a s b -> ~ In 62 s.
Proof.
  induction 1 as [|w nm k v vs b l s b' NW FW NN FN K V A IH]; [intros []|]. rewrite !in_app_iff. intros [I|[I|[I|I]]]; [exact (no_gt _ FW I)|exact (names_no_gt _ FN I)| |auto].
  destruct V as [|q w1 w2 v s0 Q F1 F2 C T|w1 w2 v s0 F1 F2 NE T].
  - destruct I.
  - apply in_app_iff in I. destruct I as [I|[I|I]]; [exact (no_gt _ F1 I)|discriminate|]. apply in_app_iff in I. destruct I as [I|[I|I]]; [exact (no_gt _ F2 I)|destruct Q; subst; discriminate|].
    apply in_app_iff in I. destruct I as [I|[I|[]]]; [now apply C|destruct Q; subst; discriminate].
  - apply in_app_iff in I. destruct I as [I|[I|I]]; [exact (no_gt _ F1 I)|discriminate|]. apply in_app_iff in I. destruct I as [I|I]; [exact (no_gt _ F2 I)|].
    pose proof (bare_not_quote _ _ T) as F. rewrite Forall_forall in F. destruct (F _ I) as (_ & _ & N62 & _). now apply N62.
Qed.
Lemma drop_prefix : forall p x y c r, drop_while p x = c :: r -> drop_while p (x ++ y) = c :: r ++ y.
Proof. intros p x y c r. induction x as [|d x IH]; cbn [app drop_while]; [discriminate|]. destruct (p d); auto. intros H. injection H as <- <-. reflexivity. Qed.
Lemma tag_first : forall a s b w e, attrs_as true a s b -> Forall html_blank w -> ending e -> exists d r, s ++ w ++ e = d :: r /\ name_char d = false /\ d <> 0.
Proof.
  intros a s b w e A FW EN. assert (B : forall w' r, Forall html_blank w' -> w' <> [] -> exists d r', w' ++ r = d :: r' /\ name_char d = false /\ d <> 0).
  { intros [|c w'] r F NE; [now elim NE|]. inversion F; subst. exists c, (w' ++ r). split; [reflexivity|]. destruct (blank_facts c H1) as (_ & N1 & _). split; auto. unfold html_blank in H1. lia. }
  destruct A as [|w0 nm k v vs b0 l s b' NW FW0 NN FN K V A].
  - cbn [app]. destruct w as [|c w]; [|now apply B]. destruct EN; subst; cbn; eexists; eexists; repeat split; discriminate.
  - rewrite <- app_assoc. now apply B.
Qed.
Lemma tag_waits : forall nm t a s b w e x z, spells nm t -> attrs_as true a s b -> Forall html_blank w -> ending e ->
  nm ++ s ++ w ++ e = x ++ z -> z <> [] -> x <> [] -> parse_markup None (60 :: x) = Some MWait.
Proof.
  intros nm t a s b w e x z SP A FW EN E NZ NX. destruct (tag_first a s b w e A FW EN) as (d & r & EF & ND & N0). pose proof (spells_parts _ _ SP) as FN. destruct SP as (c & nm' & -> & CL & FN' & TT).
  destruct x as [|x0 x]; [now elim NX|]. assert (x0 = c) by (cbn in E; injection E as -> _; reflexivity). subst x0.
  apply markup_waits; [|now left|].
  - assert (X : exists e0, e = e0 ++ [62] /\ ~ In 62 e0). { destruct EN; subst; [exists []; split; auto|exists [47]; split; auto]. intros [I|[]]; discriminate. }
    destruct X as (e0 & -> & N62). replace ((c :: nm') ++ s ++ w ++ e0 ++ [62]) with (((c :: nm') ++ s ++ w ++ e0) ++ [62]) in E by (rewrite <- !app_assoc; reflexivity).
    destruct (prefix_last _ _ _ _ E NZ) as (y & EY). eapply not_in_prefix; [|exact EY]. rewrite !in_app_iff. intros [I|[I|[I|I]]]; [exact (names_no_gt _ FN I)|exact (attrs_no_gt _ _ _ A I)|exact (no_gt _ FW I)|auto].
  - intros _ r0 D. apply (drop_prefix _ _ z) in D. rewrite <- E, EF in D. destruct (take_app name_char (c :: nm') (d :: r)) as [_ D2].
    + eapply Forall_impl; [|exact FN]. intros n Hn. apply (name_facts n Hn).
    + right. eauto.
    + rewrite D2 in D. injection D as -> _. now apply N0.
Qed.
Lemma mark_waits : forall M evs cd x z, mark M evs cd -> M = x ++ z -> z <> [] -> tokens false None x = TStop None x.
Proof.
  intros M evs cd x z H E NZ. destruct x as [|c x]; [now rewrite tokens_eq|]. destruct (mark_first _ _ _ H) as (r & EM). assert (c = 60) by (rewrite EM in E; injection E as -> _; reflexivity). subst c.
  rewrite tokens_at. unfold at_markup. destruct x as [|c x]; [reflexivity|]. replace (parse_markup None (60 :: c :: x)) with (Some MWait); [reflexivity|]. symmetry.
  destruct H as [t a st H|t a st H|t en H|y H].
  - destruct H as [nm s b w SP A FW]. injection E as E. apply (tag_waits nm t a s b w [62] (c :: x) z); auto; [now left|discriminate].
  - destruct H as [nm s b w SP A FW BR]. injection E as E. apply (tag_waits nm t a s b w [47; 62] (c :: x) z); auto; [now right|discriminate].
  - destruct H as [w1 nm w2 F1 SP F2]. injection E as <- E. apply markup_waits; [|auto|intros K; unfold ascii_letter in K; lia].
    replace (w1 ++ nm ++ w2 ++ [62]) with ((w1 ++ nm ++ w2) ++ [62]) in E by (rewrite <- !app_assoc; reflexivity). destruct (prefix_last _ _ _ _ E NZ) as (y & EY). intros [I|I]; [discriminate|].
    revert I. eapply not_in_prefix; [|exact EY]. eapply end_chars; eauto.
  - destruct H as [b B|d b D B|b B].
    + injection E as <- E. destruct x as [|c1 x]; [apply markup_waits; [intros [I|[]]; discriminate|right; right; right; split; [reflexivity|discriminate]|intros K; unfold ascii_letter in K; lia]|].
      injection E as <- E. destruct x as [|c2 x]; [apply markup_waits; [intros [I|[I|[]]]; discriminate|right; right; right; split; [reflexivity|discriminate]|intros K; unfold ascii_letter in K; lia]|].
      injection E as <- E. unfold parse_markup. change (is_alpha_ascii 33) with false. change (33 =? 47) with false. cbv iota.
      replace (startswith (lit "<!--") (60 :: 33 :: 45 :: 45 :: x)) with true by reflexivity. cbv iota. cbn [skipn]. now rewrite (comment_waits b x z B E NZ).
    + injection E as <- E. destruct d as [|d0 d]; [discriminate|]. cbn [map app] in *. assert (D0 : d0 <> 91 /\ d0 <> 62). { change (lit "doctype") with [100; 111; 99; 116; 121; 112; 101] in D. injection D as D _. unfold small in D. split; intros ->; discriminate. }
      apply markup_waits; [|right; right; right; split; [reflexivity|]|intros K; unfold ascii_letter in K; lia].
      * replace (d0 :: d ++ b ++ [62]) with ((d0 :: d ++ b) ++ [62]) in E by (cbn [app]; now rewrite <- app_assoc). destruct (prefix_last _ _ _ _ E NZ) as (y & EY). intros [I|I]; [discriminate|].
        revert I. eapply not_in_prefix; [|exact EY]. change (d0 :: d ++ b) with ((d0 :: d) ++ b). rewrite in_app_iff. intros [I|I]; [|auto].
        assert (I2 : In 62 (map small (d0 :: d))) by (apply in_map_iff; exists 62; split; [reflexivity|assumption]). cbn [map] in I2. rewrite D in I2. change (lit "doctype") with [100; 111; 99; 116; 121; 112; 101] in I2. cbn in I2. intuition discriminate.
      * intros r0 ->. injection E as -> _. now apply D0.
    + injection E as <- E. apply markup_waits; [|auto|intros K; unfold ascii_letter in K; lia]. destruct (prefix_last _ _ _ _ E NZ) as (y & EY). intros [I|I]; [discriminate|]. revert I. eapply not_in_prefix; [|exact EY]. exact B.
Qed.

(** ** Elements whose content is not markup *)
Lemma suff_ci : forall p s r, starts_ci p s = Some r -> suff r s.
Proof. induction p as [|x p IH]; intros s r H; cbn [starts_ci] in H; [injection H as ->; apply suff_refl|]. destruct s as [|y s]; [discriminate|]. destruct (same_letter x y); [|discriminate]. apply suff_cons. eauto. Qed.
Lemma close_lt : forall t s, cdata_close t s = true -> exists r, s = 60 :: 47 :: r /\ In 62 r.
Proof.
  intros t s H. unfold cdata_close in H. destruct s as [|c s]; [discriminate|]. destruct (N.eq_dec c 60) as [->|NC]; [|exfalso; revert H; destruct c as [|p]; [discriminate|]; do 6 (destruct p as [p|p|]; try discriminate); now elim NC].
  destruct s as [|d s]; [discriminate|]. destruct (N.eq_dec d 47) as [->|ND]; [|exfalso; revert H; destruct d as [|p]; [discriminate|]; do 6 (destruct p as [p|p|]; try discriminate); now elim ND].
  exists s. split; [reflexivity|]. destruct (starts_ci t (drop_while is_space s)) as [r'|] eqn:ES; [|discriminate]. destruct (drop_while is_space r') as [|g u] eqn:ED; [discriminate|]. apply N.eqb_eq in H. subst g. apply drop_in in ED.
  apply suff_ci in ES. destruct ES as (a & E1). destruct (suff_drop is_space s) as (b & E2). rewrite E2, E1, !in_app_iff. auto.
Qed.
Lemma cdata_no_gt : forall t s, ~ In 62 s -> cdata_text t s = None.
Proof.
  intros t s H. induction s as [|c s IH]; cbn [cdata_text]; (destruct (cdata_close t _) eqn:C; [apply close_lt in C; destruct C as (r & E & I)|]).
  - discriminate.
  - reflexivity.
  - exfalso. apply H. rewrite E. right. now right.
  - rewrite IH; [reflexivity|]. intros I. apply H. now right.
Qed.
Lemma raw_waits : forall t s en x z, raw_text s -> end_as t en -> s ++ en = x ++ z -> z <> [] -> cdata_text t x = None.
Proof.
  intros t s en x z R EN. revert x. induction s as [|c s IH]; intros x E NZ.
  - apply cdata_no_gt. destruct EN as [w1 nm w2 F1 SP F2]. cbn [app] in E.
    replace (60 :: 47 :: w1 ++ nm ++ w2 ++ [62]) with ((60 :: 47 :: w1 ++ nm ++ w2) ++ [62]) in E by (cbn [app]; rewrite <- !app_assoc; reflexivity).
    destruct (prefix_last _ _ _ _ E NZ) as (y & EY). eapply not_in_prefix; [|exact EY]. intros [I|[I|I]]; [discriminate|discriminate|]. revert I. eapply end_chars; eauto.
  - destruct x as [|d x]; [reflexivity|]. cbn [app] in E. injection E as <- E. cbn [cdata_text]. rewrite (IH (raw_tail _ _ R) x E NZ). replace (cdata_close t (c :: x)) with false; [reflexivity|]. symmetry.
    apply not_true_is_false. intros C. apply close_lt in C. destruct C as (r & EC & _). injection EC as -> ->. destruct s as [|d s]; cbn [app] in E.
    + destruct (end_first _ _ EN) as (y & ->). discriminate.
    + injection E as -> _. apply (R [] s). reflexivity.
Qed.
End D.
Close Scope N_scope.
