(** The command line tool: facts. *)
From Verif Require Import BaseFacts StrFacts UrlFacts.
From Verif Require Export Cli CliSpec.
Open Scope N_scope.

Lemma newlines_cr : forall r, newlines_only (13 :: r) = 10 :: match r with 10 :: r' => newlines_only r' | _ => newlines_only r end.
Proof. reflexivity. Qed.
Lemma newlines_other : forall c r, c <> 13 -> newlines_only (c :: r) = c :: newlines_only r.
Proof. intros c r H. destruct c as [|[[[[]|[]|]|[[]|[]|]|]|[[[]|[]|]|[[]|[]|]|]|]]; try reflexivity; congruence. Qed.
Lemma unix_iff : forall s t, unix_lines s t <-> newlines_only s = t.
Proof.
  intros s t. split.
  - intros H. induction H as [|s t _ IH|s t N _ IH|c s t N _ IH]; [reflexivity|rewrite newlines_cr; now rewrite IH| |rewrite newlines_other by auto; now rewrite IH].
    rewrite newlines_cr. f_equal. rewrite <- IH. destruct s as [|c s]; auto. destruct (N.eq_dec c 10) as [->|NE]; [now destruct (N s)|].
    destruct c as [|[[[[]|[]|]|[[]|[]|]|]|[[[]|[]|]|[[]|[]|]|]|]]; try reflexivity; congruence.
  - intros <-. remember (length s) as k eqn:K. assert (L : (length s <= k)%nat) by lia. clear K. revert s L. induction k as [|k IH]; intros [|c s] L; cbn [length] in L; try lia; try (cbn; constructor; fail).
    destruct (N.eq_dec c 13) as [->|NC].
    + rewrite newlines_cr. destruct s as [|d s]; [apply ul_cr; [discriminate|constructor]|]. destruct (N.eq_dec d 10) as [->|ND].
      * apply ul_crlf. apply IH. cbn [length] in L. lia.
      * match goal with |- unix_lines _ (10 :: ?X) => replace X with (newlines_only (d :: s)) end.
        -- apply ul_cr; [congruence|]. apply IH. lia.
        -- destruct d as [|[[[[]|[]|]|[[]|[]|]|]|[[[]|[]|]|[[]|[]|]|]|]]; try reflexivity; congruence.
    + rewrite newlines_other by auto. apply ul_char; auto. apply IH. lia.
Qed.

(** ** Paths *)
Lemma split_slashed : forall p, slashed (split_on 47 p) = p /\ Forall (fun x => ~ In 47 x) (split_on 47 p) /\ split_on 47 p <> [].
Proof.
  induction p as [|c p (E & F & N)]; [repeat split; [repeat constructor; auto|discriminate]|]. cbn [split_on]. destruct (N.eqb_spec c 47) as [->|NE].
  - split; [|split; [constructor; auto|discriminate]]. destruct (split_on 47 p) as [|x l] eqn:S; [congruence|]. change (slashed ([] :: x :: l)) with ([] ++ 47 :: slashed (x :: l)). now rewrite E.
  - destruct (split_on 47 p) as [|x l] eqn:S; [congruence|]. inversion F; subst. split; [|split; [constructor; auto; intros [|]; auto|discriminate]].
    destruct l; cbn [slashed app] in *; reflexivity.
Qed.
Lemma slashed_split : forall l, l <> [] -> Forall (fun x => ~ In 47 x) l -> split_on 47 (slashed l) = l.
Proof.
  induction l as [|x l IH]; intros N F; [congruence|]. inversion F; subst. clear N. destruct l as [|y l].
  - clear IH F H2. cbn [slashed]. induction x as [|c x IH]; [reflexivity|]. cbn [split_on]. destruct (N.eqb_spec c 47) as [->|NE]; [elim H1; now left|]. rewrite IH; auto. intros I. apply H1. now right.
  - change (slashed (x :: y :: l)) with (x ++ 47 :: slashed (y :: l)). specialize (IH ltac:(discriminate) H2).
    clear F H2. revert IH. generalize (slashed (y :: l)) as s. generalize (y :: l) as m. clear y l. intros m s E. induction x as [|c x IHx]; cbn [app split_on].
    + rewrite N.eqb_refl. now rewrite E.
    + destruct (N.eqb_spec c 47) as [->|NE]; [elim H1; now left|]. rewrite IHx; auto. intros I. apply H1. now right.
Qed.
Lemma components_iff : forall p l, components p l <-> split_on 47 p = l.
Proof.
  intros p l. split.
  - intros (N & F & ->). now apply slashed_split.
  - intros <-. destruct (split_slashed p) as (E & F & N). repeat split; auto.
Qed.
Lemma idle_iff : forall x, negb (seqb x [] || seqb x (lit ".")) = false <-> idle x.
Proof. intros x. rewrite negb_false_iff, orb_true_iff, !seqb_eq. reflexivity. Qed.
Lemma final_iff : forall p name, name <> [] -> (final_name p name <-> path_name p = name).
Proof.
  intros p name NN. unfold final_name, path_name. set (f := fun x => negb (seqb x [] || seqb x (lit "."))). split.
  - intros (l & r & C & NI & F). apply components_iff in C. rewrite C, filter_app. cbn [filter].
    assert (FN : f name = true) by (destruct (f name) eqn:E; auto; elim NI; now apply idle_iff). rewrite FN.
    assert (FR : filter f r = []) by (clear C; induction F as [|x r X _ IH]; auto; cbn [filter]; apply idle_iff in X; unfold f at 1; rewrite X; exact IH).
    rewrite FR, rev_app_distr. reflexivity.
  - intros E. destruct (rev (filter f (split_on 47 p))) as [|x t] eqn:R; [congruence|]. subst x.
    assert (Q : filter f (split_on 47 p) = rev t ++ [name]) by (rewrite <- (rev_involutive (filter f (split_on 47 p))), R; reflexivity).
    assert (G : forall L a, filter f L = a ++ [name] -> exists l r, L = l ++ name :: r /\ f name = true /\ Forall idle r).
    { clear. intros L. induction L as [|x L IH] using rev_ind; intros a H; [destruct a; discriminate|]. rewrite filter_app in H. cbn [filter] in H. destruct (f x) eqn:FX.
      - apply app_inj_tail in H as [_ <-]. exists L, []. auto.
      - rewrite app_nil_r in H. destruct (IH _ H) as (l & r & -> & FN & F). exists l, (r ++ [x]). split; [now rewrite <- app_assoc|]. split; auto. apply Forall_app. split; auto. constructor; auto. now apply idle_iff. }
    destruct (G _ _ Q) as (l & r & S & FN & F). exists l, r. split; [now apply components_iff|]. split; auto. intros I. apply idle_iff in I. fold (f name) in I. congruence.
Qed.
Lemma suffix_md : forall p, path_suffix p = lit ".md" <-> exists stem, stem <> [] /\ path_name p = stem ++ lit ".md".
Proof.
  intros p. unfold path_suffix. generalize (path_name p) as n. intros n. split.
  - destruct (in_dec N.eq_dec 46 n) as [I|I]; [|rewrite rpartition_none by exact I; discriminate].
    destruct (partition_spec 46 (rev n)) as [[N _]|(a & b & E & N & _)]; [exfalso; apply N; now rewrite <- in_rev|].
    assert (E' : n = rev b ++ 46 :: rev a) by (rewrite <- (rev_involutive n), E, rev_app_distr; cbn [rev]; now rewrite <- app_assoc).
    rewrite in_rev in N. rewrite E', rpartition_at by exact N. destruct (rev b) as [|x t]; [discriminate|]. destruct (rev a) as [|y m]; [discriminate|].
    intros H. exists (x :: t). split; [discriminate|]. now rewrite H.
  - intros (stem & NE & ->). change (lit ".md") with (46%N :: lit "md"). rewrite rpartition_at by (vm_compute; intuition discriminate).
    destruct stem; [congruence|]. reflexivity.
Qed.
Lemma markdown_iff : forall p, is_markdown p <-> path_suffix p = lit ".md".
Proof.
  intros p. rewrite suffix_md. unfold is_markdown. split; intros (stem & N & H); exists stem; split; auto.
  - apply final_iff; auto. destruct stem; discriminate.
  - apply final_iff; auto. destruct stem; discriminate.
Qed.
Close Scope N_scope.
