(** The line limit of the wrapper (C58). *)
From Verif Require Import WrapStop Fixture.
Open Scope Z_scope.

Section Limit.
Context `{U : Uni}.
Notation bl := Textwrap.blank.

Definition with_max (cfg : wcfg) (m : option Z) : wcfg :=
  Wcfg (w_width cfg) (w_init cfg) (w_subs cfg) (w_expand cfg) (w_replace cfg) (w_fixse cfg)
       (w_blw cfg) (w_drop cfg) (w_boh_true cfg) (w_boh cfg) (w_tabsize cfg) m (w_placeholder cfg).

Lemma line_of_max : forall cfg m rl chunks, line_of (with_max cfg m) rl chunks = line_of cfg rl chunks.
Proof. reflexivity. Qed.
Lemma text_chunks_max : forall cfg m s, text_chunks (with_max cfg m) s = text_chunks cfg s.
Proof. reflexivity. Qed.

Lemma trunc_ends : forall cfg indent width rcur cur l, trunc cfg indent width cur rcur = Some l ->
  exists pre, l = pre ++ w_placeholder cfg.
Proof.
  induction rcur as [|c rc IH]; intros cur l H; [discriminate|]. cbn [trunc] in H.
  destruct (negb (bl c) && _); [|eauto]. injection H as <-.
  cbn [rev]. exists (indent ++ concat (rev rc ++ [c])). rewrite !concat_app. simpl. rewrite !app_nil_r, <- !app_assoc. reflexivity.
Qed.
Lemma placeholder_lstrip : forall s : str, exists sp, s = sp ++ lstrip s.
Proof. intros. destruct (lstrip_spec s) as (a & E & _). eauto. Qed.

Lemma wrap_loop_prefix : forall cfg, w_max_lines cfg = None -> forall fuel rl chunks full,
  wrap_loop cfg fuel rl chunks = Ok full -> exists suf, full = rev rl ++ suf.
Proof.
  intros cfg M. induction fuel as [|fuel IH]; intros rl chunks full H.
  - destruct chunks; [|discriminate]. injection H as <-. exists []. now rewrite app_nil_r.
  - destruct chunks as [|c ch]; [injection H as <-; exists []; now rewrite app_nil_r|].
    cbn [wrap_loop] in H. rewrite wrap_step_eq in H.
    destruct (line_of cfg rl (c :: ch)) as [[[|c4 r4] cur4] chunks3] eqn:LO; [apply IH in H; exact H|].
    cbv zeta in H. rewrite M in H. cbn iota in H. apply IH in H as [suf ->]. cbn [rev].
    rewrite <- app_assoc. eauto.
Qed.

Definition last_blank (cfg : wcfg) (rl chunks : list str) : Prop :=
  match chunks with
  | [] => True
  | [c] => rl <> [] /\ w_drop cfg && bl c = true
  | _ => False
  end.
Lemma line_of_last_blank : forall cfg rl c, rl <> [] -> w_drop cfg && bl c = true ->
  exists cur, line_of cfg rl [c] = ([], cur, []).
Proof.
  intros cfg rl c HR HD. unfold line_of, drop_first. destruct rl as [|l rl]; [congruence|]. rewrite HD.
  cbn [fill long_part drop_last]. eauto.
Qed.

Lemma wrap_loop_limit : forall cfg m, w_max_lines cfg = Some m ->
  forall fuel rl chunks lines,
  (Z.of_nat (length rl) < Z.max 1 m \/ Z.of_nat (length rl) <= Z.max 1 m /\ last_blank cfg rl chunks) ->
  wrap_loop cfg fuel rl chunks = Ok lines ->
  Z.of_nat (length lines) <= Z.max 1 m
  /\ forall full, wrap_loop (with_max cfg None) fuel rl chunks = Ok full ->
     lines = full \/ exists keep pre suf, lines = keep ++ [pre ++ lstrip (w_placeholder cfg)] /\ full = keep ++ suf.
Proof.
  intros cfg m M. induction fuel as [|fuel IH]; intros rl chunks lines HI H.
  - destruct chunks; [|discriminate]. injection H as <-. rewrite rev_length. split; [lia|].
    intros full F. injection F as <-. now left.
  - destruct chunks as [|c ch].
    { injection H as <-. rewrite rev_length. split; [lia|]. intros full F. injection F as <-. now left. }
    cbn [wrap_loop] in H |- *. rewrite wrap_step_eq in H |- *. rewrite line_of_max.
    destruct (line_of cfg rl (c :: ch)) as [[rcur4 cur4] chunks3] eqn:LO.
    assert (LB : last_blank cfg rl (c :: ch) -> rcur4 = [] /\ chunks3 = []).
    { intros L. destruct ch; [|contradiction]. destruct L as [L1 L2].
      destruct (line_of_last_blank cfg rl c L1 L2) as [cur E]. rewrite E in LO. injection LO as <- _ <-. auto. }
    destruct rcur4 as [|c4 r4].
    + apply IH in H; [exact H|]. destruct HI as [HI|[HI L]]; [now left|].
      destruct (LB L) as [_ ->]. right. split; [exact HI|exact I].
    + destruct HI as [HI|[HI L]]; [|destruct (LB L); discriminate].
      cbv zeta in H |- *. rewrite M in H. cbn [w_max_lines with_max]. cbn iota.
      match type of H with context [if ?ok then _ else _] => destruct ok eqn:OK end.
      * cbn [w_max_lines with_max] in *. apply IH in H.
        -- destruct H as [H1 H2]. split; [exact H1|]. intros full F. apply H2. exact F.
        -- cbn [length]. apply orb_true_iff in OK as [OK|OK]; [left; lia|].
           right. split; [lia|]. apply andb_true_iff in OK as [OK _].
           destruct chunks3 as [|c3 [|]]; [exact I| |discriminate]. split; [discriminate|exact OK].
      * assert (FP : forall full, wrap_loop (with_max cfg None) fuel
                    ((indent_of (with_max cfg None) rl ++ concat (rev (c4 :: r4))) :: rl) chunks3 = Ok full ->
                    exists suf, full = rev rl ++ suf).
        { intros full F. apply wrap_loop_prefix in F as [suf ->]; [|reflexivity]. cbn [rev]. rewrite <- app_assoc. eauto. }
        destruct (trunc cfg (indent_of cfg rl) (avail cfg rl) cur4 (c4 :: r4)) as [l|] eqn:T.
        -- injection H as <-. cbn [rev]. rewrite app_length, rev_length. cbn [length]. split; [lia|].
           intros full F. apply FP in F as [suf ->]. right. apply trunc_ends in T as [pre ->].
           destruct (placeholder_lstrip (w_placeholder cfg)) as [sp E].
           exists (rev rl), (pre ++ sp), suf. split; [|reflexivity]. now rewrite <- app_assoc, <- E.
        -- destruct rl as [|lst rl'].
           ++ injection H as <-. cbn [length rev app]. split; [lia|]. intros full F. right.
              exists [], (indent_of cfg []), full. split; reflexivity.
           ++ destruct (vlen (rstrip lst) + len (w_placeholder cfg) <=? w_width cfg) eqn:PV.
              ** injection H as <-. cbn [rev]. rewrite app_length, rev_length. cbn [length] in *. split; [lia|].
                 intros full F. apply FP in F as [suf ->]. right. cbn [rev].
                 destruct (placeholder_lstrip (w_placeholder cfg)) as [sp E].
                 exists (rev rl'), (rstrip lst ++ sp), ([lst] ++ suf). split; [now rewrite <- app_assoc, <- E|].
                 now rewrite <- app_assoc.
              ** injection H as <-. cbn [rev]. rewrite !app_length, rev_length. cbn [length] in *. split; [lia|].
                 intros full F. apply FP in F as [suf ->]. right. cbn [rev].
                 exists (rev rl' ++ [lst]), (indent_of cfg (lst :: rl')), suf. split; reflexivity.
Qed.
End Limit.

(** C58: with [max_lines = m] there are at most max(1, m) lines; they are either
    all the lines of the text, or some of the first of them and one line that
    ends with the placeholder. *)
Theorem C58_max_lines : forall `{U : Uni} cfg m text lines,
  wrap (with_max cfg (Some m)) text = Ok lines ->
  Z.of_nat (length lines) <= Z.max 1 m
  /\ forall full, wrap (with_max cfg None) text = Ok full ->
     lines = full \/ exists keep pre suf,
       lines = keep ++ [pre ++ lstrip (w_placeholder cfg)] /\ full = keep ++ suf.
Proof.
  intros U cfg m text lines H. apply wrap_Ok_accepted in H as [_ H].
  destruct (wrap_loop_limit (with_max cfg (Some m)) m eq_refl _ [] _ _ ltac:(left; simpl; lia) H) as [H1 H2].
  split; [exact H1|]. intros full F. apply wrap_Ok_accepted in F as [_ F]. apply H2. exact F.
Qed.
Print Assumptions C58_max_lines.
Local Existing Instance U0.
Example C58_case :
  wrap (with_max (wcfg_default 11) (Some 2)) (lit "one two three four five") = Ok [lit "one two"; lit "three [...]"]
  /\ wrap (with_max (wcfg_default 11) None) (lit "one two three four five") = Ok [lit "one two"; lit "three four"; lit "five"].
Proof. vm_compute. split; reflexivity. Qed.
