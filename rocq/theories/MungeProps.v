(** C69: what is done to white space before wrapping. *)
From Verif Require Import BaseFacts WrapFacts Fixture.
From Verif Require Export MungeSpec.
Open Scope Z_scope.

Section P.
Context `{U : Uni}.
Lemma tabs_out_eq : forall t s col out, tabs_out t col s out -> out = expandtabs_from t col s.
Proof.
  intros t s col out H. induction H as [|col k r out K D H IH|col r out T H IH|col c r out C H IH|col c r out C H IH]; auto; cbn [expandtabs_from].
  - change (9 =? 9)%N with true. cbn iota. assert (t >? 0 = true) as -> by (rewrite Z.gtb_ltb; apply Z.ltb_lt; lia).
    assert (E : k = t - col mod t).
    { destruct D as [q D]. assert (M : col mod t = t - k).
      { symmetry. apply (Z.mod_unique_pos col t (q - 1) (t - k)); lia. } lia. }
    rewrite <- E. now rewrite IH.
  - change (9 =? 9)%N with true. cbn iota. assert (t >? 0 = false) as -> by (rewrite Z.gtb_ltb; apply Z.ltb_ge; lia). exact IH.
  - destruct C as [->| ->]; cbn [N.eqb Pos.eqb orb]; now rewrite IH.
  - cbn [In] in C. destruct (N.eqb_spec c 9); [elim C; auto|]. destruct (N.eqb_spec c 10); [elim C; auto|]. destruct (N.eqb_spec c 13); [elim C; auto|].
    cbn [orb]. now rewrite IH.
Qed.
Lemma trunc_as : forall cfg indent width rcur cur_len, trunc (as_it_is cfg) indent width cur_len rcur = trunc cfg indent width cur_len rcur.
Proof. intros cfg indent width rcur. induction rcur as [|c r IH]; intros k; auto. cbn [trunc]. rewrite IH. reflexivity. Qed.
Lemma wrap_step_as : forall cfg rl chunks, wrap_step (as_it_is cfg) rl chunks = wrap_step cfg rl chunks.
Proof.
  intros cfg rl chunks. unfold wrap_step. cbv zeta.
  change (handle_long_word (as_it_is cfg)) with (handle_long_word cfg). change (w_init (as_it_is cfg)) with (w_init cfg). change (w_subs (as_it_is cfg)) with (w_subs cfg).
  change (w_width (as_it_is cfg)) with (w_width cfg). change (w_drop (as_it_is cfg)) with (w_drop cfg). change (w_max_lines (as_it_is cfg)) with (w_max_lines cfg).
  change (w_placeholder (as_it_is cfg)) with (w_placeholder cfg).
  destruct (fill _ 0 [] _) as [[rcur k] ch2]. match goal with |- match ?x with (_, _) => _ end = _ => destruct x as [[ch3 rc3] k3] end.
  match goal with |- match ?x with (_, _) => _ end = _ => destruct x as [rc4 k4] end. destruct rc4; [reflexivity|]. rewrite trunc_as. reflexivity.
Qed.
Lemma wrap_loop_as : forall cfg fuel rl chunks, wrap_loop (as_it_is cfg) fuel rl chunks = wrap_loop cfg fuel rl chunks.
Proof.
  intros cfg fuel. induction fuel as [|f IH]; intros rl chunks; destruct chunks as [|c r]; try reflexivity.
  cbn [wrap_loop]. rewrite wrap_step_as. destruct (wrap_step cfg rl (c :: r)) as [[rl' ch'] stop]. destruct stop; auto.
Qed.
Theorem C69_tabs : forall t s, exists out, tabs_out t 0 s out.
Proof.
  intros t s. generalize 0. induction s as [|c s IH]; intros col; [eexists; constructor|].
  destruct (N.eqb_spec c 9) as [->|N9].
  - destruct (Z_le_dec t 0) as [L|L].
    + destruct (IH col) as [out H]. exists out. now apply to_drop.
    + pose proof (Z.mod_pos_bound col t ltac:(lia)) as B. destruct (IH (col + (t - col mod t))) as [out H]. eexists. apply (to_tab t col (t - col mod t)); [lia| |exact H].
      exists (col / t + 1). pose proof (Z.div_mod col t ltac:(lia)). lia.
  - destruct (N.eq_dec c 10) as [->|N10]; [destruct (IH 0) as [out H]; eexists; apply to_line; [auto|exact H]|].
    destruct (N.eq_dec c 13) as [->|N13]; [destruct (IH 0) as [out H]; eexists; apply to_line; [auto|exact H]|].
    destruct (IH (col + 1)) as [out H]. eexists. apply to_char; [cbn [In]; intuition congruence|exact H].
Qed.
Theorem C69_white_space : forall cfg text text',
  (if w_expand cfg then tabs_out (w_tabsize cfg) 0 text text' else text' = text) ->
  wrap cfg text = wrap (as_it_is cfg) (if w_replace cfg then map blanked text' else text').
Proof.
  intros cfg text text' H.
  assert (E : munge cfg text = munge (as_it_is cfg) (if w_replace cfg then map blanked text' else text')).
  { assert (T : (if w_expand cfg then expandtabs (w_tabsize cfg) text else text) = text').
    { destruct (w_expand cfg); [symmetry; now apply tabs_out_eq|now symmetry]. }
    unfold munge. rewrite T. cbn [as_it_is w_expand w_replace]. destruct (w_replace cfg); [|reflexivity].
    apply map_ext. intros c. unfold blanked, tw_space. cbn [existsb].
    destruct (N.eqb_spec c 9) as [->|]; [reflexivity|]. destruct (N.eqb_spec c 10) as [->|]; [reflexivity|]. destruct (N.eqb_spec c 11) as [->|]; [reflexivity|].
    destruct (N.eqb_spec c 12) as [->|]; [reflexivity|]. destruct (N.eqb_spec c 13) as [->|]; [reflexivity|]. cbn [orb].
    destruct ((9 <=? c)%N && (c <=? 13)%N) eqn:E; [|cbn [orb]; destruct (N.eqb_spec c 32) as [->|]; reflexivity].
    apply andb_prop in E as [E1 E2]. apply N.leb_le in E1, E2. lia. }
  unfold wrap, wrap_chunks, text_chunks. rewrite E. unfold wrap_chunks_fuel. rewrite wrap_loop_as. reflexivity.
Qed.
End P.
Print Assumptions C69_tabs.
Print Assumptions C69_white_space.

Local Existing Instance U0.
Definition tabbed : wcfg := Wcfg 20 [] [] true true false true true true true 4 None (lit " [...]").
Example tabs_case : tabs_out 4 0 ([9%N] ++ lit "ab" ++ [9%N; 10%N] ++ lit "c" ++ [9%N; 11%N] ++ lit "d") (lit "    ab  " ++ [10%N] ++ lit "c   " ++ [11%N] ++ lit "d")
  /\ wrap tabbed ([9%N] ++ lit "ab" ++ [9%N; 10%N] ++ lit "c" ++ [9%N; 11%N] ++ lit "d") = Ok [lit "    ab   c    d"].
Proof.
  split; [|vm_compute; reflexivity].
  apply (to_tab 4 0 4); [lia|exists 1; lia|]. apply to_char; [cbn; intuition discriminate|]. apply to_char; [cbn; intuition discriminate|].
  apply (to_tab 4 _ 2); [lia|exists 2; lia|]. apply to_line; [auto|]. apply to_char; [cbn; intuition discriminate|]. apply (to_tab 4 _ 3); [lia|exists 1; lia|].
  apply to_char; [cbn; intuition discriminate|]. apply to_char; [cbn; intuition discriminate|]. constructor.
Qed.
Close Scope Z_scope.
