(** Wrapping properties: C21-C24, C28. *)
From Verif Require Import WrapGreedy WrapStop Fixture.
Open Scope Z_scope.

Section Wrap.
Context `{U : Uni}.

(** C21: no line is visibly wider than the width. *)
Theorem C21_wrapped_width : forall cfg text lines,
  w_blw cfg = true -> len (w_init cfg) < w_width cfg -> len (w_subs cfg) < w_width cfg ->
  wrap cfg text = Ok lines ->
  forall l, In l lines -> len (strip_esc l) <= w_width cfg.
Proof.
  intros cfg text lines B HI HS H l Hl.
  pose proof (wrap_chunks_width cfg _ _ B HI HS H) as W. rewrite Forall_forall in W. exact (W l Hl).
Qed.
Theorem C21_plain_width : forall cfg text lines,
  w_blw cfg = true -> len (w_init cfg) < w_width cfg -> len (w_subs cfg) < w_width cfg ->
  ~ In 27%N text -> ~ In 27%N (w_init cfg) -> ~ In 27%N (w_subs cfg) -> ~ In 27%N (w_placeholder cfg) ->
  wrap cfg text = Ok lines ->
  forall l, In l lines -> len l <= w_width cfg.
Proof.
  intros cfg text lines B HI HS N1 N2 N3 N4 H l Hl.
  rewrite <- (vlen_no_esc l).
  - exact (C21_wrapped_width cfg text lines B HI HS H l Hl).
  - apply wrap_Ok_accepted in H as [_ H].
    assert (F : Forall (Forall (fun c : N => c <> 27%N)) lines).
    { eapply wrap_loop_chars; [..|exact H]; try (now apply no_esc_Forall); auto.
      - intros _. now apply no_esc_Forall.
      - apply text_chunks_chars; [discriminate|now apply no_esc_Forall]. }
    rewrite Forall_forall in F. apply no_esc_Forall. auto.
Qed.

(** C22: nothing but white space is lost or added. *)
Theorem C22_lossless : forall cfg text lines,
  w_max_lines cfg = None -> all_space (w_init cfg) = true -> all_space (w_subs cfg) = true ->
  wrap cfg text = Ok lines ->
  nonspace (concat lines) = nonspace text.
Proof.
  intros cfg text lines HM HI HS H. apply wrap_Ok_accepted in H as [_ H].
  rewrite (wrap_loop_lossless cfg HM HI HS _ _ _ _ H). simpl. apply text_chunks_nonspace.
Qed.

(** C23: wrapping terminates, with ValueError exactly for a non-positive width
    or a placeholder that does not fit.  Missing: indents wider than the width
    together with long-word breaking, where the loop may not stop (below). *)
Theorem C23_returns_partial : forall cfg text,
  w_blw cfg = false \/ (len (w_init cfg) <= w_width cfg /\ len (w_subs cfg) <= w_width cfg) ->
  let bad := w_width cfg <= 0 \/
    (exists m, w_max_lines cfg = Some m /\
       len (if m >? 1 then w_subs cfg else w_init cfg) + len (lstrip (w_placeholder cfg)) > w_width cfg) in
  (bad -> wrap cfg text = Err EValue) /\ (~ bad -> exists lines, wrap cfg text = Ok lines).
Proof.
  intros cfg text HC bad. unfold wrap, wrap_chunks. split; intros HB.
  - now apply wrap_chunks_rejected.
  - rewrite wrap_chunks_accepted by exact HB. apply wrap_loop_terminates; auto. rewrite wrap_fuel_weight. lia.
Qed.
(** The model's iteration budget is exact: an answer reached with any budget is
    the answer, and running out of budget means that no budget would do. *)
Theorem C23_budget_exact : forall cfg text,
  (forall fuel lines, wrap_chunks_fuel fuel cfg (text_chunks cfg text) = Ok lines -> wrap cfg text = Ok lines)
  /\ (wrap cfg text = Err EFuel -> forall fuel, wrap_chunks_fuel fuel cfg (text_chunks cfg text) = Err EFuel).
Proof.
  intros. split.
  - intros. eapply wrap_budget_ok; eauto.
  - apply wrap_budget.
Qed.

(** C24: words stay whole when every piece of the text (between ASCII white
    space) fits on a line. *)
Theorem C24_words_kept : forall cfg text lines,
  w_max_lines cfg = None -> all_space (w_init cfg) = true -> all_space (w_subs cfg) = true ->
  w_expand cfg = false \/ 0 < w_tabsize cfg ->
  w_boh_true cfg = false \/ ~ In hyphen text ->
  w_blw cfg = false \/
    (len (w_init cfg) < w_width cfg /\ len (w_subs cfg) < w_width cfg /\
     forall p, In p (pieces text) ->
       vlen p <= w_width cfg - len (w_init cfg) /\ vlen p <= w_width cfg - len (w_subs cfg)) ->
  wrap cfg text = Ok lines ->
  flat_map split_ws lines = split_ws text.
Proof.
  intros cfg text lines HM HI HS HT HH HF H. apply wrap_Ok_accepted in H as [_ H].
  destruct (text_chunks_words cfg text HT HH) as (F & A & E & P).
  erewrite (wrap_loop_words cfg HM HI HS); [|split; [exact F|split; [exact A|]]|exact H].
  - simpl. exact E.
  - destruct HF as [HF|(L1 & L2 & HF)]; [left; auto|right]. repeat split; auto.
    eapply Forall_impl; [|exact P]. intros c [C|C]; auto.
Qed.
(** Greedy filling: each line holds as many words as fit. *)
Theorem C24_greedy : forall cfg ws,
  w_max_lines cfg = None -> w_drop cfg = true ->
  len (w_init cfg) < w_width cfg -> len (w_subs cfg) < w_width cfg ->
  w_boh_true cfg = false \/ (forall w, In w ws -> ~ In hyphen w) ->
  (forall w, In w ws -> is_word_str w /\
     vlen w <= w_width cfg - len (w_init cfg) /\ vlen w <= w_width cfg - len (w_subs cfg)) ->
  exists groups,
    wrap cfg (join (lit " ") ws) = Ok (set_lines (word_gap cfg) (w_init cfg) (w_subs cfg) groups)
    /\ concat groups = ws
    /\ filled (word_gap cfg) (w_width cfg - len (w_init cfg)) (w_width cfg - len (w_subs cfg)) groups.
Proof.
  intros cfg ws HM HD HI HS HH HW.
  assert (W1 : Forall is_word_str ws) by (apply Forall_forall; intros; now apply HW).
  assert (HH' : w_boh_true cfg = false \/ Forall (fun w : str => ~ In hyphen w) ws)
    by (destruct HH as [|HH]; [left; auto|right; now apply Forall_forall]).
  pose proof (text_chunks_join cfg ws W1 HH') as TC.
  assert (NR : ~ rejected cfg).
  { intros [C|(m & C & _)]; [pose proof (len_nonneg (w_init cfg)); lia|congruence]. }
  unfold wrap, wrap_chunks. rewrite wrap_chunks_accepted, TC by auto.
  destruct (wrap_loop_terminates cfg ltac:(right; lia) (wrap_fuel (weave (word_gap cfg) ws)) [] (weave (word_gap cfg) ws)) as [r E].
  { rewrite wrap_fuel_weight. lia. }
  pose proof (wrap_loop_greedy cfg (word_gap cfg) (word_gap_plain cfg) HD HM HI HS
    (wrap_fuel (weave (word_gap cfg) ws)) ws [] (weave (word_gap cfg) ws) r) as G.
  destruct G as (groups & E1 & E2 & E3); [..|exact E|].
  - eapply Forall_impl; [|exact W1]. intros. now apply word_nonblank.
  - apply Forall_forall. intros. now apply HW.
  - destruct (weave (word_gap cfg) ws); reflexivity.
  - intros C. destruct ws as [|w ws']; auto. destruct (weave_head (word_gap cfg) w ws') as [t ET].
    pose proof (eq_trans (eq_sym C) ET). discriminate.
  - intros ->. reflexivity.
  - exists groups. rewrite E, E2. auto.
Qed.

(** C28: styled chunks are laid out exactly like their plain texts, provided no
    chunk is broken and a chunk that shows only white space carries no escapes. *)
Theorem C28_chunks_partial : forall cfg styled_chunks plain_chunks,
  w_max_lines cfg = None -> ~ In 27%N (w_init cfg) -> ~ In 27%N (w_subs cfg) ->
  len (w_init cfg) <= w_width cfg -> len (w_subs cfg) <= w_width cfg ->
  Forall2 (fun s p => styled s p /\ (all_space s = all_space p)) styled_chunks plain_chunks ->
  (forall p, In p plain_chunks -> w_blw cfg = false \/
     (len p <= w_width cfg - len (w_init cfg) /\ len p <= w_width cfg - len (w_subs cfg))) ->
  match wrap_chunks cfg styled_chunks with
  | Ok lines => wrap_chunks cfg plain_chunks = Ok (map strip_esc lines)
  | Err e => wrap_chunks cfg plain_chunks = Err e
  end.
Proof.
  intros cfg l m HM HI HS LI LS HF HL.
  assert (R : Forall2 st l m).
  { clear - HF. induction HF as [|a b l m [H1 H2] HF IH]; constructor; auto. split; auto.
    destruct (Textwrap.blank a) eqn:E1, (Textwrap.blank b) eqn:E2; auto.
    - apply blank_all_space in E1. rewrite H2 in E1. apply blank_all_space in E1. congruence.
    - apply blank_all_space in E2. rewrite <- H2 in E2. apply blank_all_space in E2. congruence. }
  assert (SH : short cfg l).
  { destruct (w_blw cfg) eqn:B; [right|left; auto].
    clear - HF HL. induction HF as [|s p l m [H _] HF IH]; constructor.
    - unfold vlen. rewrite (styled_strip _ _ H). destruct (HL p (or_introl eq_refl)) as [C|C]; [discriminate|auto].
    - apply IH. intros q Hq. apply HL. now right. }
  pose proof (wrap_chunks_st cfg l m HM HI HS R SH ltac:(right; auto)) as W.
  destruct (wrap_chunks cfg m) as [r|e].
  - destruct W as (r' & -> & W). now rewrite (styled_strip_all _ _ W).
  - rewrite W. reflexivity.
Qed.
(** The same for texts: words separated by single spaces, styled anywhere inside
    the words, without hyphens (or with hyphen breaking off). *)
Theorem C28_text_partial : forall cfg ws ps,
  w_max_lines cfg = None -> w_fixse cfg = false -> ~ In 27%N (w_init cfg) -> ~ In 27%N (w_subs cfg) ->
  len (w_init cfg) < w_width cfg -> len (w_subs cfg) < w_width cfg ->
  Forall2 styled ws ps -> Forall is_word_str ws -> Forall is_word_str ps ->
  w_boh_true cfg = false \/ Forall (fun w : str => ~ In hyphen w) ws ->
  w_blw cfg = false \/
    Forall (fun p : str => len p <= w_width cfg - len (w_init cfg) /\ len p <= w_width cfg - len (w_subs cfg)) ps ->
  exists lines, wrap cfg (join (lit " ") ws) = Ok lines
    /\ wrap cfg (join (lit " ") ps) = Ok (map strip_esc lines).
Proof. exact styled_text. Qed.
End Wrap.
Print Assumptions C21_wrapped_width.
Print Assumptions C21_plain_width.
Print Assumptions C22_lossless.
Print Assumptions C23_returns_partial.
Print Assumptions C23_budget_exact.
Print Assumptions C24_words_kept.
Print Assumptions C24_greedy.
Print Assumptions C28_chunks_partial.
Print Assumptions C28_text_partial.

Local Existing Instance U0.
Definition wd (n : Z) : wcfg := wcfg_default n.
(** C23 fails: a blank text and an initial indent wider than the width (long-word
    breaking is on by default): the loop never stops, whatever the budget. *)
Theorem C23_wide_indent_refuted : exists cfg text, 0 < w_width cfg /\ w_max_lines cfg = None /\
  forall fuel, wrap_chunks_fuel fuel cfg (text_chunks cfg text) = Err EFuel.
Proof.
  exists (Wcfg 2 (lit "   ") [] true true false true true true true 8 None []), (lit " ").
  split; [reflexivity|]. split; [reflexivity|]. apply wrap_budget. vm_compute. reflexivity.
Qed.
Print Assumptions C23_wide_indent_refuted.
(** It also fails for ordinary text when white space is kept. *)
Theorem C23_wide_indent_text_refuted : exists cfg, 0 < w_width cfg /\ w_max_lines cfg = None /\
  forall fuel, wrap_chunks_fuel fuel cfg (text_chunks cfg (lit "some words")) = Err EFuel.
Proof.
  exists (Wcfg 2 (lit "   ") (lit "   ") true true false true false true true 8 None []).
  split; [reflexivity|]. split; [reflexivity|]. apply wrap_budget. vm_compute. reflexivity.
Qed.
Print Assumptions C23_wide_indent_text_refuted.
(** C24 read with Python's notion of a word (white space includes U+00A0) fails:
    both words fit on a line, one of them is broken. *)
Theorem C24_nbsp_refuted : exists text lines,
  ~ In hyphen text /\ (forall w, In w (split_ws text) -> len w <= 6) /\
  wrap (wd 6) text = Ok lines /\ flat_map split_ws lines <> split_ws text.
Proof.
  exists (lit "aaaa" ++ [160%N] ++ lit "bbbb"), [lit "aaaa" ++ [160%N] ++ lit "b"; lit "bbb"].
  split; [vm_compute; intuition discriminate|].
  split; [vm_compute; intros w [<- |[<- |[]]]; discriminate|].
  split; [vm_compute; reflexivity|vm_compute; discriminate].
Qed.
Print Assumptions C24_nbsp_refuted.
Definition bold (s : string) : str := [27; 91; 49; 109]%N ++ lit s ++ [27; 91; 48; 109]%N.
(** C28 fails for hyphenated words: the escapes hide the letters before the
    hyphen from the splitter. *)
Theorem C28_hyphen_refuted : exists s p lines lines',
  styled s p /\ wrap (wd 7) s = Ok lines /\ wrap (wd 7) p = Ok lines'
  /\ map strip_esc lines <> lines'.
Proof.
  exists (lit "xx a" ++ bold "b" ++ lit "-cdef"), (lit "xx ab-cdef"),
    [lit "xx"; lit "a" ++ bold "b" ++ lit "-cdef"], [lit "xx ab-"; lit "cdef"].
  split; [|vm_compute; repeat split; try reflexivity; discriminate].
  unfold bold. vm_compute lit. cbn [app].
  do 4 (apply styled_char; [discriminate|]).
  apply (styled_esc [49%N]); [reflexivity|]. apply styled_char; [discriminate|].
  apply (styled_esc [48%N]); [reflexivity|].
  do 5 (apply styled_char; [discriminate|]). constructor.
Qed.
Print Assumptions C28_hyphen_refuted.
(** C28 fails when a long word is broken: the break counts the escapes. *)
Theorem C28_long_word_refuted : exists s p lines lines',
  styled s p /\ wrap (wd 5) s = Ok lines /\ wrap (wd 5) p = Ok lines'
  /\ map strip_esc lines <> lines'.
Proof.
  exists (bold "abcdefgh"), (lit "abcdefgh"),
    [[27; 91; 49; 109; 97]%N; lit "bcdef"; lit "gh" ++ [27; 91; 48; 109]%N], [lit "abcde"; lit "fgh"].
  split; [|vm_compute; repeat split; try reflexivity; discriminate].
  unfold bold. vm_compute lit. cbn [app].
  apply (styled_esc [49%N]); [reflexivity|]. do 8 (apply styled_char; [discriminate|]).
  apply (styled_esc [48%N]); [reflexivity|]. constructor.
Qed.
Print Assumptions C28_long_word_refuted.

(** The hypotheses are met by ordinary cases. *)
Example C21_case : wrap (Wcfg 11 (lit "* ") (lit "  ") true true true true true true true 8 (Some 3) (lit " [...]"))
    (lit "the quick brown fox jumps. extraordinarily over the lazy dog")
  = Ok [lit "* the quick"; lit "  brown fox"; lit "  [...]"].
Proof. vm_compute. reflexivity. Qed.
Example C22_case : wrap (wd 9) (lit "a tab	here and  unbelievably long")
  = Ok [lit "a tab"; lit "here and"; lit "unbelieva"; lit "bly long"].
Proof. vm_compute. reflexivity. Qed.
Example C23_case : wrap (wd 0) (lit "a") = Err EValue
  /\ wrap (Wcfg 4 (lit "    ") (lit "    ") true true false true true true true 8 None []) (lit "ab c")
     = Ok [lit "    a"; lit "    b"; lit "    c"].
Proof. vm_compute. split; reflexivity. Qed.
Example C24_case : wrap (wd 10) (join (lit " ") (map lit ["the"; "quick"; "brown"; "fox"; "jumps"]%string))
  = Ok [lit "the quick"; lit "brown fox"; lit "jumps"]
  /\ filled (word_gap (wd 10)) 10 10 (map (map lit) [["the"; "quick"]; ["brown"; "fox"]; ["jumps"]]%string).
Proof. vm_compute. repeat split; try reflexivity; discriminate. Qed.
Example C24_sentence : wrap (Wcfg 10 [] [] true true true true true true true 8 None []) (lit "end. Next one")
  = Ok [lit "end.  Next"; lit "one"].
Proof. vm_compute. reflexivity. Qed.
Example C28_case : wrap (wd 9) (join (lit " ") [bold "one"; lit "t" ++ bold "w" ++ lit "o"; lit "three"])
  = Ok [bold "one" ++ lit " t" ++ bold "w" ++ lit "o"; lit "three"].
Proof. vm_compute. reflexivity. Qed.
