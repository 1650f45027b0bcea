(** Justification properties: C25-C27. *)
From Verif Require Import JustFacts Fixture.
Open Scope Z_scope.

Section Just.
Context `{U : Uni}.

(** The settings under which a plain text is wrapped within [width]: long words
    are broken, white space at line edges is dropped, no line limit, plain
    indents that leave room. *)
Definition ordinary (cfg : wcfg) (width : Z) : Prop :=
  w_max_lines cfg = None /\ w_drop cfg = true /\ w_blw cfg = true
  /\ len (w_init cfg) < width /\ len (w_subs cfg) < width
  /\ ~ In 27%N (w_init cfg) /\ ~ In 27%N (w_subs cfg).

(** C25: full justification makes every line that has a gap exactly [width]
    characters, except the last; gapless lines and the last line stay.  Missing:
    texts with non-ASCII white space (refuted below). *)
Theorem C25_width_partial : forall cfg width text lines,
  ordinary cfg width -> ~ In 27%N text -> ascii_space text ->
  wrap (set_width cfg width) text = Ok lines ->
  exists lines', justify (lit "full") cfg width text = Ok (join [10%N] lines')
    /\ length lines' = length lines
    /\ all_but_last (fun l l' => (has_gap l -> len l' = width) /\ (~ has_gap l -> l' = l)) lines lines'.
Proof.
  intros cfg width text lines (M & D & B & HI & HS & N2 & N3) N1 A H.
  assert (F : all_but_last (fun l l' => (has_gap l -> len l' = width) /\ (~ has_gap l -> l' = l))
                lines (full_lines width lines)).
  { apply full_lines_abl. intros l Hl.
    pose proof (plain_len (set_width cfg width) text lines M B HI HS N1 N2 N3 H l Hl) as L. cbn [w_width set_width] in L.
    pose proof (wrap_ends (set_width cfg width) text lines M D B HI HS N1 N2 N3 A H l Hl) as E. cbn [w_width set_width] in E.
    split; intros G.
    - now apply full_line_width.
    - destruct (full_line_spec width l L) as [[-> _]|(_ & G' & _)]; tauto. }
  exists (full_lines width lines). split; [|split; [exact (all_but_last_length _ _ _ F)|exact F]].
  change (justify (lit "full") cfg width text) with (full_justify cfg width text).
  unfold full_justify. rewrite H. reflexivity.
Qed.

(** C26: words kept in order, no gap removed, the added space spread evenly with
    the wider gaps first.  [strip l = join " " ws] reads the line as pieces
    separated by single spaces.  Missing: lines longer than [width] in raw
    characters, that is styled text (refuted below), and gaps that are already
    wider than one space (refuted below: they get a share per space). *)
Definition widened (l l' : str) : Prop :=
  exists ws gs, strip l = join (lit " ") ws /\ Forall (fun w : str => ~ In 32%N w) ws
    /\ length ws = S (length gs) /\ even_gaps gs
    /\ l' = spaces (len l - len (lstrip l)) ++ interleave ws gs.
Theorem C26_gaps_partial : forall cfg width text lines,
  wrap (set_width cfg width) text = Ok lines -> (forall l, In l lines -> len l <= width) ->
  exists lines', justify (lit "full") cfg width text = Ok (join [10%N] lines')
    /\ all_but_last (fun l l' => (l' = l \/ widened l l') /\ split_ws l' = split_ws l) lines lines'.
Proof.
  intros cfg width text lines H L. exists (full_lines width lines). split.
  - change (justify (lit "full") cfg width text) with (full_justify cfg width text).
    unfold full_justify. rewrite H. reflexivity.
  - apply full_lines_abl. intros l Hl. split; [|apply full_line_words; auto].
    destruct (full_line_spec width l (L l Hl)) as [[-> _]|(_ & _ & ws & gs & J & NS & LW & EG & E & _)]; auto.
    right. exists ws, gs. auto.
Qed.
(** Plain text never has lines longer than [width]. *)
Theorem C26_plain_partial : forall cfg width text lines,
  ordinary cfg width -> ~ In 27%N text -> wrap (set_width cfg width) text = Ok lines ->
  exists lines', justify (lit "full") cfg width text = Ok (join [10%N] lines')
    /\ all_but_last (fun l l' => (l' = l \/ widened l l') /\ split_ws l' = split_ws l) lines lines'.
Proof.
  intros cfg width text lines (M & D & B & HI & HS & N2 & N3) N1 H. apply C26_gaps_partial; auto.
  intros l Hl. exact (plain_len (set_width cfg width) text lines M B HI HS N1 N2 N3 H l Hl).
Qed.

(** C27: left keeps the wrapped lines; right and center pad them to the width. *)
Theorem C27_left : forall cfg width text lines, wrap (set_width cfg width) text = Ok lines ->
  justify (lit "left") cfg width text = Ok (join [10%N] lines).
Proof.
  intros. change (justify (lit "left") cfg width text) with (left_justify cfg width text).
  unfold left_justify. rewrite H. reflexivity.
Qed.
Theorem C27_none : forall cfg width text, justify (lit "none") cfg width text = Ok text.
Proof. reflexivity. Qed.
Theorem C27_unknown : forall cfg width text name,
  ~ In name (map lit ["none"; "full"; "center"; "left"; "right"]%string) -> justify name cfg width text = Err EKey.
Proof.
  intros cfg width text name H. cbn [map In] in H. unfold justify.
  repeat match goal with |- context [seqb name ?x] => destruct (seqb_spec name x); [subst; elim H; auto 6|] end. reflexivity.
Qed.
Lemma Forall2_map : forall (f : str -> str) (R : str -> str -> Prop) l, (forall x, In x l -> R x (f x)) -> Forall2 R l (map f l).
Proof. induction l; simpl; constructor; auto. Qed.
Theorem C27_right : forall cfg width text lines,
  ordinary cfg width -> ~ In 27%N text -> wrap (set_width cfg width) text = Ok lines ->
  exists lines', justify (lit "right") cfg width text = Ok (join [10%N] lines')
    /\ Forall2 (fun l l' => len l' = width /\ exists k, l' = spaces k ++ l) lines lines'.
Proof.
  intros cfg width text lines (M & D & B & HI & HS & N2 & N3) N1 H.
  exists (map (fun l => right l width) lines). split.
  - change (justify (lit "right") cfg width text) with (right_justify cfg width text).
    unfold right_justify. rewrite H. reflexivity.
  - apply Forall2_map. intros l Hl.
    pose proof (plain_len (set_width cfg width) text lines M B HI HS N1 N2 N3 H l Hl) as L. cbn [w_width set_width] in L.
    unfold right. destruct (Z.eqb_spec width 0).
    + exfalso. pose proof (len_nonneg (w_init cfg)). lia.
    + unfold rjust. rewrite len_app, len_spaces by lia. split; [lia|]. eauto.
Qed.
Theorem C27_center : forall cfg width text lines,
  ordinary cfg width -> ~ In 27%N text -> wrap (set_width cfg width) text = Ok lines ->
  exists lines', justify (lit "center") cfg width text = Ok (join [10%N] lines')
    /\ Forall2 (fun l l' => len l' = width
         /\ exists a b, l' = spaces a ++ l ++ spaces b /\ 0 <= a /\ 0 <= b /\ Z.abs (a - b) <= 1) lines lines'.
Proof.
  intros cfg width text lines (M & D & B & HI & HS & N2 & N3) N1 H.
  exists (map (fun l => center l width) lines). split.
  - change (justify (lit "center") cfg width text) with (center_justify cfg width text).
    unfold center_justify. rewrite H. reflexivity.
  - apply Forall2_map. intros l Hl.
    pose proof (plain_len (set_width cfg width) text lines M B HI HS N1 N2 N3 H l Hl) as L. cbn [w_width set_width] in L.
    unfold center. destruct (Z.eqb_spec width 0).
    + exfalso. pose proof (len_nonneg (w_init cfg)). lia.
    + unfold center_pad. destruct (len l >=? width) eqn:G.
      * split; [lia|]. exists 0, 0. change (spaces 0) with (@nil N). rewrite app_nil_r. repeat split; lia.
      * set (marg := width - len l). pose proof (Z_div_mod_eq_full marg 2) as DM.
        pose proof (Z.mod_pos_bound marg 2 ltac:(lia)) as MB.
        set (lft := marg / 2 + (if Z.odd marg && Z.odd width then 1 else 0)).
        assert (R : 0 <= lft /\ 0 <= marg - lft /\ Z.abs (lft - (marg - lft)) <= 1).
        { unfold lft. destruct (Z.odd marg) eqn:O; cbn [andb].
          - assert (marg mod 2 = 1) by (rewrite Zmod_odd, O; reflexivity). destruct (Z.odd width); lia.
          - assert (marg mod 2 = 0) by (rewrite Zmod_odd, O; reflexivity). lia. }
        split; [rewrite !len_app, !len_spaces by lia; lia|]. exists lft, (marg - lft). tauto.
Qed.
End Just.
Print Assumptions C25_width_partial.
Print Assumptions C26_gaps_partial.
Print Assumptions C26_plain_partial.
Print Assumptions C27_none.
Print Assumptions C27_unknown.
Print Assumptions C27_left.
Print Assumptions C27_right.
Print Assumptions C27_center.

Local Existing Instance U0.
Definition wj : wcfg := wcfg_default 0.

(** C25 fails when a line ends in a no-break space: it is stripped after the
    padding has been computed. *)
Theorem C25_nbsp_refuted : exists text lines l rest,
  ordinary wj 10 /\ ~ In 27%N text /\ wrap (set_width wj 10) text = Ok lines
  /\ justify (lit "full") wj 10 text = Ok (l ++ 10%N :: rest)
  /\ has_gap (hd [] lines) /\ ~ In 10%N l /\ len l < 10.
Proof.
  exists (lit "aa bbb" ++ [160%N] ++ lit " cccccc"), [lit "aa bbb" ++ [160%N]; lit "cccccc"], (lit "aa    bbb"), (lit "cccccc").
  split; [repeat split; try (intros []); reflexivity|].
  split; [vm_compute; intuition discriminate|].
  split; [vm_compute; reflexivity|]. split; [vm_compute; reflexivity|].
  split; [unfold has_gap; vm_compute; intuition|]. vm_compute. intuition discriminate.
Qed.
Print Assumptions C25_nbsp_refuted.
(** C26 fails for styled text: the raw length includes the escapes, the padding
    is negative and the gap between the words is removed. *)
Definition sgr (n : N) : str := [27; 91; n; 109]%N.
Theorem C26_styled_refuted : exists text lines l rest,
  wrap (set_width wj 8) text = Ok lines
  /\ justify (lit "full") wj 8 text = Ok (l ++ 10%N :: rest) /\ ~ In 10%N l
  /\ length (split_ws (hd [] lines)) = 2%nat /\ length (split_ws l) = 1%nat.
Proof.
  exists (sgr 49 ++ lit "aaa" ++ sgr 48 ++ lit " bb cccccc"),
    [sgr 49 ++ lit "aaa" ++ sgr 48 ++ lit " bb"; lit "cccccc"],
    (sgr 49 ++ lit "aaa" ++ sgr 48 ++ lit "bb"), (lit "cccccc").
  vm_compute. repeat split; try reflexivity. intuition discriminate.
Qed.
Print Assumptions C26_styled_refuted.
(** C26 fails for a double space between words (such as the ones the wrapper
    itself puts after a sentence): its share of the padding is doubled, so the
    added widths differ by more than one. *)
Theorem C26_double_space_refuted : exists text a b c g h,
  wrap (set_width (Wcfg 0 [] [] true true true true true true true 8 None []) 15) text
    = Ok [a ++ lit "  " ++ b ++ lit " " ++ c; lit "dddddddddd"]
  /\ justify (lit "full") (Wcfg 0 [] [] true true true true true true true 8 None []) 15 text
    = Ok (a ++ spaces (2 + g) ++ b ++ spaces (1 + h) ++ c ++ [10%N] ++ lit "dddddddddd")
  /\ g - h > 1.
Proof.
  exists (lit "aa. b c dddddddddd"), (lit "aa."), (lit "b"), (lit "c"), 5, 2.
  vm_compute. repeat split; reflexivity.
Qed.
Print Assumptions C26_double_space_refuted.

(** The hypotheses are met by ordinary cases. *)
Definition wcase : wcfg := Wcfg 0 (lit "* ") (lit "  ") true true false true true true true 8 None [].
Definition tcase : str := lit "the quick brown fox jumps over unbelievable dogs at dawn".
Example C25_case : ordinary wcase 17 /\ ~ In 27%N tcase /\ ascii_space tcase
  /\ wrap (set_width wcase 17) tcase = Ok (map lit ["* the quick brown"; "  fox jumps over"; "  unbelievable"; "  dogs at dawn"]%string)
  /\ justify (lit "full") wcase 17 tcase
     = Ok (join [10%N] (map lit ["* the quick brown"; "  fox  jumps over"; "  unbelievable"; "  dogs at dawn"]%string)).
Proof.
  split; [repeat split; try reflexivity; vm_compute; intuition discriminate|].
  split; [vm_compute; intuition discriminate|].
  split; [|split; vm_compute; reflexivity].
  intros x Hx. apply (proj1 (Forall_forall (fun x => is_space x = true -> tw_space x = true) tcase)); auto.
  unfold tcase. vm_compute lit. repeat (constructor; [vm_compute; auto|]). constructor.
Qed.
Example C26_case : widened (lit "  a bb cc d") (lit "  a   bb  cc  d")
  /\ full_line 15 (lit "  a bb cc d") = lit "  a   bb  cc  d".
Proof.
  split; [|vm_compute; reflexivity].
  exists (map lit ["a"; "bb"; "cc"; "d"]%string), [3; 2; 2].
  split; [vm_compute; reflexivity|]. split; [repeat (constructor; [vm_compute; intuition discriminate|]); constructor|].
  split; [reflexivity|]. split; [|vm_compute; reflexivity].
  exists 2, 1%nat, 2%nat. split; [lia|reflexivity].
Qed.
Example C27_right_case : justify (lit "right") wcase 14 tcase
  = Ok (join [10%N] (map lit ["   * the quick"; "     brown fox"; "    jumps over"; "  unbelievable"; "  dogs at dawn"]%string)).
Proof. vm_compute. reflexivity. Qed.
Example C27_center_case : justify (lit "center") wcase 14 tcase
  = Ok (join [10%N] (map lit [" * the quick  "; "   brown fox  "; "   jumps over "; "  unbelievable"; "  dogs at dawn"]%string)).
Proof. vm_compute. reflexivity. Qed.
