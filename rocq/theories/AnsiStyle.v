(** The effect loop on a terminal. *)
From Verif Require Import BaseFacts StrFacts WrapFacts.
From Verif Require Export AnsiFacts Renderers.
Open Scope N_scope.

Lemma code_shown : forall z s r, (0 <= z <= 255)%Z ->
  terminal Text s (ansi_seq (str_of_Z z) ++ r) = terminal Text (sgr [Z.to_N z] s) r.
Proof.
  intros z s r H. rewrite ansi_seq_app. cbn [terminal N.eqb Pos.eqb]. rewrite terminal_byte by exact H. reflexivity.
Qed.

Lemma text_shown : forall t s r, ~ In 27 t ->
  terminal Text s (t ++ r) = let (o, s') := terminal Text s r in (map (fun c => (c, s)) t ++ o, s').
Proof.
  induction t as [|c t IH]; intros s r H; cbn [app map].
  - destruct (terminal Text s r); reflexivity.
  - cbn [terminal]. destruct (c =? 27) eqn:E; [apply N.eqb_eq in E; subst; exfalso; apply H; now left|].
    rewrite IH by (intros I; apply H; now right). destruct (terminal Text s r). reflexivity.
Qed.

(** Effects as a list of (asked, on, off). *)
Definition enables (l : list (bool * (Z * Z))) : list str :=
  flat_map (fun e : bool * (Z * Z) => if fst e then [ansi_seq (str_of_Z (fst (snd e)))] else ([] : list str)) l.
Definition disables (l : list (bool * (Z * Z))) : list str :=
  flat_map (fun e : bool * (Z * Z) => if fst e then [ansi_seq (str_of_Z (snd (snd e)))] else []) l.
Lemma effect_seqs_spec : forall s norm effects vs,
  Forall2 (fun (e : str * (Z * Z)) v => sitem s (fst e) = Ok v) effects vs ->
  let l := combine (map truth vs) (map snd effects) in
  effect_seqs s norm effects = Ok (enables l, if norm then [] else disables l).
Proof.
  intros s norm effects vs H. induction H as [|[name [on off]] v effects vs HV HF IH].
  - destruct norm; reflexivity.
  - cbn [effect_seqs fst] in *. rewrite HV. cbn [bind]. rewrite IH. cbn [bind map combine].
    unfold enables, disables. cbn [flat_map fst snd]. destruct (truth v), norm; reflexivity.
Qed.

Definition byte_codes (l : list (bool * (Z * Z))) : Prop :=
  Forall (fun e : bool * (Z * Z) => (0 <= fst (snd e) <= 255)%Z /\ (0 <= snd (snd e) <= 255)%Z) l.
Lemma enables_shown : forall l s r, byte_codes l ->
  terminal Text s (concat (enables l) ++ r)
  = terminal Text (fold_left (fun (s : style) (e : bool * (Z * Z)) => if fst e then sgr [Z.to_N (fst (snd e))] s else s) l s) r.
Proof.
  induction l as [|[b [on off]] l IH]; intros s r H; auto. inversion H as [|? ? [H1 H2] H3]; subst.
  unfold enables. cbn [flat_map fst snd fold_left] in *. destruct b.
  - cbn [app concat]. rewrite <- app_assoc, code_shown by exact H1. apply IH, H3.
  - apply IH, H3.
Qed.
Lemma disables_shown : forall l s r, byte_codes l ->
  terminal Text s (concat (disables l) ++ r)
  = terminal Text (fold_left (fun (s : style) (e : bool * (Z * Z)) => if fst e then sgr [Z.to_N (snd (snd e))] s else s) l s) r.
Proof.
  induction l as [|[b [on off]] l IH]; intros s r H; auto. inversion H as [|? ? [H1 H2] H3]; subst.
  unfold disables. cbn [flat_map fst snd fold_left] in *. destruct b.
  - cbn [app concat]. rewrite <- app_assoc, code_shown by exact H2. apply IH, H3.
  - apply IH, H3.
Qed.

Lemma on_1 : forall (a : bool) s1 s2 s3 s4 s5 s6 s7 s8 s9 s10 s11 s12 s13 f g, (if a then sgr [Z.to_N 1] (Style s1 s2 s3 s4 s5 s6 s7 s8 s9 s10 s11 s12 s13 f g) else Style s1 s2 s3 s4 s5 s6 s7 s8 s9 s10 s11 s12 s13 f g) = Style (s1 || a) s2 s3 s4 s5 s6 s7 s8 s9 s10 s11 s12 s13 f g.
Proof. intros []; intros; [rewrite orb_true_r|rewrite orb_false_r]; reflexivity. Qed.
Lemma on_2 : forall (a : bool) s1 s2 s3 s4 s5 s6 s7 s8 s9 s10 s11 s12 s13 f g, (if a then sgr [Z.to_N 2] (Style s1 s2 s3 s4 s5 s6 s7 s8 s9 s10 s11 s12 s13 f g) else Style s1 s2 s3 s4 s5 s6 s7 s8 s9 s10 s11 s12 s13 f g) = Style s1 (s2 || a) s3 s4 s5 s6 s7 s8 s9 s10 s11 s12 s13 f g.
Proof. intros []; intros; [rewrite orb_true_r|rewrite orb_false_r]; reflexivity. Qed.
Lemma on_3 : forall (a : bool) s1 s2 s3 s4 s5 s6 s7 s8 s9 s10 s11 s12 s13 f g, (if a then sgr [Z.to_N 3] (Style s1 s2 s3 s4 s5 s6 s7 s8 s9 s10 s11 s12 s13 f g) else Style s1 s2 s3 s4 s5 s6 s7 s8 s9 s10 s11 s12 s13 f g) = Style s1 s2 (s3 || a) s4 s5 s6 s7 s8 s9 s10 s11 s12 s13 f g.
Proof. intros []; intros; [rewrite orb_true_r|rewrite orb_false_r]; reflexivity. Qed.
Lemma on_20 : forall (a : bool) s1 s2 s3 s4 s5 s6 s7 s8 s9 s10 s11 s12 s13 f g, (if a then sgr [Z.to_N 20] (Style s1 s2 s3 s4 s5 s6 s7 s8 s9 s10 s11 s12 s13 f g) else Style s1 s2 s3 s4 s5 s6 s7 s8 s9 s10 s11 s12 s13 f g) = Style s1 s2 s3 (s4 || a) s5 s6 s7 s8 s9 s10 s11 s12 s13 f g.
Proof. intros []; intros; [rewrite orb_true_r|rewrite orb_false_r]; reflexivity. Qed.
Lemma on_4 : forall (a : bool) s1 s2 s3 s4 s5 s6 s7 s8 s9 s10 s11 s12 s13 f g, (if a then sgr [Z.to_N 4] (Style s1 s2 s3 s4 s5 s6 s7 s8 s9 s10 s11 s12 s13 f g) else Style s1 s2 s3 s4 s5 s6 s7 s8 s9 s10 s11 s12 s13 f g) = Style s1 s2 s3 s4 (s5 || a) s6 s7 s8 s9 s10 s11 s12 s13 f g.
Proof. intros []; intros; [rewrite orb_true_r|rewrite orb_false_r]; reflexivity. Qed.
Lemma on_5 : forall (a : bool) s1 s2 s3 s4 s5 s6 s7 s8 s9 s10 s11 s12 s13 f g, (if a then sgr [Z.to_N 5] (Style s1 s2 s3 s4 s5 s6 s7 s8 s9 s10 s11 s12 s13 f g) else Style s1 s2 s3 s4 s5 s6 s7 s8 s9 s10 s11 s12 s13 f g) = Style s1 s2 s3 s4 s5 (s6 || a) s7 s8 s9 s10 s11 s12 s13 f g.
Proof. intros []; intros; [rewrite orb_true_r|rewrite orb_false_r]; reflexivity. Qed.
Lemma on_6 : forall (a : bool) s1 s2 s3 s4 s5 s6 s7 s8 s9 s10 s11 s12 s13 f g, (if a then sgr [Z.to_N 6] (Style s1 s2 s3 s4 s5 s6 s7 s8 s9 s10 s11 s12 s13 f g) else Style s1 s2 s3 s4 s5 s6 s7 s8 s9 s10 s11 s12 s13 f g) = Style s1 s2 s3 s4 s5 s6 (s7 || a) s8 s9 s10 s11 s12 s13 f g.
Proof. intros []; intros; [rewrite orb_true_r|rewrite orb_false_r]; reflexivity. Qed.
Lemma on_7 : forall (a : bool) s1 s2 s3 s4 s5 s6 s7 s8 s9 s10 s11 s12 s13 f g, (if a then sgr [Z.to_N 7] (Style s1 s2 s3 s4 s5 s6 s7 s8 s9 s10 s11 s12 s13 f g) else Style s1 s2 s3 s4 s5 s6 s7 s8 s9 s10 s11 s12 s13 f g) = Style s1 s2 s3 s4 s5 s6 s7 (s8 || a) s9 s10 s11 s12 s13 f g.
Proof. intros []; intros; [rewrite orb_true_r|rewrite orb_false_r]; reflexivity. Qed.
Lemma on_8 : forall (a : bool) s1 s2 s3 s4 s5 s6 s7 s8 s9 s10 s11 s12 s13 f g, (if a then sgr [Z.to_N 8] (Style s1 s2 s3 s4 s5 s6 s7 s8 s9 s10 s11 s12 s13 f g) else Style s1 s2 s3 s4 s5 s6 s7 s8 s9 s10 s11 s12 s13 f g) = Style s1 s2 s3 s4 s5 s6 s7 s8 (s9 || a) s10 s11 s12 s13 f g.
Proof. intros []; intros; [rewrite orb_true_r|rewrite orb_false_r]; reflexivity. Qed.
Lemma on_9 : forall (a : bool) s1 s2 s3 s4 s5 s6 s7 s8 s9 s10 s11 s12 s13 f g, (if a then sgr [Z.to_N 9] (Style s1 s2 s3 s4 s5 s6 s7 s8 s9 s10 s11 s12 s13 f g) else Style s1 s2 s3 s4 s5 s6 s7 s8 s9 s10 s11 s12 s13 f g) = Style s1 s2 s3 s4 s5 s6 s7 s8 s9 (s10 || a) s11 s12 s13 f g.
Proof. intros []; intros; [rewrite orb_true_r|rewrite orb_false_r]; reflexivity. Qed.
Lemma on_51 : forall (a : bool) s1 s2 s3 s4 s5 s6 s7 s8 s9 s10 s11 s12 s13 f g, (if a then sgr [Z.to_N 51] (Style s1 s2 s3 s4 s5 s6 s7 s8 s9 s10 s11 s12 s13 f g) else Style s1 s2 s3 s4 s5 s6 s7 s8 s9 s10 s11 s12 s13 f g) = Style s1 s2 s3 s4 s5 s6 s7 s8 s9 s10 (s11 || a) s12 s13 f g.
Proof. intros []; intros; [rewrite orb_true_r|rewrite orb_false_r]; reflexivity. Qed.
Lemma on_52 : forall (a : bool) s1 s2 s3 s4 s5 s6 s7 s8 s9 s10 s11 s12 s13 f g, (if a then sgr [Z.to_N 52] (Style s1 s2 s3 s4 s5 s6 s7 s8 s9 s10 s11 s12 s13 f g) else Style s1 s2 s3 s4 s5 s6 s7 s8 s9 s10 s11 s12 s13 f g) = Style s1 s2 s3 s4 s5 s6 s7 s8 s9 s10 s11 (s12 || a) s13 f g.
Proof. intros []; intros; [rewrite orb_true_r|rewrite orb_false_r]; reflexivity. Qed.
Lemma on_53 : forall (a : bool) s1 s2 s3 s4 s5 s6 s7 s8 s9 s10 s11 s12 s13 f g, (if a then sgr [Z.to_N 53] (Style s1 s2 s3 s4 s5 s6 s7 s8 s9 s10 s11 s12 s13 f g) else Style s1 s2 s3 s4 s5 s6 s7 s8 s9 s10 s11 s12 s13 f g) = Style s1 s2 s3 s4 s5 s6 s7 s8 s9 s10 s11 s12 (s13 || a) f g.
Proof. intros []; intros; [rewrite orb_true_r|rewrite orb_false_r]; reflexivity. Qed.
Lemma off_22 : forall (a : bool) s1 s2 s3 s4 s5 s6 s7 s8 s9 s10 s11 s12 s13 f g, (if a then sgr [Z.to_N 22] (Style s1 s2 s3 s4 s5 s6 s7 s8 s9 s10 s11 s12 s13 f g) else Style s1 s2 s3 s4 s5 s6 s7 s8 s9 s10 s11 s12 s13 f g) = Style (s1 && negb a) (s2 && negb a) s3 s4 s5 s6 s7 s8 s9 s10 s11 s12 s13 f g.
Proof. intros []; intros; cbn [negb]; rewrite ?andb_true_r, ?andb_false_r; reflexivity. Qed.
Lemma off_23 : forall (a : bool) s1 s2 s3 s4 s5 s6 s7 s8 s9 s10 s11 s12 s13 f g, (if a then sgr [Z.to_N 23] (Style s1 s2 s3 s4 s5 s6 s7 s8 s9 s10 s11 s12 s13 f g) else Style s1 s2 s3 s4 s5 s6 s7 s8 s9 s10 s11 s12 s13 f g) = Style s1 s2 (s3 && negb a) (s4 && negb a) s5 s6 s7 s8 s9 s10 s11 s12 s13 f g.
Proof. intros []; intros; cbn [negb]; rewrite ?andb_true_r, ?andb_false_r; reflexivity. Qed.
Lemma off_24 : forall (a : bool) s1 s2 s3 s4 s5 s6 s7 s8 s9 s10 s11 s12 s13 f g, (if a then sgr [Z.to_N 24] (Style s1 s2 s3 s4 s5 s6 s7 s8 s9 s10 s11 s12 s13 f g) else Style s1 s2 s3 s4 s5 s6 s7 s8 s9 s10 s11 s12 s13 f g) = Style s1 s2 s3 s4 (s5 && negb a) s6 s7 s8 s9 s10 s11 s12 s13 f g.
Proof. intros []; intros; cbn [negb]; rewrite ?andb_true_r, ?andb_false_r; reflexivity. Qed.
Lemma off_25 : forall (a : bool) s1 s2 s3 s4 s5 s6 s7 s8 s9 s10 s11 s12 s13 f g, (if a then sgr [Z.to_N 25] (Style s1 s2 s3 s4 s5 s6 s7 s8 s9 s10 s11 s12 s13 f g) else Style s1 s2 s3 s4 s5 s6 s7 s8 s9 s10 s11 s12 s13 f g) = Style s1 s2 s3 s4 s5 (s6 && negb a) (s7 && negb a) s8 s9 s10 s11 s12 s13 f g.
Proof. intros []; intros; cbn [negb]; rewrite ?andb_true_r, ?andb_false_r; reflexivity. Qed.
Lemma off_27 : forall (a : bool) s1 s2 s3 s4 s5 s6 s7 s8 s9 s10 s11 s12 s13 f g, (if a then sgr [Z.to_N 27] (Style s1 s2 s3 s4 s5 s6 s7 s8 s9 s10 s11 s12 s13 f g) else Style s1 s2 s3 s4 s5 s6 s7 s8 s9 s10 s11 s12 s13 f g) = Style s1 s2 s3 s4 s5 s6 s7 (s8 && negb a) s9 s10 s11 s12 s13 f g.
Proof. intros []; intros; cbn [negb]; rewrite ?andb_true_r, ?andb_false_r; reflexivity. Qed.
Lemma off_28 : forall (a : bool) s1 s2 s3 s4 s5 s6 s7 s8 s9 s10 s11 s12 s13 f g, (if a then sgr [Z.to_N 28] (Style s1 s2 s3 s4 s5 s6 s7 s8 s9 s10 s11 s12 s13 f g) else Style s1 s2 s3 s4 s5 s6 s7 s8 s9 s10 s11 s12 s13 f g) = Style s1 s2 s3 s4 s5 s6 s7 s8 (s9 && negb a) s10 s11 s12 s13 f g.
Proof. intros []; intros; cbn [negb]; rewrite ?andb_true_r, ?andb_false_r; reflexivity. Qed.
Lemma off_29 : forall (a : bool) s1 s2 s3 s4 s5 s6 s7 s8 s9 s10 s11 s12 s13 f g, (if a then sgr [Z.to_N 29] (Style s1 s2 s3 s4 s5 s6 s7 s8 s9 s10 s11 s12 s13 f g) else Style s1 s2 s3 s4 s5 s6 s7 s8 s9 s10 s11 s12 s13 f g) = Style s1 s2 s3 s4 s5 s6 s7 s8 s9 (s10 && negb a) s11 s12 s13 f g.
Proof. intros []; intros; cbn [negb]; rewrite ?andb_true_r, ?andb_false_r; reflexivity. Qed.
Lemma off_54 : forall (a : bool) s1 s2 s3 s4 s5 s6 s7 s8 s9 s10 s11 s12 s13 f g, (if a then sgr [Z.to_N 54] (Style s1 s2 s3 s4 s5 s6 s7 s8 s9 s10 s11 s12 s13 f g) else Style s1 s2 s3 s4 s5 s6 s7 s8 s9 s10 s11 s12 s13 f g) = Style s1 s2 s3 s4 s5 s6 s7 s8 s9 s10 (s11 && negb a) (s12 && negb a) s13 f g.
Proof. intros []; intros; cbn [negb]; rewrite ?andb_true_r, ?andb_false_r; reflexivity. Qed.
Lemma off_55 : forall (a : bool) s1 s2 s3 s4 s5 s6 s7 s8 s9 s10 s11 s12 s13 f g, (if a then sgr [Z.to_N 55] (Style s1 s2 s3 s4 s5 s6 s7 s8 s9 s10 s11 s12 s13 f g) else Style s1 s2 s3 s4 s5 s6 s7 s8 s9 s10 s11 s12 s13 f g) = Style s1 s2 s3 s4 s5 s6 s7 s8 s9 s10 s11 s12 (s13 && negb a) f g.
Proof. intros []; intros; cbn [negb]; rewrite ?andb_true_r, ?andb_false_r; reflexivity. Qed.

Definition effect_list (a1 a2 a3 a4 a5 a6 a7 a8 a9 a10 a11 a12 a13 : bool) : list (bool * (Z * Z)) :=
  combine [a1; a2; a3; a4; a5; a6; a7; a8; a9; a10; a11; a12; a13] (map snd ansi_effects).
Lemma enabled : forall a1 a2 a3 a4 a5 a6 a7 a8 a9 a10 a11 a12 a13 s1 s2 s3 s4 s5 s6 s7 s8 s9 s10 s11 s12 s13 f g,
  fold_left (fun (s : style) (e : bool * (Z * Z)) => if fst e then sgr [Z.to_N (fst (snd e))] s else s)
    (effect_list a1 a2 a3 a4 a5 a6 a7 a8 a9 a10 a11 a12 a13) (Style s1 s2 s3 s4 s5 s6 s7 s8 s9 s10 s11 s12 s13 f g)
  = Style (s1 || a1) (s2 || a2) (s3 || a3) (s4 || a4) (s5 || a5) (s6 || a6) (s7 || a7) (s8 || a8) (s9 || a9) (s10 || a10) (s11 || a11) (s12 || a12) (s13 || a13) f g.
Proof.
  intros. unfold effect_list, ansi_effects. cbn [map combine snd fst fold_left].
  rewrite on_1, on_2, on_3, on_20, on_4, on_5, on_6, on_7, on_8, on_9, on_51, on_52, on_53. reflexivity.
Qed.
Lemma disabled : forall a1 a2 a3 a4 a5 a6 a7 a8 a9 a10 a11 a12 a13 s1 s2 s3 s4 s5 s6 s7 s8 s9 s10 s11 s12 s13 f g,
  fold_left (fun (s : style) (e : bool * (Z * Z)) => if fst e then sgr [Z.to_N (snd (snd e))] s else s)
    (effect_list a1 a2 a3 a4 a5 a6 a7 a8 a9 a10 a11 a12 a13) (Style s1 s2 s3 s4 s5 s6 s7 s8 s9 s10 s11 s12 s13 f g)
  = Style (s1 && negb a1 && negb a2) (s2 && negb a1 && negb a2) (s3 && negb a3 && negb a4) (s4 && negb a3 && negb a4) (s5 && negb a5) (s6 && negb a6 && negb a7) (s7 && negb a6 && negb a7) (s8 && negb a8) (s9 && negb a9) (s10 && negb a10) (s11 && negb a11 && negb a12) (s12 && negb a11 && negb a12) (s13 && negb a13) f g.
Proof.
  intros. unfold effect_list, ansi_effects. cbn [map combine snd fst fold_left].
  rewrite off_22, off_22, off_23, off_23, off_24, off_25, off_25, off_27, off_28, off_29, off_54, off_54, off_55. reflexivity.
Qed.

(** ** Spans *)
Section Span.
Context `{U : Uni}.

Lemma colour_seqs_none : forall bg norm, colour_seqs VNone bg norm = Ok ([], []).
Proof. reflexivity. Qed.
Lemma colour_seqs_some : forall v c bg norm, colour_value v c -> v <> VNone -> v <> VInt 0 ->
  exists x, colour_seqs v bg norm
  = Ok ([ansi_seq x], if norm then [] else [ansi_seq (lit (if bg then "49" else "39"))])
  /\ c <> CDefault
  /\ forall s rest, terminal Text s (ansi_seq x ++ rest) = terminal Text ((if bg then set_bg else set_fg) c s) rest.
Proof.
  intros v c bg norm H N1 N2. destruct (colour_shown v c bg H N1) as (x & E & S). exists x.
  assert (T : truth v = true).
  { inversion H; subst; cbn [truth].
    - congruence.
    - assert (K : (k < length colour_names)%nat) by (apply nth_error_Some; rewrite H0; discriminate). cbn [length colour_names] in K.
      do 16 (destruct k as [|k]; [injection H0 as <-; reflexivity|]). lia.
    - destruct z; congruence || reflexivity.
    - reflexivity.
    - destruct hash; reflexivity.
    - destruct hash; reflexivity. }
  unfold colour_seqs. rewrite T, E. cbn [bind]. repeat split; auto.
  inversion H; subst; congruence.
Qed.

Lemma off_fg_shown : forall s r, terminal Text s (ansi_seq (lit "39") ++ r) = terminal Text (set_fg CDefault s) r.
Proof. intros [] r. reflexivity. Qed.
Lemma off_bg_shown : forall s r, terminal Text s (ansi_seq (lit "49") ++ r) = terminal Text (set_bg CDefault s) r.
Proof. intros [] r. reflexivity. Qed.
Lemma reset_shown : forall s r, terminal Text s (ansi_seq (lit "0") ++ r) = terminal Text plain r.
Proof. intros [] r. reflexivity. Qed.

Lemma ansi_lookup : forall l k v, NoDup (map fst l) -> dget (lit k) (class_settings AnsiEscapeCodeRenderer) = Some v ->
  dget (lit k) (dupdate (class_settings AnsiEscapeCodeRenderer) l) = Some (setting l k v).
Proof.
  intros l k v ND H. rewrite dget_dupdate by exact ND. unfold setting. destruct (dget (lit k) l); auto.
Qed.

Lemma fmt_braces : forall s, format (lit "{}") [FStr s] [] = Ok s.
Proof. intros. transitivity (Ok (s ++ [] : str)); [reflexivity|now rewrite app_nil_r]. Qed.

Lemma ansi_span : forall l fg bg, span_settings l fg bg ->
  exists en dis,
    (forall content, render_inst (Dom [] []) (Inst KAnsi (dupdate (class_settings AnsiEscapeCodeRenderer) l) (Ctx None None None None) 0 None false) content
                     = Ok (en ++ content ++ dis))
    /\ (forall s r, terminal Text s (en ++ r) = terminal Text (inside l fg bg s) r)
    /\ (asked l "normalise" = false -> forall s r, untouched l fg bg s ->
        terminal Text (inside l fg bg s) (dis ++ r) = terminal Text s r)
    /\ (asked l "normalise" = true -> forall s r, terminal Text s (dis ++ r) = terminal Text plain r).
Proof.
  intros l fg bg (ND & HT & HC & HF & HFG & HBG & F0 & B0).
  set (s0 := dupdate (class_settings AnsiEscapeCodeRenderer) l).
  assert (LK : forall k v, dget (lit k) (class_settings AnsiEscapeCodeRenderer) = Some v -> dget (lit k) s0 = Some (setting l k v))
    by (intros; apply ansi_lookup; assumption).
  set (vs := map (fun k => setting l k (VBool false))
    ["bold"; "faint"; "italic"; "fraktur"; "underline"; "slow_blink"; "rapid_blink"; "invert"; "conceal"; "crossed_out"; "framed"; "encircled"; "overlined"]%string).
  assert (F : Forall2 (fun (e : str * (Z * Z)) v => sitem s0 (fst e) = Ok v) ansi_effects vs).
  { unfold ansi_effects, vs. cbn [map fst snd].
    repeat (constructor; [unfold sitem; cbn [fst]; rewrite (LK _ (VBool false)) by (vm_compute; reflexivity); reflexivity|]). constructor. }
  set (norm := asked l "normalise").
  pose proof (effect_seqs_spec s0 norm ansi_effects vs F) as ES. cbv zeta in ES.
  set (L := effect_list (asked l "bold") (asked l "faint") (asked l "italic") (asked l "fraktur") (asked l "underline")
     (asked l "slow_blink") (asked l "rapid_blink") (asked l "invert") (asked l "conceal") (asked l "crossed_out")
     (asked l "framed") (asked l "encircled") (asked l "overlined")).
  change (combine (map truth vs) (map snd ansi_effects)) with L in ES.
  assert (BC : byte_codes L).
  { unfold L, effect_list, ansi_effects, byte_codes. cbn [map combine snd]. repeat (constructor; [cbn [fst snd]; lia|]). constructor. }
  assert (INN : forall content, inline_render s0 content = Ok content).
  { intros. unfold inline_render, sitem, sattr. rewrite (LK "capitalized"%string (VBool false)) by (vm_compute; reflexivity).
    cbn [bind]. rewrite HC. rewrite (LK "template"%string (VStr (lit "{}"))) by (vm_compute; reflexivity).
    cbn [bind]. rewrite HT. unfold fmt1. cbn [bind want_str]. apply fmt_braces. }
  assert (FGS : exists en dis, colour_seqs (setting l "foreground_colour" VNone) false norm = Ok (en, if norm then [] else dis)
     /\ (forall s r, terminal Text s (concat en ++ r) = terminal Text (set_fg (or_keep fg (st_fg s)) s) r)
     /\ (forall s r, terminal Text s (concat dis ++ r) = terminal Text (match fg with CDefault => s | _ => set_fg CDefault s end) r)).
  { assert (D : setting l "foreground_colour" VNone = VNone \/ setting l "foreground_colour" VNone <> VNone)
      by (destruct (setting l "foreground_colour" VNone); (now left) || (right; discriminate)).
    destruct D as [D|D].
    - rewrite D in *. inversion HFG; subst. exists [], []. rewrite colour_seqs_none. destruct norm; (repeat split; auto); intros []; reflexivity.
    - destruct (colour_seqs_some _ _ false norm HFG D F0) as (x & E & NC & S). exists [ansi_seq x], [ansi_seq (lit "39")].
      rewrite E. cbn [concat]. repeat split; auto; intros; rewrite app_nil_r.
      + rewrite S. destruct fg; congruence || reflexivity.
      + rewrite off_fg_shown. destruct fg; congruence || reflexivity. }
  assert (BGS : exists en dis, colour_seqs (setting l "background_colour" VNone) true norm = Ok (en, if norm then [] else dis)
     /\ (forall s r, terminal Text s (concat en ++ r) = terminal Text (set_bg (or_keep bg (st_bg s)) s) r)
     /\ (forall s r, terminal Text s (concat dis ++ r) = terminal Text (match bg with CDefault => s | _ => set_bg CDefault s end) r)).
  { assert (D : setting l "background_colour" VNone = VNone \/ setting l "background_colour" VNone <> VNone)
      by (destruct (setting l "background_colour" VNone); (now left) || (right; discriminate)).
    destruct D as [D|D].
    - rewrite D in *. inversion HBG; subst. exists [], []. rewrite colour_seqs_none. destruct norm; (repeat split; auto); intros []; reflexivity.
    - destruct (colour_seqs_some _ _ true norm HBG D B0) as (x & E & NC & S). exists [ansi_seq x], [ansi_seq (lit "49")].
      rewrite E. cbn [concat]. repeat split; auto; intros; rewrite app_nil_r.
      + rewrite S. destruct bg; congruence || reflexivity.
      + rewrite off_bg_shown. destruct bg; congruence || reflexivity. }
  destruct FGS as (ef & df & EF & SF & TF). destruct BGS as (eb & db & EB & SB & TB).
  exists (concat (enables L ++ ef ++ eb)),
    (concat ((if norm then [] else disables L) ++ (if norm then [] else df) ++ (if norm then [] else db) ++ (if norm then [ansi_seq (lit "0")] else []))).
  split; [|split; [|split]].
  - intros content. unfold render_inst. cbn [i_kind i_settings]. rewrite INN. cbn [bind].
    unfold ansi_render, sattr. rewrite (LK "normalise"%string (VBool false)) by (vm_compute; reflexivity). cbn [bind].
    change (truth (setting l "normalise" (VBool false))) with norm. rewrite ES. cbn [bind].
    rewrite (LK "font"%string VNone) by (vm_compute; reflexivity). cbn [bind]. rewrite HF. cbn [bind].
    rewrite (LK "foreground_colour"%string VNone) by (vm_compute; reflexivity). cbn [bind]. rewrite EF. cbn [bind].
    rewrite (LK "background_colour"%string VNone) by (vm_compute; reflexivity). cbn [bind]. rewrite EB. cbn [bind].
    reflexivity.
  - intros s r. rewrite !concat_app, <- !app_assoc, enables_shown by exact BC. destruct s as [s1 s2 s3 s4 s5 s6 s7 s8 s9 s10 s11 s12 s13 f g].
    unfold L. rewrite enabled. rewrite SF. cbn [set_fg st_fg]. rewrite SB. cbn [set_bg st_bg]. reflexivity.
  - intros NM s r UN. assert (norm = false) as -> by exact NM. cbn [app]. rewrite app_nil_r, !concat_app, <- !app_assoc.
    rewrite disables_shown by exact BC. destruct s as [s1 s2 s3 s4 s5 s6 s7 s8 s9 s10 s11 s12 s13 f g].
    unfold L, inside. cbn [st_bold st_faint st_italic st_fraktur st_underline st_slow_blink st_rapid_blink st_invert st_conceal st_crossed_out st_framed st_encircled st_overlined st_fg st_bg].
    rewrite disabled, TF, TB.
    unfold untouched in UN. cbn [st_bold st_faint st_italic st_fraktur st_underline st_slow_blink st_rapid_blink st_invert st_conceal st_crossed_out st_framed st_encircled st_overlined st_fg st_bg] in UN.
    destruct UN as (U1 & U2 & U3 & U4 & U5 & U6 & U7 & U8 & U9 & U10 & U11).
    f_equal. clear - U1 U2 U3 U4 U5 U6 U7 U8 U9 U10 U11.
    assert (G2 : forall x y a b : bool, (a || b = true -> x = false /\ y = false) ->
                 (x || a) && negb a && negb b = x /\ (y || b) && negb a && negb b = y).
    { intros [] [] [] [] H; try (split; reflexivity); destruct H; try reflexivity; discriminate. }
    assert (G1 : forall x a : bool, (a = true -> x = false) -> (x || a) && negb a = x).
    { intros [] [] H; try reflexivity. discriminate (H eq_refl). }
    destruct (G2 _ _ _ _ U1) as [-> ->]. destruct (G2 _ _ _ _ U2) as [-> ->]. rewrite (G1 _ _ U3).
    destruct (G2 _ _ _ _ U4) as [-> ->]. rewrite (G1 _ _ U5), (G1 _ _ U6), (G1 _ _ U7).
    destruct (G2 _ _ _ _ U8) as [-> ->]. rewrite (G1 _ _ U9).
    destruct fg, bg; try specialize (U10 ltac:(discriminate)); try specialize (U11 ltac:(discriminate)); subst; reflexivity.
  - intros NM s r. assert (norm = true) as -> by exact NM. cbn [app concat]. rewrite app_nil_r. apply reset_shown.
Qed.
End Span.
Close Scope N_scope.
