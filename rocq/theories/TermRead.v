(** Texts as a terminal reads them: characters and complete control sequences;
    which operations on text keep the sequences. *)
From Verif Require JudgeFacts.
From Verif Require Import WrapFacts WrapLoop WrapWidth BaseFacts StrFacts LineFacts ElemFacts LayoutFacts.
From Verif Require Export TermSpec.
Open Scope Z_scope.

(** ** Reading *)
Definition par (c : N) : bool := is_digit_ascii c || (c =? 59)%N.
Inductive reads : str -> list str -> Prop :=
| re_nil : reads [] []
| re_char : forall c s l, c <> 27%N -> reads s l -> reads (c :: s) l
| re_esc : forall ps s l, forallb par ps = true -> reads s l -> reads (27 :: 91 :: ps ++ 109 :: s)%N (ps :: l).
Lemma reads_app : forall x l y m, reads x l -> reads y m -> reads (x ++ y) (l ++ m).
Proof.
  intros x l y m H K. induction H; cbn [app]; [exact K|apply re_char; auto|].
  rewrite <- app_assoc. cbn [app]. apply re_esc; auto.
Qed.
Lemma reads_clean : forall x, clean x -> reads x [].
Proof. induction x as [|c x IH]; intros H; [apply re_nil|]. apply re_char; [intros ->; apply H; now left|]. apply IH. intros K. apply H. now right. Qed.
Lemma clean_reads : forall x l, clean x -> reads x l -> l = [].
Proof.
  intros x l C H. induction H; auto.
  - apply IHreads. intros K. apply C. now right.
  - elim C. now left.
Qed.
Lemma clean_app : forall x y, clean (x ++ y) <-> clean x /\ clean y.
Proof. intros. unfold clean. rewrite in_app_iff. tauto. Qed.
Lemma clean_nil : clean []. Proof. intros []. Qed.
Lemma reads_around : forall a x b l, clean a -> clean b -> reads x l -> reads (a ++ x ++ b) l.
Proof.
  intros a x b l A B H. change l with ([] ++ l). apply reads_app; [now apply reads_clean|].
  rewrite <- (app_nil_r l). apply reads_app; [exact H|now apply reads_clean].
Qed.

(** ** Where a text may be taken apart *)
Definition inner c := c = 27%N \/ c = 91%N \/ par c = true.
Definition follow c := c = 91%N \/ par c = true \/ c = 109%N.
Definition apart (x y : str) : Prop := (forall b c, x = b ++ [c] -> ~ inner c) \/ (forall c a, y = c :: a -> ~ follow c).
Lemma reads_break : forall z l, reads z l -> forall x y, z = x ++ y -> apart x y ->
  exists l1 l2, reads x l1 /\ reads y l2 /\ l = l1 ++ l2.
Proof.
  assert (TRIV : forall z l, reads z l -> exists l1 l2, reads [] l1 /\ reads z l2 /\ l = l1 ++ l2) by (intros z l H; exists [], l; repeat split; auto using re_nil).
  intros z l H. induction H as [|c s l C H IH|ps s l P H IH]; intros x y E A.
  - symmetry in E. apply app_eq_nil in E as [-> ->]. exists [], []. repeat split; apply re_nil.
  - destruct x as [|d x]; [cbn [app] in E; subst y; apply TRIV, re_char; auto|]. injection E as <- E.
    destruct x as [|d x].
    + cbn [app] in E. subst y. exists [], l. repeat split; auto. apply re_char; auto. apply re_nil.
    + destruct (IH (d :: x) y E) as (l1 & l2 & R1 & R2 & ->).
      { destruct A as [A|A]; [left|now right]. intros b e EB. apply (A (c :: b) e). now rewrite EB. }
      exists l1, l2. repeat split; auto. apply re_char; auto.
  - assert (PAR : forall c, In c ps -> par c = true) by (apply forallb_forall; exact P).
    destruct x as [|d x]; [cbn [app] in E; subst y; apply TRIV, re_esc; auto|]. injection E as <- E.
    destruct x as [|d x].
    { exfalso. cbn [app] in E. subst y. destruct A as [A|A]; [apply (A [] 27%N eq_refl); left; reflexivity|eapply A; [reflexivity|left; reflexivity]]. }
    injection E as <- E.
    assert (K : (exists u, ps = x ++ u /\ y = u ++ 109%N :: s) \/ exists u, x = ps ++ 109%N :: u /\ s = u ++ y).
    { clear -E. revert x E. induction ps as [|p ps IH]; intros x E; cbn [app] in *.
      - destruct x as [|d x]; [left; exists []; auto|]. injection E as <- E. right. exists x. auto.
      - destruct x as [|d x]; [left; exists (p :: ps); auto|]. injection E as <- E. destruct (IH x E) as [(u & -> & ->)|(u & -> & ->)]; [left|right]; exists u; auto. }
    destruct K as [(u & EP & EY)|(u & -> & ->)].
    + exfalso. destruct A as [A|A].
      * destruct (exists_last (l := 27%N :: 91%N :: x)) as (b & e & EB); [discriminate|]. apply (A b e EB).
        destruct x as [|d x] using rev_ind.
        -- change [27%N; 91%N] with ([27%N] ++ [91%N]) in EB. apply app_inj_tail in EB as [_ <-]. right. left. reflexivity.
        -- change (27%N :: 91%N :: x ++ [d]) with ((27%N :: 91%N :: x) ++ [d]) in EB. apply app_inj_tail in EB as [_ <-]. right. right. apply PAR. rewrite EP, !in_app_iff. left. right. now left.
      * destruct u as [|e u]; cbn [app] in EY; [apply (A _ _ EY); right; right; reflexivity|].
        apply (A _ _ EY). right. left. apply PAR. rewrite EP, in_app_iff. right. now left.
    + destruct u as [|e u].
      { exists [ps], l. repeat split; auto. apply re_esc; auto. apply re_nil. }
      destruct (IH (e :: u) y eq_refl) as (l1 & l2 & R1 & R2 & ->).
      { destruct A as [A|A]; [left|now right]. intros b c EB. apply (A (27%N :: 91%N :: ps ++ 109%N :: b) c). rewrite EB. cbn [app]. rewrite <- app_assoc. reflexivity. }
      exists (ps :: l1), l2. repeat split; auto. apply re_esc; auto.
Qed.
(** Characters that are in no sequence. *)
Definition sep c := ~ inner c /\ ~ follow c.
Lemma sep_not27 : forall c, sep c -> c <> 27%N.
Proof. intros c [S _] ->. apply S. left. reflexivity. Qed.
Lemma sep_apart_r : forall x c y, sep c -> apart x (c :: y).
Proof. intros x c y [_ S]. right. intros d a E. injection E as <- <-. exact S. Qed.
Lemma sep_apart_l : forall x c y, sep c -> apart (x ++ [c]) y.
Proof. intros x c y [S _]. left. intros b d E. apply app_inj_tail in E as [_ <-]. exact S. Qed.
Lemma not_sep : forall c, inner c \/ follow c -> In c [27; 91; 59; 109; 48; 49; 50; 51; 52; 53; 54; 55; 56; 57]%N.
Proof.
  assert (P : forall c, par c = true -> In c [27; 91; 59; 109; 48; 49; 50; 51; 52; 53; 54; 55; 56; 57]%N).
  { intros c H. unfold par, is_digit_ascii in H. apply orb_true_iff in H as [H|H].
    - apply andb_true_iff in H as [H1 H2]. apply N.leb_le in H1, H2.
      assert (c = 48 \/ c = 49 \/ c = 50 \/ c = 51 \/ c = 52 \/ c = 53 \/ c = 54 \/ c = 55 \/ c = 56 \/ c = 57)%N as K by lia.
      simpl. intuition congruence.
    - apply N.eqb_eq in H. subst. simpl. tauto. }
  intros c [[->|[->|H]]|[->|[H| ->]]]; auto; simpl; tauto.
Qed.
Lemma sep_by : forall (p : N -> bool), forallb (fun c => negb (p c)) [27; 91; 59; 109; 48; 49; 50; 51; 52; 53; 54; 55; 56; 57]%N = true ->
  forall c, p c = true -> sep c.
Proof.
  intros p H c P. rewrite forallb_forall in H. split; intros K; assert (J := not_sep c); [specialize (J (or_introl K))|specialize (J (or_intror K))]; apply H in J; rewrite P in J; discriminate.
Qed.
Lemma space_sep : forall c, is_space c = true -> sep c. Proof. apply sep_by. vm_compute. reflexivity. Qed.
Lemma break_sep : forall c, is_linebreak c = true -> sep c. Proof. apply sep_by. vm_compute. reflexivity. Qed.
Lemma white_sep : forall c, white c -> sep c.
Proof. intros c H. apply (sep_by (fun c => existsb (N.eqb c) [9; 10; 11; 12; 13; 32]%N)); [reflexivity|]. apply existsb_exists. exists c. split; [exact H|apply N.eqb_refl]. Qed.
Lemma dash_sep : sep dash. Proof. apply (sep_by (N.eqb 45)); reflexivity. Qed.
Lemma sep_clean : forall z, (forall c, In c z -> sep c) -> clean z.
Proof. intros z H K. apply H in K. now apply sep_not27 in K. Qed.
Lemma space_clean : forall z, all_space z = true -> clean z.
Proof. intros z H. apply sep_clean. intros c I. apply space_sep. unfold all_space in H. rewrite forallb_forall in H. auto. Qed.
Lemma spaces_clean : forall n, clean (spaces n).
Proof. intros n K. unfold spaces in K. apply repeat_spec in K. discriminate. Qed.
Lemma newlines_clean : forall n, clean (newlines n).
Proof. intros n K. unfold newlines in K. apply repeat_spec in K. discriminate. Qed.
Lemma reads_mid : forall x z y l, (forall c, In c z -> sep c) -> z <> [] \/ x = [] \/ y = [] -> reads (x ++ z ++ y) l ->
  exists l1 l2, reads x l1 /\ reads y l2 /\ l = l1 ++ l2.
Proof.
  intros x z y l S N H. destruct z as [|c z].
  - cbn [app] in H. destruct N as [N|[->| ->]]; [contradiction| |].
    + exists [], l. repeat split; auto using re_nil.
    + rewrite app_nil_r in H. exists l, []. rewrite app_nil_r. repeat split; auto using re_nil.
  - destruct (reads_break _ _ H x ((c :: z) ++ y) eq_refl) as (l1 & l2 & R1 & R2 & ->); [apply sep_apart_r, S; now left|].
    destruct (exists_last (l := c :: z)) as (b & e & EB); [discriminate|].
    destruct (reads_break _ _ R2 (c :: z) y eq_refl) as (m1 & m2 & Q1 & Q2 & ->); [rewrite EB; apply sep_apart_l, S; rewrite EB, in_app_iff; right; now left|].
    apply clean_reads in Q1; [|now apply sep_clean]. subst m1. exists l1, m2. auto.
Qed.

(** ** Lists of texts *)
Definition all_read (xs : list str) (l : list str) : Prop := exists lls, Forall2 reads xs lls /\ concat lls = l.
Lemma all_nil : all_read [] []. Proof. exists []. split; [constructor|reflexivity]. Qed.
Lemma all_cons : forall x xs l m, reads x l -> all_read xs m -> all_read (x :: xs) (l ++ m).
Proof. intros x xs l m H (lls & F & <-). exists (l :: lls). split; [constructor; auto|reflexivity]. Qed.
Lemma all_uncons : forall x xs n, all_read (x :: xs) n -> exists l m, reads x l /\ all_read xs m /\ n = l ++ m.
Proof. intros x xs n (lls & F & <-). inversion F; subst. do 2 eexists. split; [eassumption|]. split; [eexists; split; [eassumption|reflexivity]|reflexivity]. Qed.
Lemma all_app : forall xs ys l m, all_read xs l -> all_read ys m -> all_read (xs ++ ys) (l ++ m).
Proof. intros xs ys l m (a & F & <-) (b & G & <-). exists (a ++ b). split; [now apply Forall2_app|apply concat_app]. Qed.
Lemma all_unapp : forall xs ys n, all_read (xs ++ ys) n -> exists l m, all_read xs l /\ all_read ys m /\ n = l ++ m.
Proof. intros xs ys n (lls & F & <-). apply Forall2_app_inv_l in F as (a & b & Fa & Fb & ->). exists (concat a), (concat b). rewrite concat_app. repeat split; eexists; split; eauto. Qed.
Lemma all_clean : forall xs, Forall clean xs -> all_read xs [].
Proof. intros xs H. induction H; [apply all_nil|]. change (@nil str) with (@nil str ++ []). apply all_cons; auto. now apply reads_clean. Qed.
Lemma all_concat : forall xs l, all_read xs l -> reads (concat xs) l.
Proof. intros xs l (lls & F & <-). induction F; cbn [concat]; [apply re_nil|now apply reads_app]. Qed.
(** Each of them changed without touching the sequences. *)
Lemma all_change : forall (R : str -> str -> Prop) xs ys l, (forall x y m, R x y -> reads x m -> reads y m) -> Forall2 R xs ys -> all_read xs l -> all_read ys l.
Proof.
  intros R xs ys l H F. revert l. induction F; intros m A; [exact A|]. apply all_uncons in A as (a & b & A & B & ->). apply all_cons; eauto.
Qed.
Lemma all_map : forall (f : str -> str) xs l, (forall x m, reads x m -> reads (f x) m) -> all_read xs l -> all_read (map f xs) l.
Proof. intros f xs l H A. apply (all_change (fun x y => y = f x) xs); auto; [intros; subst; auto|]. clear. induction xs; constructor; auto. Qed.
Lemma all_join : forall xs l, all_read xs l -> reads (join nl xs) l.
Proof.
  induction xs as [|x xs IH]; intros l A; [apply (all_concat [] l A)|]. apply all_uncons in A as (a & b & R & A & ->).
  destruct xs as [|y xs]; [destruct A as (lls & F & <-); inversion F; subst; cbn [concat]; rewrite app_nil_r; exact R|].
  change (join nl (x :: y :: xs)) with (x ++ nl ++ join nl (y :: xs)). apply reads_app; auto. change b with ([] ++ b). apply reads_app; [apply reads_clean; vm_compute; intuition discriminate|auto].
Qed.
Lemma join_all : forall c xs l, sep c -> xs <> [] -> reads (join [c] xs) l -> all_read xs l.
Proof.
  intros c xs l S. revert l. induction xs as [|x xs IH]; intros l N H; [contradiction|]. destruct xs as [|y xs].
  - exists [l]. split; [repeat constructor; exact H|cbn [concat]; apply app_nil_r].
  - change (join [c] (x :: y :: xs)) with (x ++ [c] ++ join [c] (y :: xs)) in H. apply reads_mid in H as (l1 & l2 & R1 & R2 & ->).
    + apply all_cons; [exact R1|]. apply IH; [discriminate|exact R2].
    + intros d [<-|[]]. exact S.
    + left. discriminate.
Qed.
Lemma nl_sep : sep 10%N. Proof. now apply break_sep. Qed.
Lemma split_ne : forall c s, split_on c s <> [].
Proof. intros c s H. destruct s as [|x r]; cbn [split_on] in H; [discriminate|]. destruct (x =? c)%N; [discriminate|]. destruct (split_on c r); discriminate. Qed.
Lemma split_all : forall x l, reads x l -> all_read (split_on 10%N x) l.
Proof. intros x l H. apply (join_all 10%N); [exact nl_sep|apply split_ne|]. now rewrite join_split_on. Qed.
Lemma strip_reads : forall x l, reads x l -> reads (strip x) l.
Proof.
  intros x l H. destruct (JudgeFacts.strip_parts x) as (a & b & E & A & B). rewrite E in H. clear E.
  assert (SP : forall z, all_space z = true -> forall c, In c z -> sep c) by (intros z Z c I; apply space_sep; unfold all_space in Z; rewrite forallb_forall in Z; auto).
  apply (reads_mid [] a) in H as (l1 & l2 & R1 & R2 & ->); [|now apply SP|auto]. apply clean_reads in R1; [|exact clean_nil]. subst l1. cbn [app].
  rewrite <- (app_nil_r b) in R2. apply reads_mid in R2 as (m1 & m2 & Q1 & Q2 & ->); [|now apply SP|auto]. apply clean_reads in Q2; [|exact clean_nil]. subst m2. now rewrite app_nil_r.
Qed.
Lemma rstrip_reads : forall x l, reads x l -> reads (rstrip x) l.
Proof.
  intros x l H. destruct (rstrip_spec x) as (b & E & B & _). rewrite E in H. rewrite <- (app_nil_r b) in H.
  apply reads_mid in H as (l1 & l2 & R1 & R2 & ->); [|intros c I; apply space_sep; unfold all_space in B; rewrite forallb_forall in B; auto|auto].
  apply clean_reads in R2; [|exact clean_nil]. subst l2. now rewrite app_nil_r.
Qed.
Lemma end_sep : forall t, line_end t -> forall c, In c t -> sep c.
Proof. intros t [->|[->|(d & -> & B)]] c I; [destruct I| |]; [destruct I as [<-|[<-|[]]]; now apply break_sep|destruct I as [<-|[]]; now apply break_sep]. Qed.
Lemma lines_all : forall s ls, lines_of s ls -> forall l, reads s l -> all_read (map fst ls) l.
Proof.
  intros s ls H. induction H as [|b t r ls B T N R0 CR L IH]; intros l H.
  - apply clean_reads in H; [|exact clean_nil]. subst l. apply all_nil.
  - apply reads_mid in H as (l1 & l2 & R1 & R2 & ->); [|now apply end_sep|destruct t; [right; right; auto|left; discriminate]]. cbn [map fst]. apply all_cons; auto.
Qed.
Lemma lines_ends : forall s ls, lines_of s ls -> Forall (fun l => clean (snd l)) ls.
Proof. intros s ls H. induction H; constructor; auto. cbn [snd]. apply sep_clean. now apply end_sep. Qed.
Lemma splitlines_all : forall s l, reads s l -> all_read (splitlines false s) l.
Proof. intros s l H. destruct (splitlines_bodies s) as (ls & L & ->). unfold bodies. exact (lines_all _ _ L _ H). Qed.
Lemma prefixed_reads : forall p s s' l, clean p -> prefixed p s s' -> reads s l -> reads s' l.
Proof.
  intros p s s' l C (ls & L & ->) H. apply all_concat. pose proof (lines_all _ _ L _ H) as A. pose proof (lines_ends _ _ L) as E. clear L H. revert l A.
  induction ls as [|[b t] ls IH]; intros l A; cbn [map fst snd] in *; [exact A|]. apply all_uncons in A as (m & n & R & A & ->). inversion E; subst. apply all_cons; auto. now apply reads_around.
Qed.
Lemma splitlines_kept : forall s l p, clean p -> reads s l -> reads (concat (map (fun x => p ++ x) (splitlines true s))) l.
Proof.
  intros s l p C H. destruct (lines_of_exists s) as (ls & L). apply (prefixed_reads p s _ l C); [|exact H]. exists ls. split; [exact L|].
  destruct (lines_of_splitlines s ls L) as [-> _]. now rewrite map_map.
Qed.
Close Scope Z_scope.
