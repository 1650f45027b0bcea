(** Layout and frames keep control sequences. *)
From Verif Require SetSpec JudgeFacts.
From Verif Require Import WrapFacts WrapLoop WrapWidth BaseFacts StrFacts LineFacts ElemFacts LayoutFacts.
From Verif Require Export TermRead.
Open Scope Z_scope.

Section L.
Context `{U : Uni}.

(** ** Pieces *)
Lemma pieces_all : forall ps pre l, (forall a b, ps = a ++ b -> a <> [] -> b <> [] -> apart (pre ++ concat a) (concat b)) -> reads (concat ps) l -> all_read ps l.
Proof.
  induction ps as [|p ps IH]; intros pre l A H.
  - apply clean_reads in H; [|exact clean_nil]. subst. apply all_nil.
  - destruct ps as [|q ps]; [cbn [concat] in H; rewrite app_nil_r in H; exists [l]; split; [repeat constructor; auto|apply app_nil_r]|].
    cbn [concat] in H. destruct (reads_break _ _ H p (concat (q :: ps)) eq_refl) as (l1 & l2 & R1 & R2 & ->).
    + destruct (A [p] (q :: ps) eq_refl) as [K|K]; [discriminate|discriminate|left|now right]. intros b c E. apply (K (pre ++ b) c). cbn [concat]. rewrite app_nil_r, E. apply app_assoc.
    + apply all_cons; [exact R1|]. apply (IH (pre ++ p)); [|exact R2]. intros a b E NA NB. specialize (A (p :: a) b). cbn [concat] in A. rewrite <- app_assoc. apply A; [now rewrite E|discriminate|exact NB].
Qed.
Lemma concat_ne : forall (ps : list str), Forall (fun p => p <> []) ps -> ps <> [] -> concat ps <> [].
Proof. intros [|p ps] H N; [contradiction|]. inversion H; subst. cbn [concat]. intros E. apply app_eq_nil in E as [E _]. contradiction. Qed.
Lemma cut_all : forall (P : str -> str -> Prop) s ps l, (forall b a, P b a -> apart b a) -> cut_at P s ps -> reads s l -> all_read ps l.
Proof.
  intros P s ps l A (E & NE & C) H. rewrite <- E in H. apply (pieces_all ps []); [|exact H]. intros a b EP NA NB. cbn [app]. apply A.
  assert (NEa : Forall (fun p : str => p <> []) a /\ Forall (fun p : str => p <> []) b) by (rewrite EP in NE; now apply Forall_app).
  apply (proj2 (C (concat a) (concat b) ltac:(rewrite <- E, EP; apply concat_app) (concat_ne _ (proj1 NEa) NA) (concat_ne _ (proj2 NEa) NB))). exists a, b. auto.
Qed.
Lemma space_apart : forall b a, space_break b a -> apart b a.
Proof. intros b a H. destruct H; [apply sep_apart_r|apply sep_apart_l]; now apply white_sep. Qed.
Lemma hyphen_apart : forall b a, hyphen_place b a -> apart b a.
Proof.
  intros b a H. destruct H as [b a H|b l r a|b x n y a T N W|b x n y a T N W]; [now apply space_apart| | |].
  - rewrite app_assoc. apply sep_apart_l, dash_sep.
  - destruct n as [|n]; [lia|]. cbn [repeat app]. apply sep_apart_r, dash_sep.
  - destruct n as [|n]; [lia|]. replace (b ++ x :: repeat dash (S n)) with ((b ++ x :: repeat dash n) ++ [dash]); [apply sep_apart_l, dash_sep|].
    rewrite <- app_assoc. cbn [app]. f_equal. f_equal. clear. induction n; cbn [repeat app]; [reflexivity|]. now rewrite IHn.
Qed.
Lemma tabs_skip : forall t x s col out, (forall c, In c x -> ~ In c [9; 10; 13]%N) -> tabs_out t col (x ++ s) out -> exists col' out', out = x ++ out' /\ tabs_out t col' s out'.
Proof.
  induction x as [|c x IH]; intros s col out N H; cbn [app] in *; [eauto|].
  assert (NC : ~ In c [9; 10; 13]%N) by (apply N; now left).
  inversion H; subst; try (elim NC; simpl; tauto; fail); try (elim NC; match goal with X : c = _ \/ c = _ |- _ => destruct X as [->| ->] end; simpl; tauto; fail).
  destruct (IH s (col + 1) out0) as (c' & o' & -> & T); [intros d I; apply N; now right|assumption|]. exists c', o'. auto.
Qed.
Lemma par_plain : forall c, par c = true -> ~ In c [9; 10; 13]%N.
Proof. intros c H [<-|[<-|[<-|[]]]]; discriminate. Qed.
Lemma tabs_reads : forall t s l, reads s l -> forall col out, tabs_out t col s out -> reads out l.
Proof.
  intros t s l H. induction H as [|c s l C H IH|ps s l P H IH]; intros col out T.
  - inversion T; subst. apply re_nil.
  - inversion T; subst; eauto; try (apply re_char; eauto; fail).
    change l with ([] ++ l). apply reads_app; [apply reads_clean, spaces_clean|eauto].
  - replace (27 :: 91 :: ps ++ 109 :: s)%N with ((27 :: 91 :: ps ++ [109]) ++ s)%N in T by (cbn [app]; rewrite <- app_assoc; reflexivity).
    apply tabs_skip in T.
    + destruct T as (c' & o' & -> & T). cbn [app]. rewrite <- app_assoc. apply re_esc; eauto.
    + intros c I. rewrite forallb_forall in P. destruct I as [<-|[<-|I]]; [simpl; intuition discriminate|simpl; intuition discriminate|].
      apply in_app_iff in I as [I|[<-|[]]]; [apply par_plain; auto|simpl; intuition discriminate].
Qed.
Lemma blanked_reads : forall s l, reads s l -> reads (map blanked s) l.
Proof.
  intros s l H. induction H as [|c s l C H IH|ps s l P H IH]; cbn [map]; [apply re_nil|apply re_char; auto|].
  - unfold blanked. destruct (existsb (N.eqb c) [9; 10; 11; 12; 13]%N); [discriminate|exact C].
  - rewrite map_app. cbn [map]. replace (map blanked ps) with ps; [apply re_esc; auto|].
    rewrite forallb_forall in P. clear -P. induction ps as [|c ps IH]; auto. cbn [map]. f_equal; [|apply IH; intros; apply P; now right].
    unfold blanked. destruct (existsb (N.eqb c) [9; 10; 11; 12; 13]%N) eqn:E; auto. specialize (P c (or_introl eq_refl)). apply existsb_exists in E as (d & I & E). apply N.eqb_eq in E. subst d. destruct I as [<-|[<-|[<-|[<-|[<-|[]]]]]]; discriminate.
Qed.
Lemma spaced_all : forall b ps qs, LayoutSpec.spaced b ps qs -> forall l, all_read ps l -> all_read qs l.
Proof.
  intros b ps qs H. induction H; intros m A; auto; apply all_uncons in A as (x & y & R & A & ->); apply all_cons; auto.
  apply clean_reads in R; [|vm_compute; intuition discriminate]. subst x. apply reads_clean. vm_compute. intuition discriminate.
Qed.
Lemma pieces_reads : forall cfg text qs l, SetSpec.text_pieces cfg text qs -> reads text l -> all_read qs l.
Proof.
  intros cfg text qs l (t & ps & T & C & S) H.
  assert (RT : reads t l) by (destruct (w_expand cfg); [exact (tabs_reads _ _ _ H _ _ T)|now subst]).
  assert (RB : reads (if w_replace cfg then map blanked t else t) l) by (destruct (w_replace cfg); [now apply blanked_reads|exact RT]).
  assert (RP : all_read ps l) by (eapply cut_all; [|exact C|exact RB]; destruct (w_boh_true cfg); [exact hyphen_apart|exact space_apart]).
  destruct (w_fixse cfg); [exact (spaced_all _ _ _ S _ RP)|now subst].
Qed.

(** ** Lines *)
(** Nothing with a sequence in it is cut. *)
Definition fit (cfg : wcfg) (ps : list str) : Prop :=
  w_blw cfg = false \/ forall q, In q ps -> clean q \/ (vlen q <= w_width cfg - len (w_init cfg) /\ vlen q <= w_width cfg - len (w_subs cfg)).
Lemma blank_clean : forall p, blank_piece p -> clean p.
Proof. intros p H. apply sep_clean. intros c I. apply space_sep. auto. Qed.
Lemma first_all : forall d ps qs l, without_first d ps qs -> all_read ps l -> all_read qs l.
Proof. intros d ps qs l H A. destruct H; auto. apply all_uncons in A as (x & y & R & A & ->). apply clean_reads in R; [|now apply blank_clean]. now subst x. Qed.
Lemma last_all : forall d ps qs l, without_last d ps qs -> all_read ps l -> all_read qs l.
Proof.
  intros d ps qs l H A. destruct H; auto. apply all_unapp in A as (x & y & A & B & ->). apply all_uncons in B as (u & v & R & B & ->). apply clean_reads in R; [|now apply blank_clean]. subst u.
  destruct B as (lls & F & <-). inversion F; subst. cbn [concat app]. now rewrite app_nil_r.
Qed.
Lemma a_line_all : forall cfg done ps on rest l, fit cfg ps -> a_line cfg done ps on rest -> all_read ps l ->
  exists m n, all_read on m /\ all_read rest n /\ l = m ++ n /\ fit cfg rest.
Proof.
  intros cfg done ps on rest l FI (ps1 & on1 & rest1 & on2 & A & (E & _) & O & L) H.
  assert (H1 : all_read ps1 l /\ fit cfg ps1).
  { destruct (0 <? Z.of_nat (length done)); [|now subst]. split; [exact (first_all _ _ _ _ A H)|]. destruct FI as [FI|FI]; [now left|right]. intros q I. apply FI. destruct A; auto. now right. }
  clear A H FI. destruct H1 as [H FI]. subst ps1. apply all_unapp in H as (m & n & HO & HR & ->).
  assert (FR : fit cfg rest1) by (destruct FI as [FI|FI]; [now left|right; intros q I; apply FI, in_app_iff; now right]).
  assert (K : exists m' n', all_read on2 m' /\ all_read rest n' /\ m ++ n = m' ++ n' /\ fit cfg rest).
  { destruct O as [on1|on1 p r V|on1 p r front back V B W|p r V B|on1 p r V B NE].
    - exists m, n. repeat split; auto.
    - exists m, n. repeat split; auto.
    - apply all_uncons in HR as (u & v & R & HR & ->).
      assert (CP : clean p).
      { destruct FR as [FR|FR]; [congruence|]. destruct (FR p (or_introl eq_refl)) as [C|[C1 C2]]; auto. exfalso. unfold indent in V. destruct done; lia. }
      apply clean_reads in R; auto. subst u. assert (EP : p = front ++ back) by (destruct W as [((_ & _ & EP & _) & _)|(_ & EP & _)]; exact EP). rewrite EP in CP. apply clean_app in CP as [CF CB].
      exists m, v. repeat split; auto.
      + rewrite <- (app_nil_r m). apply all_app; auto. apply all_clean. repeat constructor. exact CF.
      + change v with ([] ++ v). apply all_cons; auto. now apply reads_clean.
      + destruct FR as [FR|FR]; [now left|right]. intros q [<-|I]; [now left|]. apply FR. now right.
    - apply all_uncons in HR as (u & v & R & HR & ->). exists (m ++ u), v. repeat split; auto.
      + destruct HO as (lls & FA & <-). inversion FA; subst. cbn [concat app]. exists [u]. split; [repeat constructor; exact R|apply app_nil_r].
      + apply app_assoc.
      + now left.
    - exists m, n. repeat split; auto. }
  destruct K as (m' & n' & H2 & H3 & E2 & F2). exists m', n'. repeat split; auto. exact (last_all _ _ _ _ L H2).
Qed.
Lemma laid_all : forall cfg done ps lines, w_max_lines cfg = None -> clean (w_init cfg) -> clean (w_subs cfg) -> laid cfg done ps lines ->
  forall l m, fit cfg ps -> all_read done l -> all_read ps m -> all_read lines (l ++ m).
Proof.
  intros cfg done ps lines M CI CS H. induction H as [done|done ps rest lines N A L IH|done ps on rest lines N A NO WL L IH|done ps on rest lines N A NO WL]; intros l m F D P.
  - destruct P as (lls & FA & <-). inversion FA; subst. cbn [concat]. now rewrite app_nil_r.
  - destruct (a_line_all _ _ _ _ _ _ F A P) as (x & y & (lls & FA & <-) & HR & -> & FR). inversion FA; subst. cbn [concat app]. apply IH; auto.
  - destruct (a_line_all _ _ _ _ _ _ F A P) as (x & y & HO & HR & -> & FR). rewrite app_assoc. apply IH; auto. apply all_app; auto.
    exists [x]. split; [|apply app_nil_r]. repeat constructor. rewrite <- (app_nil_r (concat on)). apply reads_around; [unfold indent; destruct done; auto|exact clean_nil|now apply all_concat].
  - elim WL. unfold within_limit. now rewrite M.
Qed.
Lemma layout_all : forall cfg text lines l, w_max_lines cfg = None -> clean (w_init cfg) -> clean (w_subs cfg) ->
  (forall qs, SetSpec.text_pieces cfg text qs -> fit cfg qs) -> layout cfg text lines -> reads text l -> all_read lines l.
Proof.
  intros cfg text lines l M CI CS F (_ & _ & t & ps & qs & T & C & S & L) H.
  assert (TP : SetSpec.text_pieces cfg text qs) by (exists t, ps; auto).
  change l with ([] ++ l). eapply laid_all; [exact M|exact CI|exact CS|exact L|auto|exact all_nil|]. exact (pieces_reads _ _ _ _ TP H).
Qed.

(** ** Justified text *)
Lemma right_reads : forall w x y l, SetSpec.at_right w x y -> reads x l -> reads y l.
Proof. intros w x y l -> H. rewrite <- (app_nil_r x). apply reads_around; auto using spaces_clean, clean_nil. Qed.
Lemma centred_reads : forall w x y l, SetSpec.centred w x y -> reads x l -> reads y l.
Proof. intros w x y l [[_ ->]|(a & b & -> & _)] H; auto. apply reads_around; auto using spaces_clean. Qed.
Lemma interleave_reads : forall ws gs l, length ws = S (length gs) -> all_read ws l -> reads (JustSpec.interleave ws gs) l.
Proof.
  induction ws as [|w ws IH]; intros gs l E A; [discriminate|]. apply all_uncons in A as (x & y & R & A & ->). destruct gs as [|g gs]; cbn [JustSpec.interleave].
  - destruct ws; [|discriminate]. destruct A as (lls & FA & <-). inversion FA; subst. cbn [concat]. now rewrite app_nil_r.
  - apply reads_app; auto. change y with ([] ++ y). apply reads_app; [apply reads_clean, spaces_clean|]. apply IH; auto.
Qed.
Lemma spread_reads : forall w x y l, SetSpec.spread_to w x y -> reads x l -> reads y l.
Proof.
  intros w x y l H R. destruct H as [|NI|ws n gs NL E FA LW (LG & _)]; auto.
  apply strip_reads in R. rewrite E in R. apply (join_all 32%N) in R; [|now apply space_sep|destruct ws; discriminate].
  change l with ([] ++ l). apply reads_app; [apply reads_clean, spaces_clean|]. apply interleave_reads; [now rewrite LW, LG|exact R].
Qed.
Lemma but_last_all : forall (R : str -> str -> Prop) xs ys l, (forall x y m, R x y -> reads x m -> reads y m) -> JustSpec.all_but_last R xs ys -> all_read xs l -> all_read ys l.
Proof. intros R xs ys l H A. revert l. induction A; intros m K; auto. apply all_uncons in K as (a & b & K & J & ->). apply all_cons; eauto. Qed.
Lemma set_reads : forall cfg w text j y l, w_max_lines cfg = None -> clean (w_init cfg) -> clean (w_subs cfg) ->
  (j = lit "none" \/ forall qs, SetSpec.text_pieces (SetSpec.widened_to cfg w) text qs -> fit (SetSpec.widened_to cfg w) qs) ->
  SetSpec.set_text cfg w text j y -> reads text l -> reads y l.
Proof.
  intros cfg w text j y l M CI CS F H R.
  assert (K : forall ls, lit "none" <> j -> SetSpec.in_columns cfg w text ls -> all_read ls l).
  { intros ls N L. destruct F as [F|F]; [congruence|]. unfold SetSpec.in_columns in L. eapply layout_all; [| | |exact F|exact L|exact R]; assumption. }
  destruct H as [|ls L|ls ls' L A|ls ls' L A|ls ls' L A]; [exact R| | | |]; change [10%N] with nl; apply all_join; (assert (AL : all_read ls l) by (apply K; [discriminate|exact L])).
  - exact AL.
  - exact (all_change _ _ _ _ (right_reads w) A AL).
  - exact (all_change _ _ _ _ (centred_reads w) A AL).
  - exact (but_last_all _ _ _ _ (spread_reads w) A AL).
Qed.

(** ** Frames *)
Definition clean_borders (b : borders) : Prop := clean (bo_top b) /\ clean (bo_right b) /\ clean (bo_bottom b) /\ clean (bo_left b).
Lemma edge_clean : forall w b, clean b -> Forall clean (edge w b).
Proof. intros w b H. unfold edge. apply Forall_forall. intros x I. apply in_map_iff in I as (c & <- & I). intros K. apply repeat_spec in K. subst c. contradiction. Qed.
Lemma dressed_reads : forall page x ls out l, clean_borders (dr_border x) -> dressed page x ls out -> all_read ls l -> reads out l.
Proof.
  intros page x ls out l (T & R & B & L) (body & P & ->) H. apply reads_around; [apply newlines_clean|apply newlines_clean|].
  refine (prefixed_reads _ _ _ _ (spaces_clean _) P _). apply all_join. unfold framed.
  assert (ROW : forall n y m k, reads y m -> reads (bo_left (dr_border x) ++ spaces n ++ y ++ spaces k ++ bo_right (dr_border x)) m).
  { intros n y m k Y. rewrite app_assoc. apply reads_around; auto; [apply clean_app|apply clean_app]; auto using spaces_clean. }
  assert (PAD : forall n, all_read (repeat (bo_left (dr_border x) ++ spaces 0 ++ [] ++ spaces (line_width page - both (dr_margin x) - len (bo_left (dr_border x)) - len (bo_right (dr_border x)) - 0 - len (@nil N)) ++ bo_right (dr_border x)) n) []).
  { intros n. apply all_clean. apply Forall_forall. intros y I. apply repeat_spec in I. subst y. cbn [app]. rewrite !clean_app. auto using spaces_clean. }
  change l with ([] ++ l). apply all_app; [now apply all_clean, edge_clean|].
  change l with ([] ++ l). apply all_app; [apply PAD|].
  rewrite <- (app_nil_r l). apply all_app; [apply all_map; auto|].
  change (@nil str) with (@nil str ++ []). apply all_app; [apply PAD|now apply all_clean, edge_clean].
Qed.
Lemma rows_all : forall rows l, all_read rows l -> all_read (rows_of rows) l.
Proof. intros rows l H. unfold rows_of. now apply split_all, all_join. Qed.
Lemma finished_reads : forall g text l, reads text l -> reads (finished g text) l.
Proof.
  intros g text l H. unfold finished.
  assert (K : reads (newlines (sd_top (b_margin (g_box g))) ++ concat (map (fun l => spaces (sd_left (b_margin (g_box g))) ++ l) (splitlines true text)) ++ newlines (sd_bottom (b_margin (g_box g)))) l).
  { apply reads_around; [apply newlines_clean|apply newlines_clean|]. apply splitlines_kept; auto using spaces_clean. }
  cbv zeta. destruct (g_optimise g); [|exact K]. apply all_join. apply all_map; [exact rstrip_reads|]. now apply split_all.
Qed.
End L.
Close Scope Z_scope.
