(** Greedy filling (C24) and styled text (C28). *)
From Verif Require Export WrapWords.
Open Scope Z_scope.

Section L.
Context `{U : Uni}.
Notation bl := Textwrap.blank.

(** Words with the gaps between them. *)
Fixpoint weave (gap : str -> str) (ws : list str) : list str :=
  match ws with
  | [] => []
  | [w] => [w]
  | w :: r => w :: gap w :: weave gap r
  end.
Lemma weave_cons : forall gap w x r, weave gap (w :: x :: r) = w :: gap w :: weave gap (x :: r).
Proof. reflexivity. Qed.
Lemma concat_weave : forall gap ws, concat (weave gap ws) = set_words gap ws.
Proof.
  induction ws as [|w [|x r] IH]; auto.
  - simpl. now rewrite app_nil_r.
  - rewrite weave_cons. cbn [concat]. rewrite IH. reflexivity.
Qed.
Definition plain_gap (gap : str -> str) : Prop := forall w, bl (gap w) = true /\ vlen (gap w) = len (gap w).
Lemma vsum_weave : forall gap ws, plain_gap gap -> vsum (weave gap ws) = line_len gap ws.
Proof.
  intros gap ws HG. induction ws as [|w [|x r] IH]; auto.
  - cbn [weave line_len]. rewrite vsum_cons. unfold vsum. simpl. lia.
  - rewrite weave_cons, !vsum_cons, IH. destruct (HG w) as [_ ->]. cbn [line_len]. lia.
Qed.

Lemma fill_weave : forall gap, plain_gap gap -> forall ws w width cur rcur, cur + vlen w <= width ->
  exists g rest, w :: ws = g ++ rest /\ g <> [] /\ cur + line_len gap g <= width
  /\ match rest with
     | [] => fill width cur rcur (weave gap (w :: ws)) = (rev (weave gap g) ++ rcur, cur + line_len gap g, [])
     | x :: _ =>
         let G := gap (last g []) in
         cur + line_len gap g + len G + vlen x > width /\
         (fill width cur rcur (weave gap (w :: ws)) = (rev (weave gap g) ++ rcur, cur + line_len gap g, G :: weave gap rest)
          \/ fill width cur rcur (weave gap (w :: ws)) = (G :: rev (weave gap g) ++ rcur, cur + line_len gap g + len G, weave gap rest))
     end.
Proof.
  intros gap HG. induction ws as [|x ws IH]; intros w width cur rcur HC.
  - exists [w], []. repeat split; auto; [discriminate|]. simpl.
    replace (cur + vlen w <=? width) with true by (symmetry; lia). reflexivity.
  - rewrite weave_cons. cbn [fill]. replace (cur + vlen w <=? width) with true by (symmetry; lia).
    destruct (HG w) as [_ VG]. rewrite VG.
    destruct (Z.leb_spec (cur + vlen w + len (gap w)) width) as [L|L].
    + destruct (Z_le_gt_dec (cur + vlen w + len (gap w) + vlen x) width) as [L2|L2].
      * destruct (IH x width (cur + vlen w + len (gap w)) (gap w :: w :: rcur) L2) as (g & rest & E & GN & GL & GR).
        destruct g as [|x' g]; [congruence|]. injection E as <- E.
        exists (w :: x :: g), rest. split; [simpl; now rewrite E|]. split; [discriminate|].
        cbn [line_len]. change (match g with [] => vlen x | _ :: _ => vlen x + len (gap x) + line_len gap g end) with (line_len gap (x :: g)).
        split; [lia|].
        replace (cur + (vlen w + len (gap w) + line_len gap (x :: g))) with (cur + vlen w + len (gap w) + line_len gap (x :: g)) by lia.
        rewrite weave_cons. cbn [rev]. rewrite <- !app_assoc. cbn [app].
        change (last (w :: x :: g) []) with (last (x :: g) ([] : str)). exact GR.
      * exists [w], (x :: ws). split; auto. split; [discriminate|]. cbn [line_len last]. split; [lia|].
        split; [lia|]. right. cbn [weave rev app]. 
        replace (fill width (cur + vlen w + len (gap w)) (gap w :: w :: rcur) match ws with [] => [x] | _ :: _ => x :: gap x :: weave gap ws end)
          with (fill width (cur + vlen w + len (gap w)) (gap w :: w :: rcur) (weave gap (x :: ws))) by reflexivity.
        destruct ws as [|y ws]; [cbn [weave]|rewrite weave_cons]; cbn [fill];
          replace (cur + vlen w + len (gap w) + vlen x <=? width) with false by (symmetry; lia); reflexivity.
    + exists [w], (x :: ws). split; auto. split; [discriminate|]. cbn [line_len last]. split; [lia|].
      split; [pose proof (vlen_nonneg x); lia|]. left. reflexivity.
Qed.

Definition nonblank (ws : list str) : Prop := Forall (fun w : str => bl w = false) ws.

(** Taking one line off the words. *)
Lemma weave_last : forall gap g, g <> [] -> exists r, rev (weave gap g) = last g [] :: r.
Proof.
  induction g as [|w g IH]; intros; [congruence|]. destruct g as [|x g].
  - exists []. reflexivity.
  - destruct IH as [r E]; [discriminate|]. rewrite weave_cons. cbn [rev]. rewrite E.
    exists ((r ++ [gap w]) ++ [w]). reflexivity.
Qed.
Lemma last_In : forall A (l : list A) d, l <> [] -> In (last l d) l.
Proof.
  induction l as [|x l IH]; intros; [congruence|]. destruct l as [|y l]; [left; auto|].
  right. apply (IH d). discriminate.
Qed.
Lemma weave_head : forall gap w ws, exists r, weave gap (w :: ws) = w :: r.
Proof. intros. destruct ws as [|x ws]; [exists []|exists (gap w :: weave gap (x :: ws))]; reflexivity. Qed.

Lemma line_of_weave : forall cfg gap rl chunks w ws, plain_gap gap -> w_drop cfg = true ->
  nonblank (w :: ws) -> Forall (fun x : str => vlen x <= avail cfg rl) (w :: ws) ->
  1 <= avail cfg rl ->
  drop_first cfg rl chunks = weave gap (w :: ws) ->
  exists g rest chunks3, w :: ws = g ++ rest /\ g <> [] /\ line_len gap g <= avail cfg rl
    /\ match rest with [] => True | x :: _ => line_len gap g + len (gap (last g [])) + vlen x > avail cfg rl end
    /\ (exists cur4, line_of cfg rl chunks = (rev (weave gap g), cur4, chunks3))
    /\ (chunks3 = weave gap rest \/ (rest <> [] /\ exists b, bl b = true /\ chunks3 = b :: weave gap rest)).
Proof.
  intros cfg gap rl chunks w ws HG HD HN HL HA HF.
  assert (HW : 0 + vlen w <= avail cfg rl) by (inversion HL; lia).
  destruct (fill_weave gap HG ws w (avail cfg rl) 0 [] HW) as (g & rest & E & GN & GL & GR).
  simpl in GL. rewrite app_nil_r in GR. 
  assert (BL : bl (last g []) = false).
  { unfold nonblank in HN. rewrite Forall_forall in HN. apply HN. rewrite E. apply in_or_app. left. now apply last_In. }
  assert (DL : forall c, drop_last cfg (rev (weave gap g)) c = (rev (weave gap g), c)).
  { intros c. destruct (weave_last gap g GN) as [r ->]. unfold drop_last. rewrite BL, andb_false_r. reflexivity. }
  assert (DL2 : forall b c, bl b = true -> drop_last cfg (b :: rev (weave gap g)) c = (rev (weave gap g), c - vlen b)).
  { intros b c HB. unfold drop_last. rewrite HD, HB. reflexivity. }
  destruct rest as [|x rest].
  - exists g, [], []. repeat split; auto. eexists. unfold line_of. rewrite HF, GR. cbn [long_part].
    rewrite DL. reflexivity.
  - cbv zeta in GR. destruct GR as [GX GR]. simpl in GX.
    assert (HX : vlen x <= avail cfg rl).
    { rewrite Forall_forall in HL. apply HL. rewrite E. apply in_or_app. right. now left. }
    set (G := gap (last g [])) in *. destruct (HG (last g [])) as [BG VG]. fold G in BG, VG.
    destruct GR as [GR|GR].
    + assert (LP : exists b ch3 c3, bl b = true /\ ch3 = b :: weave gap (x :: rest) /\
         (long_part cfg (avail cfg rl) (rev (weave gap g)) (0 + line_len gap g) (G :: weave gap (x :: rest)) = (ch3, rev (weave gap g), c3)
          \/ exists b', bl b' = true /\ long_part cfg (avail cfg rl) (rev (weave gap g)) (0 + line_len gap g) (G :: weave gap (x :: rest)) = (ch3, b' :: rev (weave gap g), c3))).
      { unfold long_part. destruct (vlen G >? avail cfg rl).
        - destruct (w_blw cfg) eqn:B.
          + destruct (handle_long_cut cfg G (weave gap (x :: rest)) (rev (weave gap g)) (0 + line_len gap g) (avail cfg rl) B) as (e & -> & _).
            exists (slice_from e G). pose proof BG as BG'. apply blank_all_space in BG'.
            rewrite <- (slice_app e G), all_space_app in BG'. apply andb_true_iff in BG' as [S1 S2].
            do 2 eexists. split; [now apply blank_all_space|]. split; [reflexivity|]. right.
            exists (slice_to e G). split; [now apply blank_all_space|reflexivity].
          + unfold handle_long_word. rewrite B. destruct (weave_last gap g GN) as [r ER]. rewrite ER.
            exists G. do 2 eexists. split; [exact BG|]. split; [reflexivity|]. left. reflexivity.
        - exists G. do 2 eexists. split; [exact BG|]. split; [reflexivity|]. left. reflexivity. }
      destruct LP as (b & ch3 & c3 & BB & E3 & LP).
      exists g, (x :: rest), ch3. repeat split; auto.
      * destruct LP as [LP|(b' & BB' & LP)]; eexists; unfold line_of; rewrite HF, GR, LP.
        -- rewrite DL. reflexivity.
        -- rewrite DL2 by auto. reflexivity.
      * right. split; [discriminate|]. eauto.
    + exists g, (x :: rest), (weave gap (x :: rest)). repeat split; auto.
      eexists. unfold line_of. rewrite HF, GR.
      assert (LP : forall r c, long_part cfg (avail cfg rl) r c (weave gap (x :: rest)) = (weave gap (x :: rest), r, c)).
      { intros r c. destruct (weave_head gap x rest) as [t ->]. unfold long_part.
        replace (vlen x >? avail cfg rl) with false by (symmetry; lia). reflexivity. }
      rewrite LP, DL2 by auto. reflexivity.
Qed.

Lemma wrap_loop_greedy : forall cfg gap, plain_gap gap -> w_drop cfg = true -> w_max_lines cfg = None ->
  len (w_init cfg) < w_width cfg -> len (w_subs cfg) < w_width cfg ->
  forall fuel ws rl chunks lines, nonblank ws ->
  Forall (fun w : str => vlen w <= w_width cfg - len (w_init cfg) /\ vlen w <= w_width cfg - len (w_subs cfg)) ws ->
  drop_first cfg rl chunks = weave gap ws -> 
  (chunks = [] -> ws = []) -> (ws = [] -> chunks = []) ->
  wrap_loop cfg fuel rl chunks = Ok lines ->
  exists groups, concat groups = ws
    /\ lines = rev rl ++ set_lines gap (indent_of cfg rl) (w_subs cfg) groups
    /\ filled gap (avail cfg rl) (w_width cfg - len (w_subs cfg)) groups.
Proof.
  intros cfg gap HG HD HM HI HS. induction fuel as [|fuel IH]; intros ws rl chunks lines HN HL HF HC1 HC2 H.
  - destruct chunks; simpl in H; inversion H. exists []. rewrite HC1 by auto. simpl. now rewrite app_nil_r.
  - destruct chunks as [|c ch].
    { simpl in H; inversion H. exists []. rewrite HC1 by auto. simpl. now rewrite app_nil_r. }
    destruct ws as [|w ws]; [specialize (HC2 eq_refl); discriminate|].
    assert (HA : 1 <= avail cfg rl) by (unfold avail, indent_of; destruct rl; lia).
    assert (HL' : Forall (fun x : str => vlen x <= avail cfg rl) (w :: ws)).
    { eapply Forall_impl; [|exact HL]. intros a [L1 L2]. unfold avail, indent_of. destruct rl; auto. }
    destruct (line_of_weave cfg gap rl (c :: ch) w ws HG HD HN HL' HA HF) as (g & rest & ch3 & E & GN & GL & GX & (cur4 & LO) & G3).
    cbn [wrap_loop] in H. rewrite wrap_step_eq, LO in H.
    destruct (weave_last gap g GN) as [r ER]. rewrite ER in H. rewrite <- ER in H. cbv zeta in H. rewrite HM in H. cbn iota in H.
    rewrite rev_involutive in H.
    rewrite E in HN, HL. unfold nonblank in HN. apply Forall_app in HN as [_ HN]. apply Forall_app in HL as [_ HL].
    set (l := indent_of cfg rl ++ concat (weave gap g)) in *.
    assert (S1 : drop_first cfg (l :: rl) ch3 = weave gap rest).
    { destruct G3 as [-> |(RN & b & BB & ->)].
      - destruct rest as [|x rest]; auto. destruct (weave_head gap x rest) as [t EW]. rewrite EW. cbn [drop_first].
        inversion HN; subst. rewrite H2, andb_false_r. reflexivity.
      - cbn [drop_first]. rewrite HD, BB. reflexivity. }
    destruct (IH rest (l :: rl) ch3 lines) as (groups & E1 & E2 & E3); auto.
    + intros ->. destruct G3 as [G3|(RN & b & BB & C)]; [|discriminate].
      destruct rest as [|x rest]; auto. destruct (weave_head gap x rest) as [t EW]. rewrite EW in G3. discriminate.
    + intros ->. destruct G3 as [G3|(RN & _)]; [auto|congruence].
    + exists (g :: groups). split; [simpl; now rewrite E1|]. split.
      * rewrite E2. cbn [rev set_lines indent_of]. rewrite <- app_assoc. cbn [app]. f_equal. f_equal.
        unfold l. now rewrite concat_weave.
      * cbn [filled]. split; auto. split; auto. split.
        -- destruct groups as [|[|x g2] gs]; auto. cbn [concat app] in E1. rewrite <- E1 in GX. exact GX.
        -- exact E3.
Qed.

(** ** The chunks of single-spaced words *)
Lemma word_tw : forall w, is_word_str w -> forallb (fun x => Bool.eqb (tw_space x) false) w = true.
Proof.
  intros w [_ H]. apply forallb_forall. intros x Hx. destruct (tw_space x) eqn:E; auto.
  apply tw_space_is_space in E. rewrite H in E; auto.
Qed.
Lemma word_nonblank : forall w, is_word_str w -> bl w = false.
Proof.
  intros w [HN H]. destruct (bl w) eqn:E; auto. apply blank_all_space in E.
  destruct w as [|c w]; [congruence|]. simpl in E. rewrite (H c) in E by (left; auto). discriminate.
Qed.
Lemma expandtabs_id : forall t s col, ~ In 9%N s -> expandtabs_from t col s = s.
Proof.
  induction s as [|c s IH]; simpl; intros col H; auto.
  destruct (N.eqb_spec c 9) as [-> |]; [tauto|]. destruct (_ || _); rewrite IH; tauto.
Qed.
Lemma join_In : forall sep l x, In x (join sep l) -> In x sep \/ exists w, In w l /\ In x w.
Proof.
  induction l as [|a [|b r] IH]; intros x H.
  - destruct H.
  - right. exists a. simpl. auto.
  - change (join sep (a :: b :: r)) with (a ++ sep ++ join sep (b :: r)) in H.
    rewrite !in_app_iff in H. destruct H as [H|[H|H]]; auto.
    + right. exists a. simpl; auto.
    + destruct (IH x H) as [C|(w & C1 & C2)]; auto. right. exists w. simpl in *. tauto.
Qed.
Lemma munge_join : forall cfg ws, Forall is_word_str ws -> munge cfg (join (lit " ") ws) = join (lit " ") ws.
Proof.
  intros cfg ws HW. 
  assert (A : forall x, In x (join (lit " ") ws) -> tw_space x = true -> x = 32%N).
  { intros x HX HT. apply join_In in HX as [HX|(w & H1 & H2)].
    - destruct HX as [HX|[]]; auto.
    - rewrite Forall_forall in HW. destruct (HW _ H1) as [_ HS]. apply tw_space_is_space in HT.
      rewrite HS in HT; auto. discriminate. }
  unfold munge.
  assert (E : (if w_expand cfg then expandtabs (w_tabsize cfg) (join (lit " ") ws) else join (lit " ") ws) = join (lit " ") ws).
  { destruct (w_expand cfg); auto. apply expandtabs_id. intros C. apply A in C; [discriminate|reflexivity]. }
  rewrite E. destruct (w_replace cfg); auto. rewrite <- (map_id (join (lit " ") ws)) at 2.
  apply map_ext_in. intros x HX. destruct (tw_space x) eqn:T; auto. symmetry. auto.
Qed.
Lemma split_join : forall cl ws pre, Forall is_word_str ws -> unhyph cl (join (lit " ") ws) ->
  split_go cl 0 pre (join (lit " ") ws) = weave (fun _ => lit " ") ws.
Proof.
  induction ws as [|w [|x r] IH]; intros pre HW HU; auto.
  - inversion HW; subst. simpl join in *.
    rewrite <- (app_nil_r w). rewrite (split_first cl false w [] pre); auto.
    + simpl. now rewrite app_nil_r.
    + now rewrite app_nil_r.
    + apply H1.
    + now apply word_tw.
  - inversion HW; subst. change (join (lit " ") (w :: x :: r)) with (w ++ lit " " ++ join (lit " ") (x :: r)) in *.
    rewrite (split_first cl false w); [|auto|apply H1|now apply word_tw|reflexivity].
    rewrite weave_cons. f_equal. apply unhyph_app_r in HU.
    rewrite (split_first cl true (lit " ")); auto; [|discriminate|].
    + f_equal. apply IH; auto. now apply unhyph_app_r in HU.
    + inversion H2; subst. assert (exists c t, join (lit " ") (x :: r) = c :: t /\ In c x) as (c & t & -> & HX).
      { destruct H3 as [XN _]. destruct x as [|c x]; [congruence|]. destruct r as [|l r]; [exists c, x|exists c, (x ++ lit " " ++ join (lit " ") (l :: r))];
          (split; [reflexivity|left; auto]). }
      apply word_tw in H3. rewrite forallb_forall in H3. specialize (H3 _ HX). now apply Bool.eqb_prop in H3.
Qed.
Lemma fix_se_weave : forall cfg ws, Forall is_word_str ws -> w_fixse cfg = true ->
  fix_se (weave (fun _ => lit " ") ws) = weave (word_gap cfg) ws.
Proof.
  intros cfg ws HW HF. induction ws as [|w [|x r] IH]; auto.
  inversion HW; subst. rewrite !weave_cons. cbn [fix_se]. rewrite seqb_refl. cbn [andb].
  unfold word_gap at 1. rewrite HF. cbn [andb].
  destruct (sent_end w).
  - f_equal. f_equal. auto.
  - f_equal. destruct (weave_head (fun _ => lit " ") x r) as [t ET]. 
    specialize (IH H2). rewrite ET in *.
    replace (seqb x (lit " ")) with false.
    2:{ symmetry. destruct (seqb x (lit " ")) eqn:E; auto. apply seqb_eq in E. subst. inversion H2; subst.
        destruct H3 as [_ HS]. specialize (HS 32%N (or_introl eq_refl)). discriminate. }
    cbn [andb]. f_equal. exact IH.
Qed.
Lemma text_chunks_join : forall cfg ws, Forall is_word_str ws ->
  (w_boh_true cfg = false \/ Forall (fun w : str => ~ In hyphen w) ws) ->
  text_chunks cfg (join (lit " ") ws) = weave (word_gap cfg) ws.
Proof.
  intros cfg ws HW HH. rewrite text_chunks_split. unfold split_chunks. rewrite munge_join by auto.
  rewrite split_join; auto.
  - destruct (w_fixse cfg) eqn:E.
    + now apply fix_se_weave.
    + clear HW HH. induction ws as [|w [|x r] IH]; auto. rewrite !weave_cons, IH. unfold word_gap at 2. now rewrite E.
  - destruct (w_boh_true cfg); [|left; auto]. right. split; auto. destruct HH as [|HH]; [congruence|].
    intros C. apply join_In in C as [[C|[]]|(w & C1 & C2)]; [discriminate|]. rewrite Forall_forall in HH. eapply HH; eauto.
Qed.
Lemma word_gap_plain : forall cfg, plain_gap (word_gap cfg).
Proof. intros cfg w. unfold word_gap. destruct (w_fixse cfg && sent_end w); split; reflexivity. Qed.

Lemma sent_end_iff : forall w, sent_end w = true <->
  exists x l p q, w = x ++ [l; p] ++ q /\ is_lower_ascii l = true /\ sent_punct p = true
    /\ (q = [] \/ exists c, q = [c] /\ sent_quote c = true).
Proof.
  intros w. unfold sent_end. split.
  - intros H. pose proof (rev_involutive w) as E. destruct (rev w) as [|a [|b r]]; try discriminate.
    apply orb_true_iff in H as [H|H].
    + apply andb_true_iff in H as [H1 H2]. exists (rev r), b, a, []. repeat split; auto.
      rewrite <- E. simpl. rewrite <- app_assoc. reflexivity.
    + apply andb_true_iff in H as [H H3]. apply andb_true_iff in H as [H1 H2]. destruct r as [|c r]; [discriminate|].
      exists (rev r), c, b, [a]. repeat split; auto; [|right; eauto].
      rewrite <- E. simpl. rewrite <- !app_assoc. reflexivity.
  - intros (x & l & p & q & -> & H1 & H2 & [-> |(c & -> & H3)]).
    + rewrite app_nil_r, rev_app_distr. simpl. rewrite H1, H2. reflexivity.
    + rewrite rev_app_distr. simpl. rewrite H1, H2, H3. now rewrite orb_true_r.
Qed.

(** ** Styled text breaks like plain text *)
Definition st (s p : str) : Prop := styled s p /\ bl s = bl p.
Lemma styled_vlen : forall s p, styled s p -> no_esc p -> vlen s = vlen p.
Proof. intros s p H N. rewrite (vlen_no_esc p N). unfold vlen. now rewrite (styled_strip _ _ H). Qed.
Lemma styled_no_esc : forall s p, styled s p -> no_esc p.
Proof.
  intros s p H. induction H; intros C; try (destruct C); auto.
Qed.
Lemma st_vlen : forall s p, st s p -> vlen s = vlen p.
Proof. intros s p [H _]. apply styled_vlen; auto. eapply styled_no_esc; eauto. Qed.
Lemma st_vsum : forall l m, Forall2 st l m -> vsum l = vsum m.
Proof. intros l m H. induction H; auto. rewrite !vsum_cons, IHForall2, (st_vlen _ _ H). reflexivity. Qed.
Lemma st_styled : forall l m, Forall2 st l m -> Forall2 styled l m.
Proof. intros l m H. induction H; constructor; auto. apply H. Qed.

Lemma fill_st : forall l m, Forall2 st l m -> forall width cur r q, Forall2 st r q ->
  exists r' q' cur' l' m', fill width cur r l = (r', cur', l') /\ fill width cur q m = (q', cur', m')
    /\ Forall2 st r' q' /\ Forall2 st l' m'.
Proof.
  intros l m H. induction H as [|a b l m H HF IH]; intros width cur r q HR.
  - exists r, q, cur, [], []. auto.
  - cbn [fill]. rewrite (st_vlen _ _ H). destruct (cur + vlen b <=? width).
    + apply IH. constructor; auto.
    + exists r, q, cur, (a :: l), (b :: m). auto.
Qed.

Definition short (cfg : wcfg) (l : list str) : Prop :=
  w_blw cfg = false \/ Forall (fun c : str => vlen c <= w_width cfg - len (w_init cfg) /\ vlen c <= w_width cfg - len (w_subs cfg)) l.
Lemma short_tl : forall cfg a b, short cfg (a ++ b) -> short cfg b.
Proof. intros cfg a b [H|H]; [left; auto|right]. now apply Forall_app in H as [_ H]. Qed.

Lemma Forall2_rev' : forall A B (R : A -> B -> Prop) l m, Forall2 R l m -> Forall2 R (rev l) (rev m).
Proof. induction 1; simpl; auto. apply Forall2_app; auto. Qed.
Lemma Forall2_nil_iff : forall A B (R : A -> B -> Prop) l m, Forall2 R l m -> l = [] <-> m = [].
Proof. intros. inversion H; subst; split; auto; discriminate. Qed.

Lemma line_of_st : forall cfg rl rl' l m, (rl = [] <-> rl' = []) -> Forall2 st l m -> short cfg l ->
  exists r q cur ch ch', line_of cfg rl l = (r, cur, ch) /\ line_of cfg rl' m = (q, cur, ch')
    /\ Forall2 st r q /\ Forall2 st ch ch' /\ short cfg ch.
Proof.
  intros cfg rl rl' l m HR HL HS. unfold line_of.
  assert (EI : indent_of cfg rl' = indent_of cfg rl).
  { unfold indent_of. destruct rl, rl'; auto; exfalso.
    - assert (s :: rl' = []) by (now apply HR). discriminate.
    - assert (s :: rl = []) by (now apply HR). discriminate. }
  assert (EA : avail cfg rl' = avail cfg rl) by (unfold avail; now rewrite EI).
  rewrite EA.
  assert (HD : Forall2 st (drop_first cfg rl l) (drop_first cfg rl' m)).
  { unfold drop_first. inversion HL as [|a b l1 m1 H1 H2]; subst; [constructor|].
    destruct rl, rl'; auto; [exfalso; assert (s :: rl' = []) by (now apply HR); discriminate
                            |exfalso; assert (s :: rl = []) by (now apply HR); discriminate|].
    destruct H1 as [H1 EB]. rewrite EB. destruct (w_drop cfg && bl b); auto. }
  assert (HS1 : short cfg (drop_first cfg rl l)).
  { destruct (drop_first_spec cfg rl l) as (pre & E & _). rewrite E in HS. now apply short_tl in HS. }
  destruct (fill_st _ _ HD (avail cfg rl) 0 [] [] (Forall2_nil _)) as (r' & q' & cur' & l' & m' & F1 & F2 & R1 & R2).
  rewrite F1, F2.
  destruct (fill_spec _ _ _ _ _ _ _ F1) as (taken & E2 & E3 & _).
  assert (HS2 : short cfg l') by (rewrite E2 in HS1; now apply short_tl in HS1).
  assert (LP : exists ch ch' r3 q3 c3, long_part cfg (avail cfg rl) r' cur' l' = (ch, r3, c3)
     /\ long_part cfg (avail cfg rl) q' cur' m' = (ch', q3, c3) /\ Forall2 st ch ch' /\ Forall2 st r3 q3 /\ short cfg ch).
  { unfold long_part. inversion R2 as [|a b l1 m1 H1 H2]; subst l' m'.
    - exists [], [], r', q', cur'. auto.
    - rewrite (st_vlen _ _ H1). destruct (vlen b >? avail cfg rl) eqn:LG.
      + destruct HS2 as [B|HS2].
        * unfold handle_long_word. rewrite B. destruct R1 as [|x y r1 q1 X Y].
          -- exists l1, m1, [a], [b], (vsum [a]). split; [reflexivity|].
             split; [unfold vsum; simpl; now rewrite (st_vlen _ _ H1)|]. split; [auto|]. split; [constructor; auto|left; auto].
          -- exists (a :: l1), (b :: m1), (x :: r1), (y :: q1), (vsum (x :: r1)). split; [reflexivity|].
             split; [|split; [constructor; auto|split; [constructor; auto|left; auto]]].
             now rewrite (st_vsum (x :: r1) (y :: q1)) by (constructor; auto).
        * exfalso. inversion HS2 as [|? ? [L1 L2] _]; subst. rewrite (st_vlen _ _ H1) in L1, L2.
          unfold avail, indent_of in LG. destruct rl; lia.
      + exists (a :: l1), (b :: m1), r', q', cur'. repeat split; auto. }
  destruct LP as (ch & ch' & r3 & q3 & c3 & LP1 & LP2 & R3 & R4 & HS3). rewrite LP1, LP2.
  unfold drop_last. inversion R4 as [|a b r4 q4 H1 H2]; subst r3 q3.
  - exists [], [], c3, ch, ch'. auto.
  - pose proof H1 as [_ EB]. rewrite EB, (st_vlen _ _ H1). destruct (w_drop cfg && bl b).
    + do 5 eexists. split; [reflexivity|]. split; [reflexivity|]. auto.
    + do 5 eexists. split; [reflexivity|]. split; [reflexivity|]. auto.
Qed.

Lemma wrap_loop_st : forall cfg, w_max_lines cfg = None -> no_esc (w_init cfg) -> no_esc (w_subs cfg) ->
  forall fuel rl rl' l m lines, Forall2 styled rl rl' -> Forall2 st l m -> short cfg l ->
  wrap_loop cfg fuel rl' m = Ok lines ->
  exists lines', wrap_loop cfg fuel rl l = Ok lines' /\ Forall2 styled lines' lines.
Proof.
  intros cfg HM HI HSb. induction fuel as [|fuel IH]; intros rl rl' l m lines HR HL HS H.
  - inversion HL; subst; simpl in *; inversion H. eexists. split; [reflexivity|]. now apply Forall2_rev'.
  - inversion HL as [|a b l1 m1 H1 H2]; subst.
    + simpl in *. inversion H. eexists. split; [reflexivity|]. now apply Forall2_rev'.
    + destruct (line_of_st cfg rl rl' (a :: l1) (b :: m1) (Forall2_nil_iff _ _ _ _ _ HR) HL HS)
        as (r & q & cur & ch & ch' & L1 & L2 & R1 & R2 & HS').
      cbn [wrap_loop] in *. rewrite wrap_step_eq, L2 in H. rewrite wrap_step_eq, L1.
      assert (EI : indent_of cfg rl' = indent_of cfg rl) by (unfold indent_of; inversion HR; auto).
      destruct R1 as [|x y r q X Y]; cbv zeta in *.
      * eapply IH; eauto.
      * rewrite HM in *. eapply IH; [|exact R2|exact HS'|exact H]. constructor; auto. rewrite EI.
        apply styled_app; [apply styled_plain; unfold indent_of; destruct rl; auto|].
        apply styled_concat, Forall2_rev', st_styled. constructor; auto.
Qed.

Lemma styled_length : forall s p, styled s p -> (length p <= length s)%nat.
Proof. induction 1; simpl; auto; try lia. rewrite app_length. simpl. lia. Qed.
Lemma weight_st : forall l m, Forall2 st l m -> (weight m <= weight l)%nat.
Proof.
  induction 1; simpl; auto. destruct H as [H _]. apply styled_length in H. lia.
Qed.

Lemma wrap_chunks_st : forall cfg l m, w_max_lines cfg = None -> no_esc (w_init cfg) -> no_esc (w_subs cfg) ->
  Forall2 st l m -> short cfg l ->
  (w_blw cfg = false \/ (len (w_init cfg) <= w_width cfg /\ len (w_subs cfg) <= w_width cfg)) ->
  match wrap_chunks cfg m with
  | Ok lines => exists lines', wrap_chunks cfg l = Ok lines' /\ Forall2 styled lines' lines
  | Err e => wrap_chunks cfg l = Err e
  end.
Proof.
  intros cfg l m HM HI HS HL HSh HT. unfold wrap_chunks. rewrite !wrap_fuel_weight.
  destruct (rejected_dec cfg) as [R|R].
  - rewrite !wrap_chunks_rejected by auto. reflexivity.
  - rewrite !wrap_chunks_accepted by auto.
    destruct (wrap_loop_terminates cfg HT (S (weight m)) [] m ltac:(lia)) as [r E]. rewrite E.
    pose proof (weight_st _ _ HL).
    eapply wrap_loop_st; eauto. eapply wrap_loop_mono; [exact E|lia].
Qed.

Lemma st_weave : forall ws ps gap, Forall2 styled ws ps -> Forall is_word_str ws -> Forall is_word_str ps ->
  (forall w, gap w = lit " ") -> Forall2 st (weave gap ws) (weave gap ps).
Proof.
  intros ws ps gap H HW HP HG. revert HW HP. induction H as [|w p ws ps H HF IH]; intros HW HP; [constructor|].
  inversion HW; inversion HP; subst.
  assert (S : st w p) by (split; auto; rewrite !word_nonblank; auto).
  inversion HF; subst; [repeat constructor; apply S|].
  rewrite !weave_cons. constructor; auto. constructor; [|now apply IH].
  rewrite !HG. split; auto. repeat constructor; discriminate.
Qed.
Lemma styled_strip_all : forall l m, Forall2 styled l m -> map strip_esc l = m.
Proof. induction 1; simpl; auto. now rewrite (styled_strip _ _ H), IHForall2. Qed.
Lemma styled_text : forall cfg ws ps,
  w_max_lines cfg = None -> w_fixse cfg = false -> no_esc (w_init cfg) -> no_esc (w_subs cfg) ->
  len (w_init cfg) < w_width cfg -> len (w_subs cfg) < w_width cfg ->
  Forall2 styled ws ps -> Forall is_word_str ws -> Forall is_word_str ps ->
  (w_boh_true cfg = false \/ Forall (fun w : str => ~ In hyphen w) ws) ->
  (w_blw cfg = false \/ Forall (fun p : str => len p <= w_width cfg - len (w_init cfg) /\ len p <= w_width cfg - len (w_subs cfg)) ps) ->
  exists lines, wrap cfg (join (lit " ") ws) = Ok lines /\ wrap cfg (join (lit " ") ps) = Ok (map strip_esc lines).
Proof.
  intros cfg ws ps HM HX HI HS LI LS HF HW HP HH HL.
  assert (HH2 : w_boh_true cfg = false \/ Forall (fun w : str => ~ In hyphen w) ps).
  { destruct HH as [HH|HH]; [left; auto|right]. clear - HF HH. induction HF; constructor; inversion HH; subst; auto.
    intros C. apply H2. clear - H C. induction H; simpl in *; auto.
    - destruct C; auto.
    - right. right. apply in_or_app. right. right. auto. }
  unfold wrap. rewrite !text_chunks_join by auto.
  assert (G : forall w, word_gap cfg w = lit " ") by (intros; unfold word_gap; now rewrite HX).
  pose proof (st_weave ws ps (word_gap cfg) HF HW HP G) as R.
  assert (SH : short cfg (weave (word_gap cfg) ws)).
  { destruct HL as [HL|HL]; [left; auto|right]. clear - HF HL G LI LS.
    induction HF as [|w p ws ps H HF IH]; [constructor|]. inversion HL as [|? ? H1 H2]; subst.
    assert (V : vlen w = len p) by (unfold vlen; now rewrite (styled_strip _ _ H)). 
    inversion HF; subst; [repeat constructor; rewrite V; apply H1|].
    rewrite weave_cons. constructor; [rewrite V; auto|]. constructor; [|now apply IH].
    rewrite G. change (vlen (lit " ")) with 1. lia. }
  pose proof (wrap_chunks_st cfg _ _ HM HI HS R SH ltac:(right; lia)) as W.
  destruct (wrap_chunks cfg (weave (word_gap cfg) ps)) as [m|e] eqn:E.
  - destruct W as (l & W1 & W2). exists l. split; auto. now rewrite (styled_strip_all _ _ W2).
  - exfalso. unfold wrap_chunks in E. rewrite wrap_chunks_accepted in E.
    2:{ intros [C|(m & C & _)]; [pose proof (len_nonneg (w_init cfg)); lia|congruence]. }
    rewrite wrap_fuel_weight in E.
    destruct (wrap_loop_terminates cfg ltac:(right; lia) (S (weight (weave (word_gap cfg) ps))) [] (weave (word_gap cfg) ps) ltac:(lia)) as [r E2].
    rewrite E2 in E. discriminate.
Qed.
End L.
