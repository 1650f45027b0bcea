(** Facts about the wrapping loop. *)
From Verif Require Export WrapFacts.
Open Scope Z_scope.

Section L.
Context `{U : Uni}.
Notation bl := Textwrap.blank.

Lemma blank_all_space : forall s, bl s = true <-> all_space s = true.
Proof.
  intros. rewrite <- strip_nil. unfold Textwrap.blank. destruct (strip s); split; congruence.
Qed.
Lemma blank_nonspace : forall s, bl s = true -> nonspace s = [].
Proof. intros. now apply nonspace_all, blank_all_space. Qed.

(** ** The parts of one iteration *)
Definition indent_of (cfg : wcfg) (rl : list str) : str :=
  match rl with [] => w_init cfg | _ => w_subs cfg end.
Definition avail (cfg : wcfg) (rl : list str) : Z := w_width cfg - len (indent_of cfg rl).
Definition drop_first (cfg : wcfg) (rl chunks : list str) : list str :=
  match chunks, rl with
  | c :: rest, _ :: _ => if w_drop cfg && bl c then rest else chunks
  | _, _ => chunks
  end.
Definition long_part (cfg : wcfg) (width : Z) (rcur : list str) (cur_len : Z) (chunks2 : list str)
  : list str * list str * Z :=
  match chunks2 with
  | c :: _ =>
      if vlen c >? width
      then let '(ch, rc) := handle_long_word cfg chunks2 rcur cur_len width in (ch, rc, vsum rc)
      else (chunks2, rcur, cur_len)
  | [] => (chunks2, rcur, cur_len)
  end.
Definition drop_last (cfg : wcfg) (rcur3 : list str) (cur_len3 : Z) : list str * Z :=
  match rcur3 with
  | c :: rc => if w_drop cfg && bl c then (rc, cur_len3 - vlen c) else (rcur3, cur_len3)
  | [] => (rcur3, cur_len3)
  end.
Definition line_of (cfg : wcfg) (rl chunks : list str) : list str * Z * list str :=
  let width := avail cfg rl in
  let '(rcur, cur_len, chunks2) := fill width 0 [] (drop_first cfg rl chunks) in
  let '(chunks3, rcur3, cur_len3) := long_part cfg width rcur cur_len chunks2 in
  let '(rcur4, cur_len4) := drop_last cfg rcur3 cur_len3 in
  (rcur4, cur_len4, chunks3).

Lemma wrap_step_eq : forall cfg rl chunks,
  wrap_step cfg rl chunks =
  let '(rcur4, cur_len4, chunks3) := line_of cfg rl chunks in
  let indent := indent_of cfg rl in
  let width := avail cfg rl in
  match rcur4 with
  | [] => (rl, chunks3, false)
  | _ =>
      let ok :=
        match w_max_lines cfg with
        | None => true
        | Some m =>
            (Z.of_nat (length rl) + 1 <? m)
            || (match chunks3 with
                | [] => true
                | [c] => w_drop cfg && bl c
                | _ => false
                end && (cur_len4 <=? width))
        end in
      if ok then ((indent ++ concat (rev rcur4)) :: rl, chunks3, false)
      else match trunc cfg indent width cur_len4 rcur4 with
           | Some l => (l :: rl, chunks3, true)
           | None =>
               match rl with
               | last :: rl' =>
                   let prev := rstrip last in
                   if vlen prev + len (w_placeholder cfg) <=? w_width cfg
                   then ((prev ++ w_placeholder cfg) :: rl', chunks3, true)
                   else ((indent ++ lstrip (w_placeholder cfg)) :: rl, chunks3, true)
               | [] => ((indent ++ lstrip (w_placeholder cfg)) :: rl, chunks3, true)
               end
           end
  end.
Proof.
  intros. unfold wrap_step, line_of, long_part, drop_last, drop_first, avail, indent_of, vsum.
  destruct (fill _ 0 [] _) as [[rcur cur] chunks2].
  destruct chunks2 as [|c ch]; [|destruct (vlen c >? _); [destruct (handle_long_word _ _ _ _ _) as [ch' rc]|]].
  - destruct rcur as [|c rc]; auto. destruct (w_drop cfg && bl c); reflexivity.
  - destruct rc as [|c0 rc]; auto. destruct (w_drop cfg && bl c0); reflexivity.
  - destruct rcur as [|c0 rc]; auto. destruct (w_drop cfg && bl c0); reflexivity.
Qed.

Lemma fill_spec : forall chunks width cur rcur rcur' cur' chunks',
  fill width cur rcur chunks = (rcur', cur', chunks') ->
  exists taken, chunks = taken ++ chunks' /\ rcur' = rev taken ++ rcur /\ cur' = cur + vsum taken
    /\ (cur <= width -> cur' <= width)
    /\ match chunks' with c :: _ => cur' + vlen c > width | [] => True end.
Proof.
  induction chunks as [|c chunks IH]; simpl; intros width cur rcur rcur' cur' chunks' H.
  - inversion H; subst. exists []. simpl. repeat split; auto. unfold vsum. simpl. lia.
  - destruct (cur + vlen c <=? width) eqn:E.
    + destruct (IH _ _ _ _ _ _ H) as (t & -> & -> & -> & H1 & H2). exists (c :: t).
      simpl. rewrite <- app_assoc. repeat split; auto.
      * rewrite vsum_cons. lia.
      * intros _. apply H1. lia.
    + inversion H; subst. exists []. simpl. repeat split; auto; [unfold vsum; simpl; lia| lia].
Qed.

Lemma slice_app : forall e s, slice_to e s ++ slice_from e s = s.
Proof. intros. apply firstn_skipn. Qed.

Lemma handle_long_concat : forall cfg chunks rcur cur width ch rc,
  handle_long_word cfg chunks rcur cur width = (ch, rc) ->
  concat (rev rc) ++ concat ch = concat (rev rcur) ++ concat chunks.
Proof.
  intros cfg [|c rest] rcur cur width ch rc H; unfold handle_long_word in H.
  - inversion H; subst; auto.
  - destruct (w_blw cfg).
    + inversion H; subst; clear H. simpl rev. rewrite concat_app. cbn [concat]. rewrite app_nil_r, <- app_assoc.
      f_equal. rewrite app_assoc, slice_app. reflexivity.
    + destruct rcur; inversion H; subst; auto. simpl. now rewrite app_nil_r.
Qed.

Definition drops (cfg : wcfg) (l : list str) : Prop :=
  l = [] \/ exists c, l = [c] /\ w_drop cfg = true /\ bl c = true.
Lemma drops_blank : forall cfg l, drops cfg l -> nonspace (concat l) = [] /\ all_space (concat l) = true.
Proof.
  intros cfg l [-> |(c & -> & _ & H)]; auto. simpl. rewrite app_nil_r. split.
  - now apply blank_nonspace. - now apply blank_all_space.
Qed.

Lemma drop_first_spec : forall cfg rl chunks, exists pre, chunks = pre ++ drop_first cfg rl chunks /\ drops cfg pre.
Proof.
  intros. unfold drop_first. destruct chunks as [|c rest]; [exists []; split; auto; left; auto|].
  destruct rl as [|l rl]; [exists []; split; auto; left; auto|].
  destruct (w_drop cfg) eqn:D; simpl; [|exists []; split; auto; left; auto].
  destruct (bl c) eqn:B; [|exists []; split; auto; left; auto].
  exists [c]. split; auto. right. eauto.
Qed.
Lemma drop_last_spec : forall cfg rcur3 cur3 rcur4 cur4, drop_last cfg rcur3 cur3 = (rcur4, cur4) ->
  exists post, rcur3 = post ++ rcur4 /\ drops cfg post /\ cur4 = cur3 - vsum post.
Proof.
  intros cfg [|c rc] cur3 rcur4 cur4 H; simpl in H.
  - inversion H; subst. exists []. repeat split; [left; auto|unfold vsum; simpl; lia].
  - destruct (w_drop cfg) eqn:D; simpl in H; [destruct (bl c) eqn:B|]; inversion H; subst.
    + exists [c]. repeat split; [right; eauto|unfold vsum; simpl; lia].
    + exists []. repeat split; [left; auto|unfold vsum; simpl; lia].
    + exists []. repeat split; [left; auto|unfold vsum; simpl; lia].
Qed.

(** What one iteration does to the text. *)
Lemma line_of_spec : forall cfg rl chunks rcur4 cur4 chunks3,
  line_of cfg rl chunks = (rcur4, cur4, chunks3) ->
  exists pre post, concat chunks = concat pre ++ concat (rev rcur4) ++ concat post ++ concat chunks3
    /\ drops cfg pre /\ drops cfg post /\ cur4 = vsum rcur4.
Proof.
  intros cfg rl chunks rcur4 cur4 chunks3 H. unfold line_of in H.
  destruct (drop_first_spec cfg rl chunks) as (pre & E1 & D1).
  destruct (fill (avail cfg rl) 0 [] (drop_first cfg rl chunks)) as [[rcur cur] chunks2] eqn:F.
  destruct (fill_spec _ _ _ _ _ _ _ F) as (taken & E2 & E3 & E4 & _ & _).
  rewrite app_nil_r in E3. simpl in E4.
  destruct (long_part cfg (avail cfg rl) rcur cur chunks2) as [[ch3 rcur3] cur3] eqn:LP.
  destruct (drop_last cfg rcur3 cur3) as [r4 c4] eqn:DL. inversion H; subst r4 c4 ch3; clear H.
  destruct (drop_last_spec _ _ _ _ _ DL) as (post & E5 & D2 & E6).
  assert (E7 : concat (rev rcur3) ++ concat chunks3 = concat taken ++ concat chunks2 /\ cur3 = vsum rcur3).
  { clear DL E5 E6. unfold long_part in LP. destruct chunks2 as [|c ch].
    - inversion LP; subst. rewrite rev_involutive, vsum_rev. auto.
    - destruct (vlen c >? avail cfg rl).
      + destruct (handle_long_word cfg (c :: ch) rcur cur (avail cfg rl)) as [ch' rc] eqn:HL.
        apply handle_long_concat in HL. inversion LP; subst ch' rcur3 cur3. rewrite HL, E3, rev_involutive. auto.
      + inversion LP; subst. rewrite rev_involutive, vsum_rev. auto. }
  destruct E7 as [E7 E8]. exists pre, post. repeat split; auto.
  - rewrite E1, concat_app. f_equal. rewrite E2, concat_app, <- E7, E5, rev_app_distr, concat_app, <- app_assoc.
    f_equal. f_equal. destruct D2 as [-> |(c & -> & _)]; auto.
  - rewrite E6, E8, E5, vsum_app. lia.
Qed.

(** ** Nothing is lost (C22) *)
Lemma wrap_loop_lossless : forall cfg, w_max_lines cfg = None ->
  all_space (w_init cfg) = true -> all_space (w_subs cfg) = true ->
  forall fuel rl chunks lines, wrap_loop cfg fuel rl chunks = Ok lines ->
  nonspace (concat lines) = nonspace (concat (rev rl)) ++ nonspace (concat chunks).
Proof.
  intros cfg HM HI HS. induction fuel as [|fuel IH]; intros rl chunks lines H.
  - destruct chunks; simpl in H; inversion H. simpl. now rewrite app_nil_r.
  - destruct chunks as [|c ch]; [simpl in H; inversion H; simpl; now rewrite app_nil_r|].
    cbn [wrap_loop] in H. rewrite wrap_step_eq in H.
    destruct (line_of cfg rl (c :: ch)) as [[rcur4 cur4] chunks3] eqn:LO.
    destruct (line_of_spec _ _ _ _ _ _ LO) as (pre & post & E & D1 & D2 & _).
    apply drops_blank in D1 as [D1 _]. apply drops_blank in D2 as [D2 _].
    assert (EN : nonspace (concat (c :: ch)) = nonspace (concat (rev rcur4)) ++ nonspace (concat chunks3)).
    { rewrite E, !nonspace_app, D1, D2. reflexivity. }
    rewrite EN. destruct rcur4 as [|c4 r4].
    + apply IH in H. rewrite H. reflexivity.
    + cbv zeta in H. rewrite HM in H. cbn iota in H. apply IH in H. rewrite H.
      cbn [rev]. rewrite concat_app, !nonspace_app. cbn [concat]. rewrite app_nil_r.
      rewrite nonspace_app. rewrite (nonspace_all (indent_of cfg rl)).
      * simpl. rewrite <- app_assoc. reflexivity.
      * unfold indent_of. destruct rl; auto.
Qed.

(** ** Termination (C23) *)
Lemma wrap_loop_mono : forall cfg f rl chunks r, wrap_loop cfg f rl chunks = Ok r ->
  forall f', (f <= f')%nat -> wrap_loop cfg f' rl chunks = Ok r.
Proof.
  induction f as [|f IH]; intros rl chunks r H f' L.
  - destruct chunks; simpl in H; [|discriminate]. destruct f'; auto.
  - destruct f' as [|f']; [lia|]. destruct chunks as [|c ch]; auto. cbn [wrap_loop] in *.
    destruct (wrap_step cfg rl (c :: ch)) as [[rl' ch'] stop]. destruct stop; auto. apply IH; auto. lia.
Qed.

Definition weight (chunks : list str) : nat := fold_right (fun c n => (S (length c) + n)%nat) 0%nat chunks.
Lemma weight_app : forall a b, weight (a ++ b) = (weight a + weight b)%nat.
Proof. induction a; simpl; intros; auto. rewrite IHa. lia. Qed.
Lemma wrap_fuel_weight : forall chunks, wrap_fuel chunks = S (weight chunks).
Proof. intros. unfold wrap_fuel, weight. induction chunks; cbn [fold_right]; auto. lia. Qed.

Lemma rfind_lt : forall c s i, rfind c s = Some i -> (i < length s)%nat.
Proof.
  induction s as [|x s IH]; simpl; intros i H; [discriminate|].
  destruct (rfind c s) as [j|]; [inversion H; specialize (IH j eq_refl); lia|].
  destruct (x =? c)%N; inversion H. lia.
Qed.
(** Where a long chunk is cut. *)
Lemma handle_long_cut : forall cfg c rest rcur cur width, w_blw cfg = true ->
  let sl := if width <? 1 then 1 else width - cur in
  exists e, handle_long_word cfg (c :: rest) rcur cur width = (slice_from e c :: rest, slice_to e c :: rcur)
    /\ e <= Z.max 0 sl /\ (1 <= sl -> 1 <= e).
Proof.
  intros cfg c rest rcur cur width B sl. unfold handle_long_word. rewrite B. cbv zeta. fold sl.
  eexists. split; [reflexivity|].
  destruct (w_boh cfg && (len c >? sl)); [|lia].
  destruct (rfind hyphen (slice_to sl c)) as [h|] eqn:R; [|lia].
  apply rfind_lt in R. unfold slice_to in R. rewrite firstn_length in R.
  destruct ((0 <? Z.of_nat h) && existsb _ _) eqn:E; lia.
Qed.

Lemma len_slice_to : forall e s, len (slice_to e s) = Z.min (Z.max 0 e) (len s).
Proof. intros. unfold len, slice_to. rewrite firstn_length. lia. Qed.
Lemma len_slice_from : forall e s, len (slice_from e s) = len s - Z.min (Z.max 0 e) (len s).
Proof. intros. unfold len, slice_from. rewrite skipn_length. lia. Qed.

Lemma line_of_progress : forall cfg rl c ch rcur4 cur4 chunks3,
  w_blw cfg = false \/ 0 <= avail cfg rl ->
  line_of cfg rl (c :: ch) = (rcur4, cur4, chunks3) -> (weight chunks3 < weight (c :: ch))%nat.
Proof.
  intros cfg rl c ch rcur4 cur4 chunks3 HC H. unfold line_of in H.
  destruct (drop_first_spec cfg rl (c :: ch)) as (pre & E1 & D1).
  destruct (fill (avail cfg rl) 0 [] (drop_first cfg rl (c :: ch))) as [[rcur cur] chunks2] eqn:F.
  destruct (fill_spec _ _ _ _ _ _ _ F) as (taken & E2 & E3 & E4 & E5 & E6).
  rewrite app_nil_r in E3. simpl in E4.
  destruct (long_part cfg (avail cfg rl) rcur cur chunks2) as [[ch3 rcur3] cur3] eqn:LP.
  destruct (drop_last cfg rcur3 cur3) as [r4 c4] eqn:DL. inversion H; subst r4 c4 ch3; clear H.
  assert (W : weight (c :: ch) = (weight pre + weight taken + weight chunks2)%nat).
  { rewrite E1, E2, !weight_app. lia. }
  assert (WL : (weight chunks3 <= weight chunks2)%nat /\
    (taken = [] -> chunks2 <> [] -> weight chunks3 < weight chunks2)%nat).
  { unfold long_part in LP. destruct chunks2 as [|c2 ch2]; [inversion LP; subst; split; auto; congruence|].
    destruct (vlen c2 >? avail cfg rl) eqn:LG.
    - destruct (w_blw cfg) eqn:B.
      + destruct (handle_long_cut cfg c2 ch2 rcur cur (avail cfg rl) B) as (e & HE & He1 & He2).
        rewrite HE in LP. injection LP as <- <- <-.
        assert (L1 : (length (slice_from e c2) <= length c2)%nat)
          by (unfold slice_from; rewrite skipn_length; lia).
        split; [simpl; lia|]. intros -> _.
        change (vsum []) with 0 in E4.
        destruct HC as [HC|HC]; [discriminate|].
        assert (1 <= e). { apply He2. destruct (avail cfg rl <? 1) eqn:A; lia. }
        pose proof (vlen_le_len c2). assert (len c2 > 0) by lia. unfold len in *.
        assert (length (slice_from e c2) < length c2)%nat by (unfold slice_from; rewrite skipn_length; lia).
        simpl. lia.
      + unfold handle_long_word in LP. rewrite B in LP. destruct rcur as [|x rc].
        * inversion LP; subst. simpl. split; intros; lia.
        * inversion LP; subst. split; auto. intros -> _. simpl in E3. discriminate.
    - inversion LP; subst. split; auto. intros -> _. exfalso.
      simpl in E6. unfold vsum in E6. simpl in E6. lia. }
  destruct WL as [WL1 WL2].
  destruct taken as [|t tk]; [|simpl in W; simpl in *; lia].
  destruct chunks2 as [|c2 ch2].
  - simpl in *. rewrite W. simpl in WL1. destruct pre; [|simpl; lia]. rewrite E2 in E1. discriminate.
  - specialize (WL2 eq_refl ltac:(discriminate)). lia.
Qed.

Lemma wrap_loop_terminates : forall cfg,
  (w_blw cfg = false \/ (len (w_init cfg) <= w_width cfg /\ len (w_subs cfg) <= w_width cfg)) ->
  forall fuel rl chunks, (weight chunks < fuel)%nat -> exists lines, wrap_loop cfg fuel rl chunks = Ok lines.
Proof.
  intros cfg HC. induction fuel as [|fuel IH]; intros rl chunks HW; [lia|].
  destruct chunks as [|c ch]; [simpl; eauto|]. cbn [wrap_loop].
  rewrite wrap_step_eq. destruct (line_of cfg rl (c :: ch)) as [[rcur4 cur4] chunks3] eqn:LO.
  assert (P : (weight chunks3 < weight (c :: ch))%nat).
  { eapply line_of_progress; [|exact LO]. destruct HC as [HC|[H1 H2]]; auto. right.
    unfold avail, indent_of. destruct rl; lia. }
  assert (G : forall rl', exists lines, wrap_loop cfg fuel rl' chunks3 = Ok lines) by (intros; apply IH; lia).
  destruct rcur4; cbv zeta.
  - apply G.
  - destruct (match w_max_lines cfg with None => _ | Some _ => _ end); [apply G|].
    destruct (trunc _ _ _ _ _); [eauto|]. destruct rl; [eauto|].
    destruct (vlen (rstrip s0) + len (w_placeholder cfg) <=? w_width cfg); eauto.
Qed.

(** The ValueError cases. *)
Definition rejected (cfg : wcfg) : Prop :=
  w_width cfg <= 0 \/
  exists m, w_max_lines cfg = Some m /\
    len (if m >? 1 then w_subs cfg else w_init cfg) + len (lstrip (w_placeholder cfg)) > w_width cfg.
Lemma wrap_chunks_rejected : forall cfg fuel chunks, rejected cfg -> wrap_chunks_fuel fuel cfg chunks = Err EValue.
Proof.
  intros cfg fuel chunks H. unfold wrap_chunks_fuel. destruct (Z.leb_spec (w_width cfg) 0); auto.
  destruct H as [H|(m & -> & H)]; [lia|]. cbv zeta.
  destruct (_ >? w_width cfg) eqn:E; auto. lia.
Qed.
Lemma wrap_chunks_accepted : forall cfg fuel chunks, ~ rejected cfg ->
  wrap_chunks_fuel fuel cfg chunks = wrap_loop cfg fuel [] chunks.
Proof.
  intros cfg fuel chunks H. unfold wrap_chunks_fuel.
  destruct (Z.leb_spec (w_width cfg) 0); [exfalso; apply H; left; lia|].
  destruct (w_max_lines cfg) as [m|] eqn:M; auto. cbv zeta.
  destruct (_ >? w_width cfg) eqn:E; auto. exfalso. apply H. right. exists m. split; auto. lia.
Qed.
Lemma wrap_Ok_accepted : forall cfg fuel chunks r, wrap_chunks_fuel fuel cfg chunks = Ok r ->
  ~ rejected cfg /\ wrap_loop cfg fuel [] chunks = Ok r.
Proof.
  intros cfg fuel chunks r H. assert (~ rejected cfg).
  { intros R. rewrite (wrap_chunks_rejected cfg fuel chunks R) in H. discriminate. }
  split; auto. now rewrite <- wrap_chunks_accepted.
Qed.
Lemma rejected_dec : forall cfg, rejected cfg \/ ~ rejected cfg.
Proof.
  intros. unfold rejected. destruct (Z_le_gt_dec (w_width cfg) 0); auto.
  destruct (w_max_lines cfg) as [m|].
  - destruct (Z_gt_le_dec (len (if m >? 1 then w_subs cfg else w_init cfg) + len (lstrip (w_placeholder cfg))) (w_width cfg)).
    + left. right. eauto.
    + right. intros [H|(m' & E & H)]; [lia|]. inversion E; subst. lia.
  - right. intros [H|(m' & E & H)]; [lia|discriminate].
Qed.
End L.
