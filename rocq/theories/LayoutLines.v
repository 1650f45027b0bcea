(** The wrapping loop lays lines as LayoutSpec says. *)
From Verif Require Import WrapFacts WrapLoop WrapWidth WrapWords WrapStop.
From Verif Require Import BaseFacts StrFacts LayoutFacts.
From Verif Require Export LayoutSpec.
Open Scope Z_scope.

Section Lines.
Context `{U : Uni}.
Notation hyphen := Textwrap.hyphen.
Notation bl := Textwrap.blank.

Lemma blank_is : forall p, bl p = true <-> blank_piece p.
Proof. intros p. rewrite blank_all_space. unfold all_space, blank_piece. apply forallb_forall. Qed.
Lemma columns_app : forall a b, columns (a ++ b) = columns a + columns b.
Proof. induction a as [|x a IH]; intros b; cbn [app columns fold_right]; auto. fold (columns (a ++ b)) (columns a). rewrite IH. lia. Qed.
Lemma columns_one : forall p, columns [p] = vlen p. Proof. intros. cbn. lia. Qed.
Lemma columns_nonneg : forall l, 0 <= columns l.
Proof. induction l as [|x l IH]; cbn [columns fold_right]; [lia|]. fold (columns l). pose proof (vlen_nonneg x). lia. Qed.
Lemma columns_rev : forall l, columns (rev l) = columns l.
Proof. induction l as [|x l IH]; auto. cbn [rev]. rewrite columns_app, IH, columns_one. cbn [columns fold_right]. fold (columns l). lia. Qed.
Lemma columns_sum : forall l, fold_right Z.add 0 (map vlen l) = columns l.
Proof. induction l as [|x l IH]; auto. cbn [map fold_right columns]. fold (columns l). now rewrite IH. Qed.

(** ** Determinism *)
Lemma without_first_one : forall d ps a b, without_first d ps a -> without_first d ps b -> a = b.
Proof.
  intros d ps a b H1 H2. inversion H1 as [p r D B E1 E2|ps' N0 E1 E2]; inversion H2 as [p' r' D' B' E1' E2'|ps'' N0' E1' E2']; subst; auto.
  - now injection E1'.
  - exfalso. apply N0'. eauto.
  - exfalso. apply N0. eauto.
Qed.
Lemma without_last_one : forall d ps a b, without_last d ps a -> without_last d ps b -> a = b.
Proof.
  intros d ps a b H1 H2. inversion H1 as [p r D B E1 E2|ps' N0 E1 E2]; inversion H2 as [p' r' D' B' E1' E2'|ps'' N0' E1' E2']; subst; auto.
  - now apply app_inj_tail in E1' as [-> _].
  - exfalso. apply N0'. eauto.
  - exfalso. apply N0. eauto.
Qed.
Lemma prefix_order : forall (a b c d : list str), a ++ b = c ++ d -> (exists m, c = a ++ m /\ b = m ++ d) \/ (exists m, a = c ++ m /\ d = m ++ b).
Proof.
  induction a as [|x a IH]; intros b c d E; [left; exists c; auto|]. destruct c as [|y c]; [right; exists (x :: a); auto|]. injection E as -> E.
  destruct (IH b c d E) as [(m & -> & ->)|(m & -> & ->)]; [left|right]; exists m; auto.
Qed.
Lemma as_many_one : forall w ps on rest on' rest', as_many w ps on rest -> as_many w ps on' rest' -> on = on' /\ rest = rest'.
Proof.
  assert (X : forall w on m rest' rest, (on ++ m <> [] -> columns (on ++ m) <= w) -> rest = m ++ rest' ->
            match rest with [] => True | p :: _ => columns on + vlen p > w end -> m = []).
  { intros w on m rest' rest C E R. destruct m as [|p m]; auto. subst rest. cbn [app] in R. specialize (C ltac:(intros Z; apply app_eq_nil in Z as [_ Z]; discriminate)).
    rewrite columns_app in C. cbn [columns fold_right] in C. fold (columns m) in C. pose proof (columns_nonneg m). change (fold_right (fun p n => vlen p + n) 0 on) with (columns on) in C. lia. }
  intros w ps on rest on' rest' (E1 & C1 & R1) (E2 & C2 & R2). rewrite E1 in E2. destruct (prefix_order _ _ _ _ E2) as [(m & M1 & M2)|(m & M1 & M2)].
  - subst on'. assert (m = []) as -> by exact (X w on m rest' rest C2 M2 R1). rewrite app_nil_r. auto.
  - subst on. assert (m = []) as -> by exact (X w on' m rest rest' C1 M2 R2). rewrite app_nil_r. auto.
Qed.
Lemma same_front : forall (p a b c d : str), p = a ++ b -> p = c ++ d -> len a = len c -> a = c /\ b = d.
Proof.
  intros p a b c d E1 E2 L. rewrite E1 in E2. unfold len in L. destruct (app_longer _ _ _ _ E2) as (m & M1 & M2); [lia|]. subst c. rewrite app_length in L.
  destruct m; [|cbn [length] in L; lia]. rewrite app_nil_r. auto.
Qed.
Lemma word_cut_one : forall hy room p f b f' b', word_cut hy room p f b -> word_cut hy room p f' b' -> f = f' /\ b = b'.
Proof.
  intros hy room p f b f' b' H1 H2. destruct H1 as [[A1 M1]|(N1 & E1 & L1)], H2 as [[A2 M2]|(N2 & E2 & L2)].
  - pose proof (M1 _ _ A2). pose proof (M2 _ _ A1). destruct A1 as (_ & _ & E1 & _). destruct A2 as (_ & _ & E2 & _). eapply same_front; eauto. lia.
  - exfalso. eapply N2; eauto.
  - exfalso. eapply N1; eauto.
  - eapply same_front; eauto. lia.
Qed.
Lemma overlong_one : forall cfg w on rest on1 rest1 on2 rest2, overlong cfg w on rest on1 rest1 -> overlong cfg w on rest on2 rest2 -> on1 = on2 /\ rest1 = rest2.
Proof.
  intros cfg w on rest on1 rest1 on2 rest2 H1 H2. inversion H1; inversion H2; subst; auto; try congruence; try lia;
  repeat match goal with E : _ :: _ = _ :: _ |- _ => injection E as ? ?; subst end; try congruence; try lia; auto.
  match goal with A : word_cut _ _ _ _ _, B : word_cut _ _ _ _ _ |- _ => destruct (word_cut_one _ _ _ _ _ _ _ A B); subst; auto end.
Qed.
Lemma a_line_one : forall cfg done ps on rest on' rest', a_line cfg done ps on rest -> a_line cfg done ps on' rest' -> on = on' /\ rest = rest'.
Proof.
  intros cfg done ps on rest on' rest' (p1 & o1 & r1 & q1 & A1 & B1 & C1 & D1) (p2 & o2 & r2 & q2 & A2 & B2 & C2 & D2).
  assert (p1 = p2) as <- by (destruct (0 <? Z.of_nat (length done)); [eapply without_first_one; eauto|congruence]).
  destruct (as_many_one _ _ _ _ _ _ B1 B2) as [<- <-]. destruct (overlong_one _ _ _ _ _ _ _ _ C1 C2) as [<- <-]. split; auto. eapply without_last_one; eauto.
Qed.
Lemma keep_one : forall (on k k' d d' : list str), on = k ++ d -> on = k' ++ d' -> length k = length k' -> k = k'.
Proof.
  intros on k k' d d' E1 E2 L. rewrite E1 in E2. destruct (prefix_order _ _ _ _ E2) as [(m & -> & _)|(m & -> & _)]; rewrite app_length in L; (destruct m; [now rewrite app_nil_r|cbn [length] in L; lia]).
Qed.
Lemma abridged_one : forall cfg done on l l', abridged cfg done on l -> abridged cfg done on l' -> l = l'.
Proof.
  intros cfg done on l l' H1 H2. destruct H1 as [(k1 & S1 & M1 & ->)|(N1 & H1)], H2 as [(k2 & S2 & M2 & ->)|(N2 & H2)].
  - assert (k1 = k2) as <-; auto. pose proof (M1 _ S2). pose proof (M2 _ S1). destruct S1 as (d1 & ? & ? & E1 & _). destruct S2 as (d2 & ? & ? & E2 & _). eapply keep_one; eauto. lia.
  - exfalso. eapply N2; eauto.
  - exfalso. eapply N1; eauto.
  - destruct H1 as [(d & p & E & L & ->)|(N3 & ->)], H2 as [(d' & p' & E' & L' & ->)|(N4 & ->)]; auto.
    + rewrite E in E'. apply app_inj_tail in E' as [-> ->]. reflexivity.
    + exfalso. apply N4. eauto.
    + exfalso. apply N3. eauto.
Qed.

(** ** The parts of a step *)
Lemma fill_spec : forall chunks w cur rcur rcur' cur' rest, fill w cur rcur chunks = (rcur', cur', rest) ->
  exists on, rcur' = rev on ++ rcur /\ chunks = on ++ rest /\ cur' = cur + columns on /\ (on <> [] -> cur' <= w)
    /\ match rest with [] => True | p :: _ => cur' + vlen p > w end.
Proof.
  induction chunks as [|c r IH]; intros w cur rcur rcur' cur' rest H; cbn [fill] in H.
  - injection H as <- <- <-. exists []. split; [reflexivity|]. split; [reflexivity|]. split; [cbn; lia|]. split; [congruence|exact I].
  - destruct (Z.leb_spec (cur + vlen c) w) as [L|L].
    + apply IH in H as (on & -> & -> & -> & C & R). exists (c :: on). cbn [rev app]. rewrite <- app_assoc. split; [reflexivity|]. split; [reflexivity|].
      assert (EC : columns (c :: on) = vlen c + columns on) by reflexivity. rewrite EC. split; [lia|]. split.
      * intros _. destruct on as [|x on]; [cbn in *; lia|]. specialize (C ltac:(discriminate)). lia.
      * destruct rest; [exact I|lia].
    + injection H as <- <- <-. exists []. split; [reflexivity|]. split; [reflexivity|]. split; [cbn; lia|]. split; [congruence|lia].
Qed.
Lemma rfind_spec : forall c s, match rfind c s with
  | Some i => exists a b, s = a ++ c :: b /\ length a = i /\ ~ In c b
  | None => ~ In c s end.
Proof.
  intros c. induction s as [|x s IH]; cbn [rfind]; [intros []|]. destruct (rfind c s) as [i|].
  - destruct IH as (a & b & -> & L & NB). exists (x :: a), b. cbn [app length]. auto.
  - destruct (N.eqb_spec x c) as [->|NE].
    + exists [], s. auto.
    + intros [E|J]; [congruence|contradiction].
Qed.
Lemma firstn_pre : forall (a b : str), firstn (length a) (a ++ b) = a.
Proof. intros. rewrite firstn_app, Nat.sub_diag, firstn_O, app_nil_r. apply firstn_all. Qed.
Lemma word_cut_spec : forall hy room p, 0 <= room ->
  let e := if hy && (len p >? room)
           then match rfind hyphen (slice_to room p) with
                | Some h => if (0 <? Z.of_nat h) && existsb (fun c => negb (c =? hyphen)%N) (firstn h p) then Z.of_nat h + 1 else room
                | None => room end
           else room in
  word_cut hy room p (slice_to e p) (slice_from e p).
Proof.
  intros hy room p R e.
  assert (PL : forall at_hyphen : str -> str -> Prop, e = room -> (forall f b, ~ at_hyphen f b) -> (forall f b, ~ at_hyphen f b) /\ p = slice_to e p ++ slice_from e p /\ len (slice_to e p) = Z.min room (len p)).
  { intros ah -> N0. split; auto. split; [symmetry; apply firstn_skipn|]. rewrite len_slice_to. lia. }
  destruct (hy && (len p >? room)) eqn:EH.
  2:{ right. apply (PL _ eq_refl). intros f b (HY & LP & _). rewrite HY in EH. cbn [andb] in EH. lia. }
  apply andb_prop in EH as [HY LP]. assert (LP' : len p > room) by lia. subst hy. pose proof (rfind_spec hyphen (slice_to room p)) as RF.
  assert (FP : forall x back f', p = f' ++ back -> f' = x ++ [dash] -> len f' <= room -> exists z, slice_to room p = x ++ dash :: z).
  { intros x back f' EP EF LF. unfold slice_to. exists (firstn (Z.to_nat room - length f') back). rewrite EP, firstn_app. unfold len in LF. rewrite (firstn_all2 f') by lia. rewrite EF, <- app_assoc. reflexivity. }
  destruct (rfind hyphen (slice_to room p)) as [h|].
  - destruct RF as (a & b & ES & LA & NB).
    assert (EP : p = a ++ hyphen :: (b ++ slice_from room p)). { rewrite <- (firstn_skipn (Z.to_nat room) p) at 1. fold (slice_to room p) (slice_from room p). rewrite ES, <- app_assoc. reflexivity. }
    assert (LA2 : Z.of_nat h + 1 <= room). { apply (f_equal (@length N)) in ES. unfold slice_to in ES. rewrite firstn_length, app_length in ES. cbn [length] in ES. lia. }
    assert (FH : firstn h p = a) by (rewrite EP, <- LA; apply firstn_pre).
    destruct ((0 <? Z.of_nat h) && existsb (fun c => negb (c =? hyphen)%N) (firstn h p)) eqn:EX.
    + apply andb_prop in EX as [EX1 EX2]. rewrite FH in EX2. apply existsb_exists in EX2 as (c & JC & NC). apply negb_true_iff, N.eqb_neq in NC. left.
      assert (EF : slice_to e p = a ++ [dash]). { subst e. unfold slice_to. replace (Z.to_nat (Z.of_nat h + 1)) with (length (a ++ [dash])) by (rewrite app_length; cbn [length]; lia). rewrite EP. change (a ++ hyphen :: (b ++ slice_from room p)) with (a ++ [dash] ++ (b ++ slice_from room p)). rewrite app_assoc. apply firstn_pre. }
      rewrite EF. split.
      * split; auto. split; [exact LP'|]. split; [rewrite <- EF; symmetry; apply firstn_skipn|]. split; [unfold len; rewrite app_length; cbn [length]; lia|]. exists a. split; auto. eauto.
      * intros f bk (_ & _ & EP2 & LF & x & EX & _). destruct (FP x bk f EP2 EX LF) as (z & EZ). rewrite EZ in ES. subst f. unfold len. rewrite !app_length. cbn [length].
        destruct (le_lt_dec (length x) (length a)); [lia|]. exfalso. destruct (app_longer a (hyphen :: b) x (dash :: z)) as (m & M1 & M2); [auto|lia|]. subst x. destruct m as [|y m]; [rewrite app_length in *; cbn [length] in *; lia|].
        injection M2 as _ M2. apply NB. rewrite M2. apply in_or_app. right. left. reflexivity.
    + right. apply (PL _ eq_refl). intros f bk (_ & _ & EP2 & LF & x & EF & c & JC & NC). destruct (FP x bk f EP2 EF LF) as (z & EZ). rewrite EZ in ES.
      assert (LX : (length x <= length a)%nat). { destruct (le_lt_dec (length x) (length a)); auto. exfalso. destruct (app_longer a (hyphen :: b) x (dash :: z)) as (m & M1 & M2); [auto|lia|]. subst x. destruct m as [|y m]; [rewrite app_length in *; cbn [length] in *; lia|].
        injection M2 as _ M2. apply NB. rewrite M2. apply in_or_app. right. left. reflexivity. }
      destruct (app_longer x (dash :: z) a (hyphen :: b) ES LX) as (m & M1 & M2). apply Bool.not_true_iff_false in EX. apply EX. rewrite FH. apply andb_true_iff. split.
      * apply Z.ltb_lt. destruct x; [destruct JC|]. rewrite M1 in LA. cbn [app length] in LA. lia.
      * apply existsb_exists. exists c. split; [rewrite M1; apply in_or_app; auto|]. apply negb_true_iff, N.eqb_neq. exact NC.
  - right. apply (PL _ eq_refl). intros f bk (_ & _ & EP2 & LF & x & EF & _). destruct (FP x bk f EP2 EF LF) as (z & EZ). apply RF. rewrite EZ. apply in_or_app. right. now left.
Qed.

(** ** A step *)
Definition line_of (cfg : wcfg) (rl chunks : list str) : list str * Z * list str :=
  let indent := match rl with [] => w_init cfg | _ => w_subs cfg end in
  let width := w_width cfg - len indent in
  let chunks1 :=
    match chunks, rl with
    | c :: rest, _ :: _ => if w_drop cfg && bl c then rest else chunks
    | _, _ => chunks
    end in
  let '(rcur, cur_len, chunks2) := fill width 0 [] chunks1 in
  let '(chunks3, rcur3, cur_len3) :=
    match chunks2 with
    | c :: _ =>
        if vlen c >? width
        then let '(ch, rc) := handle_long_word cfg chunks2 rcur cur_len width in
             (ch, rc, fold_right Z.add 0 (map vlen rc))
        else (chunks2, rcur, cur_len)
    | [] => (chunks2, rcur, cur_len)
    end in
  let '(rcur4, cur_len4) :=
    match rcur3 with
    | c :: rc => if w_drop cfg && bl c then (rc, cur_len3 - vlen c) else (rcur3, cur_len3)
    | [] => (rcur3, cur_len3)
    end in
  (rcur4, cur_len4, chunks3).
Definition end_of (cfg : wcfg) (rl rcur4 : list str) (cur_len4 : Z) (chunks3 : list str) : list str * list str * bool :=
  let indent := match rl with [] => w_init cfg | _ => w_subs cfg end in
  let width := w_width cfg - len indent in
  match rcur4 with
  | [] => (rl, chunks3, false)
  | _ =>
      let ok :=
        match w_max_lines cfg with
        | None => true
        | Some m =>
            (Z.of_nat (length rl) + 1 <? m)
            || (match chunks3 with
                | [] => true
                | [c] => w_drop cfg && bl c
                | _ => false
                end && (cur_len4 <=? width))
        end in
      if ok then ((indent ++ concat (rev rcur4)) :: rl, chunks3, false)
      else match trunc cfg indent width cur_len4 rcur4 with
           | Some l => (l :: rl, chunks3, true)
           | None =>
               match rl with
               | last :: rl' =>
                   let prev := rstrip last in
                   if vlen prev + len (w_placeholder cfg) <=? w_width cfg
                   then ((prev ++ w_placeholder cfg) :: rl', chunks3, true)
                   else ((indent ++ lstrip (w_placeholder cfg)) :: rl, chunks3, true)
               | [] => ((indent ++ lstrip (w_placeholder cfg)) :: rl, chunks3, true)
               end
           end
  end.
Lemma wrap_step_parts : forall cfg rl chunks, wrap_step cfg rl chunks = let '(rc, k, ch) := line_of cfg rl chunks in end_of cfg rl rc k ch.
Proof.
  intros cfg rl chunks. unfold wrap_step, line_of. cbv zeta. destruct (fill _ 0 [] _) as [[rcur k] ch2].
  match goal with |- match ?x with (_, _) => _ end = _ => destruct x as [[ch3 rc3] k3] end. match goal with |- match ?x with (_, _) => _ end = _ => destruct x as [rc4 k4] end. reflexivity.
Qed.
Lemma indent_rev : forall cfg rl, indent cfg (rev rl) = match rl with [] => w_init cfg | _ => w_subs cfg end.
Proof. intros cfg [|x rl]; auto. unfold indent. cbn [rev]. destruct (rev rl ++ [x]) eqn:E; auto. apply app_eq_nil in E as [_ E]. discriminate. Qed.
Lemma line_spec : forall cfg rl chunks rc k ch, line_of cfg rl chunks = (rc, k, ch) -> a_line cfg (rev rl) chunks (rev rc) ch /\ k = columns (rev rc).
Proof.
  intros cfg rl chunks rc k ch H. unfold a_line. rewrite indent_rev, rev_length. unfold line_of in H. cbv zeta in H. set (w := w_width cfg - len match rl with [] => w_init cfg | _ => w_subs cfg end) in *.
  match type of H with (match fill w 0 [] ?x with _ => _ end = _) => set (ps1 := x) in H end.
  assert (F1 : if 0 <? Z.of_nat (length rl) then without_first (w_drop cfg) chunks ps1 else ps1 = chunks).
  { subst ps1. destruct rl as [|r0 rl]; [now destruct chunks|]. cbn [length]. destruct (Z.ltb_spec 0 (Z.of_nat (S (length rl)))); [|lia].
    destruct chunks as [|c r]; [apply wf_keep; intros (_ & p & r & E & _); discriminate|]. destruct (w_drop cfg && bl c) eqn:E.
    - apply andb_prop in E as [E1 E2]. apply wf_drop; [auto|now apply blank_is].
    - apply wf_keep. intros (D & p & r' & E' & B). injection E' as <- <-. apply blank_is in B. rewrite D, B in E. discriminate. }
  clearbody ps1. destruct (fill w 0 [] ps1) as [[rcur cl] ch2] eqn:EF. apply fill_spec in EF as (on & E1 & E2 & E3 & C & R). rewrite app_nil_r in E1. cbn [Z.add] in E3. rewrite E3 in C, R.
  assert (AM : as_many w ps1 on ch2) by (split; [exact E2|split; [exact C|exact R]]).
  match type of H with (match ?x with _ => _ end = _) => destruct x as [[ch3 rc3] k3] eqn:EO end.
  assert (OL : overlong cfg w on ch2 (rev rc3) ch3 /\ k3 = columns (rev rc3)).
  { destruct ch2 as [|c r]; [injection EO as <- <- <-; rewrite E1, rev_involutive; split; [constructor|exact E3]|].
    destruct (vlen c >? w) eqn:EV; [|injection EO as <- <- <-; rewrite E1, rev_involutive; split; [apply ol_fits; lia|exact E3]].
    assert (EV' : vlen c > w) by lia. destruct (handle_long_word cfg (c :: r) rcur cl w) as [ch' rc'] eqn:HL. injection EO as <- <- <-. rewrite columns_sum, columns_rev. split; [|reflexivity].
    unfold handle_long_word in HL. cbv zeta in HL. destruct (w_blw cfg) eqn:EB.
    - injection HL as <- <-. rewrite E1. cbn [rev]. rewrite rev_involutive. apply ol_cut; auto. rewrite <- E3.
      apply (word_cut_spec (w_boh cfg) (if w <? 1 then 1 else w - cl) c). destruct (Z.ltb_spec w 1); [lia|]. destruct on as [|x on]; [cbn in E3; lia|]. specialize (C ltac:(discriminate)). lia.
    - destruct rcur as [|x rcur].
      + injection HL as <- <-. assert (on = []) as -> by (apply (f_equal (@rev str)) in E1; rewrite rev_involutive in E1; now symmetry). now apply ol_whole.
      + injection HL as <- <-. rewrite E1, rev_involutive. apply ol_later; auto. intros ->. discriminate E1. }
  destruct OL as [OL EK]. match type of H with (match ?x with _ => _ end = _) => destruct x as [rc4 k4] eqn:EW end. injection H as <- <- <-.
  assert (WL : without_last (w_drop cfg) (rev rc3) (rev rc4) /\ k4 = columns (rev rc4)).
  { destruct rc3 as [|c rc3]; [injection EW as <- <-; split; [apply wl_keep; intros (_ & p & r & E & _); destruct r; discriminate|exact EK]|].
    destruct (w_drop cfg && bl c) eqn:E.
    - injection EW as <- <-. apply andb_prop in E as [D B]. cbn [rev] in *. split; [apply wl_drop; [auto|now apply blank_is]|]. rewrite columns_app, columns_one in EK. lia.
    - injection EW as <- <-. split; [|exact EK]. apply wl_keep. intros (D & p & r' & E' & B). cbn [rev] in E'. apply app_inj_tail in E' as [_ <-]. apply blank_is in B. rewrite D, B in E. discriminate. }
  destruct WL as [WL EK4]. split; [|exact EK4]. exists ps1, on, ch2, (rev rc3). auto.
Qed.
Lemma trunc_spec : forall cfg ind w rcur, match trunc cfg ind w (columns rcur) rcur with
  | Some l => exists keep, shortened cfg w (rev rcur) keep /\ (forall k, shortened cfg w (rev rcur) k -> (length k <= length keep)%nat) /\ l = ind ++ concat keep ++ w_placeholder cfg
  | None => forall k, ~ shortened cfg w (rev rcur) k end.
Proof.
  intros cfg ind w. induction rcur as [|c rc IH]; cbn [trunc].
  - intros k (d & p & l & E & E2 & _). cbn [rev] in E. symmetry in E. apply app_eq_nil in E as [E _]. rewrite E in E2. destruct l; discriminate.
  - assert (CC : columns (c :: rc) = vlen c + columns rc) by reflexivity. destruct (negb (bl c) && (columns (c :: rc) + len (w_placeholder cfg) <=? w)) eqn:E.
    + apply andb_prop in E as [E1 E2]. exists (rev (c :: rc)). split; [|split].
      * exists [], c, (rev rc). rewrite app_nil_r. split; auto. split; auto. split; [rewrite <- blank_is; apply negb_true_iff in E1; congruence|]. rewrite columns_rev. lia.
      * intros k (d & p & l & EK & _). rewrite EK, app_length. lia.
      * cbn [rev]. rewrite !concat_app. cbn [concat]. now rewrite !app_nil_r.
    + replace (columns (c :: rc) - vlen c) with (columns rc) by lia.
      assert (DN : forall k, shortened cfg w (rev (c :: rc)) k -> shortened cfg w (rev rc) k).
      { intros k (d & p & l & EK & EL & NB & LC). cbn [rev] in EK. destruct d as [|x d] using rev_ind.
        - exfalso. rewrite app_nil_r in EK. rewrite <- EK in EL. apply app_inj_tail in EL as [_ <-]. rewrite <- EK, columns_app, columns_rev, columns_one in LC. apply Bool.not_true_iff_false in E. apply E.
          apply andb_true_iff. split; [apply negb_true_iff; apply Bool.not_true_iff_false; now rewrite blank_is|]. apply Z.leb_le. lia.
        - rewrite app_assoc in EK. apply app_inj_tail in EK as [EK _]. exists d, p, l. auto. }
      assert (UP : forall k, shortened cfg w (rev rc) k -> shortened cfg w (rev (c :: rc)) k).
      { intros k (d & p & l & EK & REST). exists (d ++ [c]), p, l. cbn [rev]. rewrite EK, <- app_assoc. auto. }
      destruct (trunc cfg ind w (columns rc) rc) as [l|].
      * destruct IH as (keep & S0 & M & ->). exists keep. split; auto.
      * intros k H. apply DN in H. revert H. apply IH.
Qed.
Lemma end_spec : forall cfg rl rc ch, let done := rev rl in let on := rev rc in
  match end_of cfg rl rc (columns on) ch with
  | (rl', ch', stop) => ch' = ch /\
      ((on = [] /\ rl' = rl /\ stop = false)
       \/ (on <> [] /\ within_limit cfg done on ch /\ rev rl' = done ++ [indent cfg done ++ concat on] /\ stop = false)
       \/ (on <> [] /\ ~ within_limit cfg done on ch /\ abridged cfg done on (rev rl') /\ stop = true))
  end.
Proof.
  intros cfg rl rc ch done on. unfold end_of. cbv zeta. destruct rc as [|c rc]; [split; auto|].
  assert (NO : on <> []) by (subst on; cbn [rev]; intros Z; apply app_eq_nil in Z as [_ Z]; discriminate).
  match goal with |- context [if ?x then _ else _] => set (ok := x) end.
  assert (OK : ok = true <-> within_limit cfg done on ch).
  { subst ok. unfold within_limit. destruct (w_max_lines cfg) as [m|]; [|tauto]. unfold done. rewrite rev_length, indent_rev. rewrite orb_true_iff, andb_true_iff, Z.ltb_lt, Z.leb_le.
    assert (LC : match ch with [] => true | [c0] => w_drop cfg && bl c0 | _ => false end = true <-> ch = [] \/ (w_drop cfg = true /\ exists p, ch = [p] /\ blank_piece p)).
    { destruct ch as [|a [|b ch]].
      - intuition auto.
      - rewrite andb_true_iff, blank_is. split; [intros [D B]; right; eauto|intros [Z|(D & p & E & B)]; [discriminate|injection E as <-; auto]].
      - split; [discriminate|intros [Z|(D & p & E & B)]; discriminate]. }
    rewrite LC. tauto. }
  clearbody ok. destruct ok.
  - split; auto. right. left. split; auto. split; [now apply OK|]. split; auto. cbn [rev]. unfold done. rewrite indent_rev. reflexivity.
  - assert (NW : ~ within_limit cfg done on ch) by (rewrite <- OK; discriminate). unfold on. rewrite columns_rev.
    pose proof (trunc_spec cfg (match rl with [] => w_init cfg | _ => w_subs cfg end) (w_width cfg - len match rl with [] => w_init cfg | _ => w_subs cfg end) (c :: rc)) as TS.
    assert (IR : indent cfg done = match rl with [] => w_init cfg | _ => w_subs cfg end) by apply indent_rev.
    destruct (trunc cfg _ _ (columns (c :: rc)) (c :: rc)) as [l|].
    + destruct TS as (keep & S0 & M & ->). split; auto. right. right. split; auto. split; auto. split; auto. left. exists keep. rewrite IR. auto.
    + assert (LAST : ~ (exists d p, done = d ++ [p] /\ vlen (rstrip p) + len (w_placeholder cfg) <= w_width cfg) ->
        abridged cfg done on (rev ((match rl with [] => w_init cfg | _ => w_subs cfg end ++ lstrip (w_placeholder cfg)) :: rl))).
      { intros NP. right. rewrite IR. split; [exact TS|]. right. split; auto. }
      destruct rl as [|lst rl].
      * split; auto. right. right. split; auto. split; auto. split; auto. apply LAST. intros (d & p & E & _). destruct d; discriminate.
      * destruct (Z.leb_spec (vlen (rstrip lst) + len (w_placeholder cfg)) (w_width cfg)) as [L|L].
        -- split; auto. right. right. split; auto. split; auto. split; auto. right. rewrite IR. split; [exact TS|]. left. exists (rev rl), lst. auto.
        -- split; auto. right. right. split; auto. split; auto. split; auto. apply LAST. intros (d & p & E & L'). unfold done in E. cbn [rev] in E. apply app_inj_tail in E as [_ <-]. lia.
Qed.
Lemma step_spec : forall cfg rl chunks, match wrap_step cfg rl chunks with
  | (rl', ch, stop) => exists on, a_line cfg (rev rl) chunks on ch /\
      ((on = [] /\ rl' = rl /\ stop = false)
       \/ (on <> [] /\ within_limit cfg (rev rl) on ch /\ rev rl' = rev rl ++ [indent cfg (rev rl) ++ concat on] /\ stop = false)
       \/ (on <> [] /\ ~ within_limit cfg (rev rl) on ch /\ abridged cfg (rev rl) on (rev rl') /\ stop = true))
  end.
Proof.
  intros cfg rl chunks. rewrite wrap_step_parts. destruct (line_of cfg rl chunks) as [[rc k] ch] eqn:E. apply line_spec in E as [A ->].
  pose proof (end_spec cfg rl rc ch) as ES. cbv zeta in ES. destruct (end_of cfg rl rc (columns (rev rc)) ch) as [[rl' ch'] stop]. destruct ES as [-> ES]. exists (rev rc). auto.
Qed.

(** ** The loop *)
Lemma loop_laid : forall cfg fuel rl chunks lines, wrap_loop cfg fuel rl chunks = Ok lines -> laid cfg (rev rl) chunks lines.
Proof.
  intros cfg. induction fuel as [|f IH]; intros rl chunks lines H; destruct chunks as [|c r]; cbn [wrap_loop] in H; try discriminate; try (injection H as <-; constructor).
  pose proof (step_spec cfg rl (c :: r)) as SS. destruct (wrap_step cfg rl (c :: r)) as [[rl' ch] stop]. destruct SS as (on & A & [(-> & -> & ->)|[(NO & WL & ER & ->)|(NO & WL & AB & ->)]]).
  - eapply ld_nothing; [discriminate|exact A|auto].
  - eapply ld_line; [discriminate|exact A|auto|auto|]. rewrite <- ER. auto.
  - injection H as <-. eapply ld_limit; [discriminate|exact A|auto|auto|auto].
Qed.
Lemma laid_loop : forall cfg done ps lines, laid cfg done ps lines -> exists fuel, wrap_loop cfg fuel (rev done) ps = Ok lines.
Proof.
  induction 1 as [done|done ps rest lines NE A H [f IH]|done ps on rest lines NE A NO WL H [f IH]|done ps on rest lines NE A NO WL AB].
  - exists 0%nat. cbn [wrap_loop]. now rewrite rev_involutive.
  - exists (S f). destruct ps as [|c r]; [contradiction|]. cbn [wrap_loop]. pose proof (step_spec cfg (rev done) (c :: r)) as SS. destruct (wrap_step cfg (rev done) (c :: r)) as [[rl' ch] stop].
    rewrite rev_involutive in SS. destruct SS as (on & A' & SS). destruct (a_line_one _ _ _ _ _ _ _ A A') as [<- <-]. destruct SS as [(_ & -> & ->)|[(NO & _)|(NO & _)]]; [exact IH|contradiction|contradiction].
  - exists (S f). destruct ps as [|c r]; [contradiction|]. cbn [wrap_loop]. pose proof (step_spec cfg (rev done) (c :: r)) as SS. destruct (wrap_step cfg (rev done) (c :: r)) as [[rl' ch] stop].
    rewrite rev_involutive in SS. destruct SS as (on' & A' & SS). destruct (a_line_one _ _ _ _ _ _ _ A A') as [<- <-]. destruct SS as [(Z & _)|[(_ & _ & ER & ->)|(_ & NW & _)]]; [contradiction| |contradiction].
    apply (f_equal (@rev str)) in ER. rewrite rev_involutive in ER. rewrite ER. exact IH.
  - exists 1%nat. destruct ps as [|c r]; [contradiction|]. cbn [wrap_loop]. pose proof (step_spec cfg (rev done) (c :: r)) as SS. destruct (wrap_step cfg (rev done) (c :: r)) as [[rl' ch] stop].
    rewrite rev_involutive in SS. destruct SS as (on' & A' & SS). destruct (a_line_one _ _ _ _ _ _ _ A A') as [<- <-]. destruct SS as [(Z & _)|[(_ & NW & _)|(_ & _ & AB' & ->)]]; [contradiction|contradiction|].
    now rewrite (abridged_one _ _ _ _ _ AB AB').
Qed.
Lemma not_rejected : forall cfg, ~ rejected cfg <-> 0 < w_width cfg /\ room_for_limit cfg.
Proof.
  intros cfg. unfold rejected, room_for_limit. split.
  - intros H. split; [destruct (Z_lt_le_dec 0 (w_width cfg)); auto; exfalso; apply H; left; lia|]. intros m M. destruct (Z_le_gt_dec (len (if m >? 1 then w_subs cfg else w_init cfg) + len (lstrip (w_placeholder cfg))) (w_width cfg)) as [L|L]; auto.
    exfalso. apply H. right. exists m. split; auto.
  - intros [W R] [H|(m & M & H)]; [lia|]. specialize (R m M). lia.
Qed.
Theorem wrap_layout : forall cfg text lines, wrap cfg text = Ok lines <-> layout cfg text lines.
Proof.
  intros cfg text lines. unfold layout. split.
  - intros H. unfold wrap, wrap_chunks in H. apply wrap_Ok_accepted in H as [NR H]. apply not_rejected in NR as [W R]. split; auto. split; auto.
    apply loop_laid in H. destruct (proj2 (chunks_spec cfg text (text_chunks cfg text)) eq_refl) as (t & ps & T & CU & Q). exists t, ps, (text_chunks cfg text). auto.
  - intros (W & R & t & ps & qs & T & CU & Q & L). assert (qs = text_chunks cfg text) as ->. { apply chunks_spec. exists t, ps. auto. }
    apply laid_loop in L as (f & L). eapply (wrap_budget_ok cfg text lines f). rewrite wrap_chunks_accepted; [exact L|]. now apply not_rejected.
Qed.
End Lines.
Close Scope Z_scope.
