(** Templates: reading places, and whole templates. *)
From Verif Require Export FormatArgs.
From Coq Require Import Lia.
Open Scope N_scope.

Lemma braces_or : forall c, one_of "{}" c <-> (c = 123 \/ c = 125).
Proof. intros c. unfold one_of. change (lit "{}") with [123; 125]. cbn [In]. intuition congruence. Qed.
Lemma name_or : forall c, one_of "{}[:!" c <-> (c = 123 \/ c = 125 \/ c = 91 \/ c = 58 \/ c = 33).
Proof. intros c. unfold one_of. change (lit "{}[:!") with [123; 125; 91; 58; 33]. cbn [In]. intuition congruence. Qed.

(** ** Places *)
Fixpoint scan (t : str) (st : fstate) : option (place * str) :=
  match st with
  | InText => None
  | InName acc item =>
      match t with
      | [] => None
      | c :: r =>
          if item then scan r (InName (c :: acc) (negb (c =? 93)))
          else if c =? 123 then None
          else if c =? 91 then scan r (InName (c :: acc) true)
          else if c =? 125 then Some (Place (rev acc) None None, r)
          else if c =? 58 then scan r (InSpec (rev acc) None 0 [])
          else if c =? 33 then scan r (InConv (rev acc))
          else scan r (InName (c :: acc) false)
      end
  | InConv name => match t with [] => None | c :: r => scan r (PastConv name c) end
  | PastConv name conv =>
      match t with
      | [] => None
      | c :: r => if c =? 125 then Some (Place name (Some conv) None, r)
                  else if c =? 58 then scan r (InSpec name (Some conv) 0 []) else None
      end
  | InSpec name conv n acc =>
      match t with
      | [] => None
      | c :: r =>
          if c =? 123 then scan r (InSpec name conv (S n) (c :: acc))
          else if c =? 125 then
            match n with
            | O => Some (Place name conv (Some (rev acc)), r)
            | S n' => scan r (InSpec name conv n' (c :: acc))
            end
          else scan r (InSpec name conv n (c :: acc))
      end
  end.
Lemma run_scan : forall f t st m, st <> InText -> run_template f t st m =
  match scan t st with
  | None => Err EValue
  | Some (p, r) => let* (x, m1) := f (pl_name p) (pl_conv p) (spec_of p) m in let* (y, m2) := run_template f r InText m1 in Ok (x ++ y, m2)
  end.
Proof.
  intros f t. induction t as [|c t IH]; intros st m H; destruct st as [|acc item|name|name conv|name conv n acc]; try congruence; try reflexivity; cbn [run_template scan].
  - destruct item; [apply IH; discriminate|]. destruct (c =? 123); [reflexivity|]. destruct (c =? 91); [apply IH; discriminate|].
    destruct (c =? 125); [reflexivity|]. destruct (c =? 58); [apply IH; discriminate|]. destruct (c =? 33); apply IH; discriminate.
  - apply IH. discriminate.
  - destruct (c =? 125); [reflexivity|]. destruct (c =? 58); [apply IH; discriminate|reflexivity].
  - destruct (c =? 123); [apply IH; discriminate|]. destruct (c =? 125); [|apply IH; discriminate]. destruct n; [reflexivity|apply IH; discriminate].
Qed.
Definition conv_text (c : option N) : str := match c with Some c => [33; c] | None => [] end.
Definition spec_text (s : option str) : str := match s with Some s => 58 :: s | None => [] end.
Definition spec_ok (s : option str) : Prop := match s with Some s => braces 0 s | None => True end.
Lemma scan_spec : forall t name conv n acc p r, scan t (InSpec name conv n acc) = Some (p, r) ->
  exists s, t = s ++ 125 :: r /\ braces n s /\ p = Place name conv (Some (rev acc ++ s)).
Proof.
  induction t as [|c t IH]; intros name conv n acc p r H; cbn [scan] in H; [discriminate|].
  destruct (N.eqb_spec c 123) as [->|N1].
  - apply IH in H as (s & -> & B & ->). exists (123 :: s). cbn [rev app]. rewrite <- app_assoc. repeat split. now constructor.
  - destruct (N.eqb_spec c 125) as [->|N2].
    + destruct n as [|n].
      * injection H as <- <-. exists []. rewrite app_nil_r. repeat split. constructor.
      * apply IH in H as (s & -> & B & ->). exists (125 :: s). cbn [rev app]. rewrite <- app_assoc. repeat split. now constructor.
    + apply IH in H as (s & -> & B & ->). exists (c :: s). cbn [rev app]. rewrite <- app_assoc. repeat split. constructor; auto. rewrite braces_or. tauto.
Qed.
Lemma spec_scan : forall n s, braces n s -> forall name conv acc r,
  scan (s ++ 125 :: r) (InSpec name conv n acc) = Some (Place name conv (Some (rev acc ++ s)), r).
Proof.
  induction 1 as [|n c s NC H IH|n s H IH|n s H IH]; intros name conv acc r; cbn [app scan].
  - cbn. now rewrite app_nil_r.
  - rewrite braces_or in NC. destruct (N.eqb_spec c 123); [tauto|]. destruct (N.eqb_spec c 125); [tauto|]. rewrite IH. cbn [rev]. now rewrite <- app_assoc.
  - change (123 =? 123) with true. cbn iota. rewrite IH. cbn [rev]. now rewrite <- app_assoc.
  - change (125 =? 123) with false. change (125 =? 125) with true. cbn iota. rewrite IH. cbn [rev]. now rewrite <- app_assoc.
Qed.
Lemma scan_past : forall t name conv p r, scan t (PastConv name conv) = Some (p, r) ->
  exists sp, t = spec_text sp ++ 125 :: r /\ spec_ok sp /\ p = Place name (Some conv) sp.
Proof.
  intros [|c t] name conv p r H; cbn [scan] in H; [discriminate|]. destruct (N.eqb_spec c 125) as [->|N1].
  - injection H as <- <-. exists None. cbn. auto.
  - destruct (N.eqb_spec c 58) as [->|N2]; [|discriminate]. apply scan_spec in H as (s & -> & B & ->). exists (Some s). cbn. auto.
Qed.
Lemma scan_name : forall t,
  (forall acc p r, scan t (InName acc false) = Some (p, r) ->
     exists n c sp, t = n ++ conv_text c ++ spec_text sp ++ 125 :: r /\ name_text n /\ spec_ok sp /\ p = Place (rev acc ++ n) c sp)
  /\ (forall acc p r, scan t (InName acc true) = Some (p, r) ->
     exists s n c sp, t = s ++ 93 :: n ++ conv_text c ++ spec_text sp ++ 125 :: r /\ ~ In 93 s /\ name_text n /\ spec_ok sp /\ p = Place (rev acc ++ s ++ 93 :: n) c sp).
Proof.
  induction t as [|c t [IH1 IH2]]; (split; intros acc p r H; cbn [scan] in H; [|]); try discriminate.
  - destruct (N.eqb_spec c 123) as [->|N1]; [discriminate|]. destruct (N.eqb_spec c 91) as [->|N2].
    + apply IH2 in H as (s & n & cv & sp & -> & NI & NT & SP & ->). exists (91 :: s ++ 93 :: n), cv, sp. cbn [app rev]. rewrite <- !app_assoc. cbn [app]. repeat split; auto.
      change (91 :: s ++ 93 :: n) with (lit "[" ++ s ++ lit "]" ++ n). now constructor.
    + destruct (N.eqb_spec c 125) as [->|N3]; [injection H as <- <-; exists [], None, None; rewrite app_nil_r; cbn; repeat split; constructor|].
      destruct (N.eqb_spec c 58) as [->|N4]; [apply scan_spec in H as (s & -> & B & ->); exists [], None, (Some s); rewrite app_nil_r; cbn; repeat split; auto; constructor|].
      destruct (N.eqb_spec c 33) as [->|N5].
      * destruct t as [|d t]; [discriminate|]. cbn [scan] in H. apply scan_past in H as (sp & -> & B & ->). exists [], (Some d), sp. rewrite app_nil_r. cbn. repeat split; auto. constructor.
      * apply IH1 in H as (n & cv & sp & -> & NT & SP & ->). exists (c :: n), cv, sp. cbn [app rev]. rewrite <- app_assoc. repeat split; auto. constructor; auto. rewrite name_or. tauto.
  - destruct (N.eqb_spec c 93) as [->|N1]; cbn [negb] in H.
    + apply IH1 in H as (n & cv & sp & -> & NT & SP & ->). exists [], n, cv, sp. cbn [app rev]. rewrite <- app_assoc. repeat split; auto.
    + apply IH2 in H as (s & n & cv & sp & -> & NI & NT & SP & ->). exists (c :: s), n, cv, sp. cbn [app rev]. rewrite <- !app_assoc. cbn [app]. repeat split; auto. intros [X|X]; auto.
Qed.
Lemma item_scan : forall s acc t, ~ In 93 s -> scan (s ++ 93 :: t) (InName acc true) = scan t (InName (93 :: rev s ++ acc) false).
Proof.
  induction s as [|c s IH]; intros acc t H; cbn [app scan].
  - reflexivity.
  - destruct (N.eqb_spec c 93) as [->|NC]; [elim H; now left|]. cbn [negb]. rewrite IH by (intros X; apply H; now right). cbn [rev]. now rewrite <- app_assoc.
Qed.
Lemma name_scan : forall n, name_text n -> forall acc t, scan (n ++ t) (InName acc false) = scan t (InName (rev n ++ acc) false).
Proof.
  induction 1 as [|c n NC H IH|s n NS H IH]; intros acc t.
  - reflexivity.
  - cbn [app scan]. rewrite name_or in NC. destruct (N.eqb_spec c 123); [tauto|]. destruct (N.eqb_spec c 91); [tauto|]. destruct (N.eqb_spec c 125); [tauto|].
    destruct (N.eqb_spec c 58); [tauto|]. destruct (N.eqb_spec c 33); [tauto|]. rewrite IH. cbn [rev]. now rewrite <- app_assoc.
  - change (lit "[" ++ s ++ lit "]" ++ n) with (91 :: s ++ 93 :: n). cbn [app]. rewrite <- app_assoc. cbn [app scan].
    change (91 =? 123) with false. change (91 =? 91) with true. cbn iota. rewrite item_scan by auto. rewrite IH. f_equal. f_equal.
    cbn [rev]. rewrite rev_app_distr. cbn [rev]. rewrite <- !app_assoc. reflexivity.
Qed.
Lemma place_is : forall p r, place_text p ++ r = 123 :: pl_name p ++ conv_text (pl_conv p) ++ spec_text (pl_spec p) ++ 125 :: r.
Proof. intros p r. unfold place_text. fold (conv_text (pl_conv p)) (spec_text (pl_spec p)). change (lit "{") with [123]. change (lit "}") with [125]. cbn [app]. rewrite <- !app_assoc. reflexivity. Qed.
Lemma scan_ok : forall p r, well_written p -> exists t, place_text p ++ r = 123 :: t /\ begins_not (eq 123) t /\ scan t (InName [] false) = Some (p, r).
Proof.
  intros p r [HN HS]. rewrite place_is. eexists. split; [reflexivity|]. split.
  - destruct p as [n c s]. cbn [pl_name pl_conv pl_spec] in *. destruct HN as [|d n ND H|s' n H1 H2].
    + destruct c as [c|]; cbn; [discriminate|]. destruct s; cbn; discriminate.
    + cbn. intros <-. apply ND. apply name_or. auto.
    + cbn. discriminate.
  - rewrite name_scan by auto. rewrite app_nil_r. destruct p as [n c s]. cbn [pl_name pl_conv pl_spec] in *.
    destruct c as [c|]; cbn [conv_text app scan].
    + cbn. rewrite rev_involutive. destruct s as [s|]; cbn [spec_text app scan].
      * cbn. rewrite spec_scan by auto. reflexivity.
      * reflexivity.
    + destruct s as [s|]; cbn [spec_text app scan]; cbn.
      * rewrite spec_scan by auto. now rewrite rev_involutive.
      * now rewrite rev_involutive.
Qed.
Lemma scan_place : forall t p r, scan t (InName [] false) = Some (p, r) -> well_written p /\ 123 :: t = place_text p ++ r.
Proof.
  intros t p r H. apply scan_name in H as (n & c & sp & -> & NT & SP & ->). rewrite place_is. cbn. split; [split; auto|reflexivity].
Qed.

(** ** Templates *)
Section F.
Context `{U : Uni}.
Variables (args : list farg) (kws : dict farg).
Definition at_field (d : nat) (name : str) (conv : option N) (spec : str) (m : fmode) : res (str * fmode) :=
  let* (a, m1) := field_value name args kws m in
  let* b := convert conv a in
  let* (spec, m2) := if existsb (N.eqb 123) spec then build d args kws spec m1 else Ok (spec, m1) in
  let* x := format_arg b spec in
  Ok (x, m2).
Lemma build_S : forall d t m, build (S d) args kws t m = run_template (at_field d) t InText m.
Proof. reflexivity. Qed.
Lemma in_123 : forall s, existsb (N.eqb 123) s = true <-> In 123 s.
Proof. intros s. rewrite existsb_exists. split; [intros (x & H & E); apply N.eqb_eq in E; now subst x|]. intros H. exists 123. auto. Qed.
Definition build_right (d : nat) : Prop :=
  forall t m, match build d args kws t m with Ok (x, m') => given args kws d m t x m' | Err ex => fails args kws d m t ex end.
Lemma field_sound : forall d, build_right d -> forall p m,
  match at_field d (pl_name p) (pl_conv p) (spec_of p) m with Ok (x, m') => stands args kws d m p x m' | Err ex => falls args kws d m p ex end.
Proof.
  intros d BR p m. unfold at_field. pose proof (value_sound args kws (pl_name p) m) as V. destruct (field_value (pl_name p) args kws m) as [[a m1]|ex]; cbn [bind]; [|now apply fa_name].
  pose proof (convert_sound (pl_conv p) a) as C. destruct (convert (pl_conv p) a) as [b|ex]; cbn [bind]; [|eapply fa_conv; eauto].
  pose proof (in_123 (spec_of p)) as I3. destruct (existsb (N.eqb 123) (spec_of p)).
  - apply proj1 in I3. specialize (I3 eq_refl). specialize (BR (spec_of p) m1). destruct (build d args kws (spec_of p) m1) as [[sp m2]|ex]; cbn [bind]; [|eapply fa_spec; eauto].
    pose proof (format_arg_sound b sp) as F. destruct (format_arg b sp) as [x|ex]; cbn [bind]; [eapply sa_nested; eauto|eapply fa_nested; eauto].
  - assert (NI : ~ In 123 (spec_of p)) by (intros X; apply I3 in X; discriminate). cbn [bind].
    pose proof (format_arg_sound b (spec_of p)) as F. destruct (format_arg b (spec_of p)) as [x|ex]; cbn [bind]; [eapply sa_flat; eauto|eapply fa_flat; eauto].
Qed.
Lemma build_sound : forall d, build_right d.
Proof.
  induction d as [|d BR]; [intros t m; apply fl_deep|]. intros t m. rewrite build_S. remember (length t) as k eqn:K.
  assert (LK : (length t <= k)%nat) by lia. clear K. revert t m LK. induction k as [|k IH]; intros t m LK.
  { destruct t; [apply gi_end|cbn in LK; lia]. }
  destruct t as [|c t]; [apply gi_end|]. cbn [length] in LK. cbn [run_template]. destruct (N.eqb_spec c 123) as [->|N1].
  - destruct t as [|e t]; [apply fl_open; [exact I|]|].
    { intros p r W E. destruct (scan_ok p r W) as (t' & E' & _ & S). rewrite E' in E. injection E as <-. discriminate. }
    destruct (N.eqb_spec e 123) as [->|N2].
    + cbn [length] in LK. specialize (IH t m ltac:(lia)). destruct (run_template (at_field d) t InText m) as [[x m']|ex]; cbn [bind]; [apply gi_brace|apply fl_brace]; auto; apply braces_or; auto.
    + rewrite run_scan by discriminate. destruct (scan (e :: t) (InName [] false)) as [[p r]|] eqn:S.
      * apply scan_place in S as [W E]. rewrite E.
        assert (LR : (length r <= k)%nat). { apply (f_equal (@length N)) in E. rewrite place_is in E. cbn [length] in E. rewrite !app_length in E. cbn [length] in *. lia. }
        pose proof (field_sound d BR p m) as F. destruct (at_field d (pl_name p) (pl_conv p) (spec_of p) m) as [[x m1]|ex]; cbn [bind]; [|eapply fl_place; eauto].
        specialize (IH r m1 LR). destruct (run_template (at_field d) r InText m1) as [[y m2]|ex]; cbn [bind]; [eapply gi_place; eauto|eapply fl_after; eauto].
      * apply fl_open; [cbn; congruence|]. intros p r W E. destruct (scan_ok p r W) as (t' & E' & _ & S'). rewrite E' in E. injection E as <-. congruence.
  - destruct (N.eqb_spec c 125) as [->|N2].
    + destruct t as [|e t]; [apply fl_close; exact I|]. destruct (N.eqb_spec e 125) as [->|N3]; [|apply fl_close; cbn; congruence].
      cbn [length] in LK. specialize (IH t m ltac:(lia)). destruct (run_template (at_field d) t InText m) as [[x m']|ex]; cbn [bind]; [apply gi_brace|apply fl_brace]; auto; apply braces_or; auto.
    + specialize (IH t m ltac:(lia)). destruct (run_template (at_field d) t InText m) as [[x m']|ex]; cbn [bind]; [apply gi_char|apply fl_char]; auto; rewrite braces_or; tauto.
Qed.
Scheme given_ind2 := Minimality for given Sort Prop with stands_ind2 := Minimality for stands Sort Prop.
Combined Scheme given_stands from given_ind2, stands_ind2.
Scheme fails_ind2 := Minimality for fails Sort Prop with falls_ind2 := Minimality for falls Sort Prop.
Combined Scheme fails_falls from fails_ind2, falls_ind2.
Lemma run_place : forall f p r m, well_written p -> run_template f (place_text p ++ r) InText m =
  let* (x, m1) := f (pl_name p) (pl_conv p) (spec_of p) m in let* (y, m2) := run_template f r InText m1 in Ok (x ++ y, m2).
Proof.
  intros f p r m W. destruct (scan_ok p r W) as (t & -> & B & S). cbn [run_template]. change (123 =? 123) with true. cbn iota. destruct t as [|e t]; [discriminate|].
  cbn in B. destruct (N.eqb_spec e 123); [congruence|]. rewrite run_scan by discriminate. rewrite S. reflexivity.
Qed.
Lemma run_brace : forall f c t m, one_of "{}" c -> run_template f (c :: c :: t) InText m = let* (x, m') := run_template f t InText m in Ok (c :: x, m').
Proof. intros f c t m H. apply braces_or in H as [->| ->]; reflexivity. Qed.
Lemma run_char : forall f c t m, ~ one_of "{}" c -> run_template f (c :: t) InText m = let* (x, m') := run_template f t InText m in Ok (c :: x, m').
Proof. intros f c t m H. rewrite braces_or in H. cbn [run_template]. destruct (N.eqb_spec c 123); [tauto|]. destruct (N.eqb_spec c 125); [tauto|]. reflexivity. Qed.
Lemma build_ok_both :
  (forall d m t x m', given args kws d m t x m' -> build d args kws t m = Ok (x, m'))
  /\ (forall d m p x m', stands args kws d m p x m' -> at_field d (pl_name p) (pl_conv p) (spec_of p) m = Ok (x, m')).
Proof.
  apply given_stands.
  - reflexivity.
  - intros k m c t out m' NC _ IH. rewrite build_S in *. rewrite run_char by auto. now rewrite IH.
  - intros k m c t out m' NC _ IH. rewrite build_S in *. rewrite run_brace by auto. now rewrite IH.
  - intros k m p t x out m1 m2 W _ I1 _ I2. rewrite build_S in *. rewrite run_place by auto. rewrite I1. cbn [bind]. now rewrite I2.
  - intros k m p a b x m' V C NI P. unfold at_field. rewrite (value_ok _ _ _ _ _ _ V). cbn [bind]. rewrite (convert_ok _ _ _ C). cbn [bind].
    destruct (existsb (N.eqb 123) (spec_of p)) eqn:E; [apply in_123 in E; tauto|]. cbn [bind]. now rewrite (format_arg_ok _ _ _ P).
  - intros k m p a b sp x m1 m2 V C II _ IH P. unfold at_field. rewrite (value_ok _ _ _ _ _ _ V). cbn [bind]. rewrite (convert_ok _ _ _ C). cbn [bind].
    apply in_123 in II. rewrite II, IH. cbn [bind]. now rewrite (format_arg_ok _ _ _ P).
Qed.
Lemma build_err_both :
  (forall d m t ex, fails args kws d m t ex -> build d args kws t m = Err ex)
  /\ (forall d m p ex, falls args kws d m p ex -> at_field d (pl_name p) (pl_conv p) (spec_of p) m = Err ex).
Proof.
  destruct build_ok_both as [GO SO]. apply fails_falls.
  - reflexivity.
  - intros k m c t ex NC _ IH. rewrite build_S in *. rewrite run_char by auto. now rewrite IH.
  - intros k m c t ex NC _ IH. rewrite build_S in *. rewrite run_brace by auto. now rewrite IH.
  - intros k m t B. rewrite build_S. cbn [run_template]. change (125 =? 123) with false. change (125 =? 125) with true. cbn iota. destruct t as [|e t]; auto. cbn in B. destruct (N.eqb_spec e 125); [congruence|]. reflexivity.
  - intros k m t B NP. rewrite build_S. cbn [run_template]. change (123 =? 123) with true. cbn iota. destruct t as [|e t]; auto. cbn in B. destruct (N.eqb_spec e 123); [congruence|].
    rewrite run_scan by discriminate. destruct (scan (e :: t) (InName [] false)) as [[p r]|] eqn:S; auto. apply scan_place in S as [W E]. now elim (NP p r W).
  - intros k m p t ex W _ IH. rewrite build_S in *. rewrite run_place by auto. now rewrite IH.
  - intros k m p t x m1 ex W ST _ IH. rewrite build_S in *. rewrite run_place by auto. rewrite (SO _ _ _ _ _ ST). cbn [bind]. now rewrite IH.
  - intros k m p ex V. unfold at_field. now rewrite (value_err _ _ _ _ _ V).
  - intros k m p a m1 ex V C. unfold at_field. rewrite (value_ok _ _ _ _ _ _ V). cbn [bind]. now rewrite (convert_err _ _ _ C).
  - intros k m p a b m1 ex V C NI P. unfold at_field. rewrite (value_ok _ _ _ _ _ _ V). cbn [bind]. rewrite (convert_ok _ _ _ C). cbn [bind].
    destruct (existsb (N.eqb 123) (spec_of p)) eqn:E; [apply in_123 in E; tauto|]. cbn [bind]. now rewrite (format_arg_err _ _ _ P).
  - intros k m p a b m1 ex V C II _ IH. unfold at_field. rewrite (value_ok _ _ _ _ _ _ V). cbn [bind]. rewrite (convert_ok _ _ _ C). cbn [bind].
    apply in_123 in II. now rewrite II, IH.
  - intros k m p a b sp m1 m2 ex V C II G P. unfold at_field. rewrite (value_ok _ _ _ _ _ _ V). cbn [bind]. rewrite (convert_ok _ _ _ C). cbn [bind].
    apply in_123 in II. rewrite II, (GO _ _ _ _ _ G). cbn [bind]. now rewrite (format_arg_err _ _ _ P).
Qed.
Lemma format_ok : forall t out, format t args kws = Ok out <-> formats args kws t out.
Proof.
  intros t out. unfold format, formats. split.
  - intros H. pose proof (build_sound 2 t FUnset) as B. destruct (build 2 args kws t FUnset) as [[x m]|ex]; cbn [bind] in H; [|discriminate]. injection H as <-. eauto.
  - intros [m G]. now rewrite (proj1 build_ok_both _ _ _ _ _ G).
Qed.
Lemma format_err : forall t ex, format t args kws = Err ex <-> misformats args kws t ex.
Proof.
  intros t ex. unfold format, misformats. split.
  - intros H. pose proof (build_sound 2 t FUnset) as B. destruct (build 2 args kws t FUnset) as [[x m]|ex']; cbn [bind] in H; [discriminate|]. injection H as <-. auto.
  - intros G. now rewrite (proj1 build_err_both _ _ _ _ G).
Qed.
Lemma formats_or : forall t, (exists out, formats args kws t out) \/ exists ex, misformats args kws t ex.
Proof. intros t. destruct (format t args kws) as [x|ex] eqn:E; [left; exists x; now apply format_ok|right; exists ex; now apply format_err]. Qed.
End F.
Close Scope N_scope.
