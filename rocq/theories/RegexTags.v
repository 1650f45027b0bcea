(** Tags, comments, sections and raw text: the model against the expressions. *)
From Verif Require Import RegexSpec RegexFacts RegexText RegexRefs Tokenizer TokFacts StrFacts BaseFacts.
From Coq Require Import Lia.
Open Scope N_scope.

(** ** General repetition *)
Lemma greedy_fuel : forall body n m s, (length (ahead s) <= n)%nat -> (length (ahead s) <= m)%nat -> greedy body n s = greedy body m s.
Proof.
  intros body. assert (Z : forall m s, length (ahead s) = O -> greedy body m s = [s]).
  { intros [|m] s E; [reflexivity|]. cbn [greedy]. replace (flat_map _ (body s)) with (@nil spot); [reflexivity|]. induction (body s) as [|t l IH]; [reflexivity|]. cbn [flat_map]. rewrite <- IH. unfold progress. rewrite E. reflexivity. }
  induction n as [|n IH]; intros m s L L'; [rewrite (Z m) by lia; reflexivity|]. destruct m as [|m]; [rewrite (Z (S n)) by lia; reflexivity|]. cbn [greedy]. f_equal.
  induction (body s) as [|t l IHl]; [reflexivity|]. cbn [flat_map]. rewrite IHl. f_equal. unfold progress. destruct (Nat.ltb_spec (length (ahead t)) (length (ahead s))); [|reflexivity]. apply IH; lia.
Qed.
Lemma via_many : forall {A} a (k : spot -> option A) s, via (Many a) k s = match via a (fun t => if progress s t then via (Many a) k t else None) s with Some x => Some x | None => k s end.
Proof.
  intros A a k s. unfold via at 1. cbn [ways]. rewrite (greedy_fuel _ _ (S (length (ahead s)))) by lia. cbn [greedy]. rewrite first_app, first_flat. cbn [first]. unfold via at 1. 
  assert (E : first (fun t => first k (if progress s t then greedy (ways a) (length (ahead s)) t else [])) (ways a s) = first (fun t => if progress s t then via (Many a) k t else None) (ways a s)).
  { apply first_ext. intros t. unfold progress. destruct (Nat.ltb_spec (length (ahead t)) (length (ahead s))); [|reflexivity]. unfold via. cbn [ways]. f_equal. apply greedy_fuel; lia. }
  rewrite E. destruct (first (fun t => if progress s t then via (Many a) k t else None) (ways a s)); [reflexivity|]. now destruct (k s).
Qed.
Definition total {A} (k : spot -> option A) : Prop := forall t, k t <> None.
Lemma many_total_k : forall {A} a (k : spot -> option A), total k -> total (via (Many a) k).
Proof. intros A a k T s H. rewrite via_many in H. destruct (via a _ s); [discriminate|]. now apply T in H. Qed.
Lemma opt_total : forall {A} a (k : spot -> option A), total k -> total (via (opt a) k).
Proof. intros A a k T s H. rewrite via_opt in H. destruct (via a k s); [discriminate|]. now apply T in H. Qed.
Lemma some_x : forall {A} (k : spot -> option A), total k -> forall t, exists x, k t = Some x.
Proof. intros A k T t. destruct (k t) eqn:E; [eauto|now contradiction (T t)]. Qed.
(** All are taken if it can go on. *)
Lemma many_takes : forall {A} p (k : spot -> option A), total k -> forall b s g, via (Many (Cls p)) k (Spot b s g) = k (spent p b s g).
Proof. intros A p k T b s g. destruct (some_x k T (spent p b s g)) as [x X]. rewrite X. now apply many_total. Qed.
(** One is given back if it cannot go on after all and can before each. *)
Lemma many_back : forall {A} p (k : spot -> option A), (forall b c t g, p c = true -> k (Spot b (c :: t) g) <> None) ->
  forall s b g, via (Many (Cls p)) k (Spot b s g) = match k (spent p b s g) with
    | Some x => Some x
    | None => match rev (take_while p s) with [] => None | x :: w => k (Spot (w ++ b) (x :: drop_while p s) g) end
    end.
Proof.
  intros A p k H. induction s as [|c s IH]; intros b g; [rewrite via_many_nil; unfold spent; cbn; now destruct (k _)|]. rewrite via_many_cls. unfold spent. cbn [take_while drop_while]. destruct (p c) eqn:E.
  - rewrite IH. unfold spent. cbn [rev]. rewrite <- app_assoc. cbn [app]. destruct (k (Spot (rev (take_while p s) ++ c :: b) (drop_while p s) g)); auto.
    pose proof (take_drop p s) as TD. destruct (rev (take_while p s)) as [|x w] eqn:R.
    + cbn [app]. assert (E0 : take_while p s = []) by (rewrite <- (rev_involutive (take_while p s)), R; reflexivity). rewrite E0 in TD. cbn [app] in TD. now rewrite TD.
    + cbn [app]. rewrite <- app_assoc. cbn [app]. assert (PX : p x = true). { assert (In x (take_while p s)) by (apply in_rev; rewrite R; now left). pose proof (take_all p s) as F. rewrite Forall_forall in F. now apply F. }
      destruct (k (Spot (w ++ c :: b) (x :: drop_while p s) g)) eqn:K; auto. now apply H in K.
  - cbn [rev app]. now destruct (k (Spot b (c :: s) g)).
Qed.

(** ** Tag names and separators *)
Lemma az_is : forall c, az c = is_alpha_ascii c. Proof. intros c. unfold az, is_alpha_ascii, is_lower_ascii, is_upper_ascii, span. first [reflexivity | apply orb_comm]. Qed.
Lemma namec_is : forall c, none_of [9; 10; 13; 12; 32; 47; 62; 0] c = name_char c.
Proof. intros c. unfold none_of, one_of, name_char. cbn [existsb]. now rewrite orb_false_r, !orb_assoc. Qed.
Lemma alpha_name : forall c, is_alpha_ascii c = true -> name_char c = true.
Proof.
  intros c H. unfold is_alpha_ascii, is_lower_ascii, is_upper_ascii in H. unfold name_char. apply negb_true_iff. apply not_true_is_false. rewrite !orb_true_iff, !N.eqb_eq. intros D. rewrite orb_true_iff, !andb_true_iff, !N.leb_le in H. lia.
Qed.
Lemma tag_name_via : forall {A} (k : spot -> option A), total k -> forall b s g, via tag_name k (Spot b s g) = match s with
  | c :: _ => if is_alpha_ascii c then k (spent name_char b s g) else None | [] => None end.
Proof.
  intros A k T b s g. unfold tag_name. rewrite via_seq, via_cls. destruct s as [|c s]; auto. rewrite az_is. destruct (is_alpha_ascii c) eqn:E; auto. rewrite many_takes by exact T. rewrite (spent_ext _ name_char) by apply namec_is. unfold spent. cbn [take_while drop_while]. rewrite (alpha_name c E). cbn [rev]. now rewrite <- app_assoc.
Qed.
(** What [(?:\s|/(?!>))*] takes. *)
Fixpoint misc_of (s : str) : str :=
  match s with
  | c :: r => if is_space c then c :: misc_of r
              else if c =? 47 then match r with d :: _ => if d =? 62 then [] else c :: misc_of r | [] => [c] end
              else []
  | [] => []
  end.
Lemma skip_misc_is : forall s p, skip_misc p s = (last (misc_of s) p, skipn (length (misc_of s)) s).
Proof.
  induction s as [|c r IH]; intros p; [reflexivity|]. cbn [skip_misc misc_of]. assert (L : forall l : str, last (c :: l) p = last l c) by (intros l; destruct l as [|y l]; [reflexivity|]; revert y; induction l as [|z l IHl]; intros y; [reflexivity|]; cbn [last] in *; now rewrite IHl).
  destruct (is_space c); [cbn [length skipn]; rewrite IH, L; reflexivity|]. destruct (c =? 47); [|reflexivity]. destruct r as [|d r]; [reflexivity|]. destruct (d =? 62); [reflexivity|]. cbn [length skipn]. rewrite IH, L. reflexivity.
Qed.
Lemma misc_cut : forall s, s = misc_of s ++ skipn (length (misc_of s)) s.
Proof. induction s as [|c r IH]; [reflexivity|]. cbn [misc_of]. destruct (is_space c); [cbn [length skipn app]; now rewrite <- IH|]. destruct (c =? 47); [|reflexivity]. destruct r as [|d r]; [reflexivity|]. destruct (d =? 62); [reflexivity|]. cbn [length skipn app]. now rewrite <- IH. Qed.
Lemma misc_via : forall {A} (k : spot -> option A), total k -> forall s b g, via misc k (Spot b s g) = k (Spot (rev (misc_of s) ++ b) (skipn (length (misc_of s)) s) g).
Proof.
  intros A k T. assert (P1 : forall b (c : N) r g b' g', progress (Spot b (c :: r) g) (Spot b' r g') = true) by (intros; unfold progress; cbn [ahead length]; apply Nat.ltb_lt; lia).
  assert (TM : total (via misc k)) by (now apply many_total_k).
  assert (ST : forall b c r g, via misc k (Spot b (c :: r) g) = if is_space c || ((c =? 47) && match r with d :: _ => negb (d =? 62) | [] => true end) then via misc k (Spot (c :: b) r g) else k (Spot b (c :: r) g)).
  { intros b c r g. unfold misc at 1. rewrite via_many. fold misc. rewrite via_alt, via_cls. destruct (is_space c) eqn:ES.
    - rewrite P1. cbn [orb]. destruct (some_x _ TM (Spot (c :: b) r g)) as [x X]. now rewrite X.
    - cbn [orb]. rewrite via_seq. unfold chr at 1. rewrite via_cls. destruct (N.eqb_spec 47 c) as [<-|NC].
      + change (47 =? 47) with true. cbn [andb]. rewrite not_via. unfold chr. rewrite via_cls. destruct (some_x _ TM (Spot (47 :: b) r g)) as [x X]. destruct r as [|d r]; [rewrite P1; now rewrite X|].
        destruct (N.eqb_spec 62 d) as [<-|ND]; [reflexivity|]. destruct (N.eqb_spec d 62); [congruence|]. cbn [negb]. rewrite P1. now rewrite X.
      + destruct (N.eqb_spec c 47); [congruence|]. reflexivity. }
  induction s as [|c s IH]; intros b g; [unfold misc; now rewrite via_many_nil|]. rewrite ST. cbn [misc_of]. destruct (is_space c); cbn [orb].
  - rewrite IH. cbn [length skipn rev]. now rewrite <- app_assoc.
  - destruct (c =? 47); cbn [andb]; [|reflexivity]. destruct s as [|d s]; [unfold misc; now rewrite via_many_nil|]. destruct (d =? 62); cbn [negb]; [reflexivity|]. rewrite IH. cbn [length skipn rev]. now rewrite <- app_assoc.
Qed.
Lemma misc_total : forall {A} (k : spot -> option A), total k -> total (via misc k).
Proof. intros A k T. now apply many_total_k. Qed.
(** White space before it makes no difference. *)
Lemma misc_blank : forall s, misc_of s = take_while is_space s ++ misc_of (drop_while is_space s).
Proof. induction s as [|c s IH]; [reflexivity|]. cbn [take_while drop_while]. destruct (is_space c) eqn:E; [cbn [misc_of app]; rewrite E; now rewrite IH at 1|reflexivity]. Qed.
Lemma blank_misc : forall {A} (k : spot -> option A), total k -> forall s b g, via blank_re (via misc k) (Spot b s g) = via misc k (Spot b s g).
Proof.
  intros A k T s b g. unfold blank_re. rewrite many_takes by (now apply misc_total). unfold spent. rewrite !misc_via by exact T. rewrite (misc_blank s). rewrite rev_app_distr, <- app_assoc, app_length. f_equal. f_equal.
  assert (X : forall n, skipn (length (take_while is_space s) + n) (take_while is_space s ++ drop_while is_space s) = skipn n (drop_while is_space s)) by (intros n; rewrite skipn_app, skipn_all2 by lia; cbn [app]; f_equal; lia).
  rewrite (take_drop is_space s) in X. now rewrite X.
Qed.

(** ** Attribute values *)
Definition bare_char (c : N) : bool := negb ((c =? 62) || is_space c).
Lemma bare_is : forall c, neither (N.eqb 62) is_space c = bare_char c. Proof. intros c. unfold neither, bare_char. now rewrite (N.eqb_sym 62). Qed.
Lemma quotes_is : forall c, quotes c = is_quote c. Proof. intros c. unfold quotes, one_of, is_quote. cbn [existsb]. now rewrite orb_false_r. Qed.
Lemma not_q : forall q c, none_of [q] c = negb (c =? q). Proof. intros. unfold none_of, one_of. cbn [existsb]. now rewrite orb_false_r. Qed.
Lemma has_take : forall q t, has_char q t = true -> drop_while (fun c => negb (c =? q)) t = q :: skipn (S (length (take_while (fun c => negb (c =? q)) t))) t.
Proof.
  intros q. induction t as [|c t IH]; intros H; [discriminate|]. cbn [drop_while take_while]. unfold has_char in H. cbn [existsb] in H. rewrite N.eqb_sym in H. destruct (N.eqb_spec c q) as [->|NE]; [reflexivity|]. cbn [negb orb] in *. rewrite IH by exact H. reflexivity.
Qed.
Lemma has_not : forall q t, has_char q t = false -> drop_while (fun c => negb (c =? q)) t = [].
Proof. intros q. induction t as [|c t IH]; intros H; [reflexivity|]. cbn [drop_while]. unfold has_char in H. cbn [existsb] in H. rewrite N.eqb_sym in H. destruct (N.eqb_spec c q) as [->|NE]; [discriminate|]. cbn [negb orb] in *. now apply IH. Qed.
Lemma quoted_via : forall {A} q (k : spot -> option A) b t g, via (quoted q) k (Spot b (q :: t) g) = if has_char q t then
    let v := take_while (fun c => negb (c =? q)) t in k (Spot (rev (q :: v ++ [q]) ++ b) (skipn (S (length v)) t) g) else None.
Proof.
  intros A q k b t g. unfold quoted. cbn [seqs]. rewrite via_seq. unfold chr at 1. rewrite via_cls. rewrite N.eqb_refl. rewrite via_seq, many_all.
  - rewrite (spent_ext _ (fun c => negb (c =? q))) by apply not_q. unfold spent. unfold chr. rewrite via_cls. destruct (has_char q t) eqn:E.
    + rewrite (has_take q t E). rewrite N.eqb_refl. cbv zeta. f_equal. f_equal. cbn [rev]. rewrite rev_app_distr. cbn [rev app]. now rewrite <- app_assoc.
    + now rewrite (has_not q t E).
  - intros b0 c s g0 P. rewrite not_q in P. unfold chr. rewrite via_cls. destruct (N.eqb_spec q c) as [->|]; auto. rewrite N.eqb_refl in P. discriminate P.
Qed.
Lemma quoted_other : forall {A} q (k : spot -> option A) b s g, (forall t, s <> q :: t) -> via (quoted q) k (Spot b s g) = None.
Proof. intros A q k b s g H. unfold quoted. cbn [seqs]. rewrite via_seq. unfold chr at 1. rewrite via_cls. destruct s as [|c s]; auto. destruct (N.eqb_spec q c) as [->|]; auto. now contradiction (H s). Qed.
(** The value as written, at a place where it starts. *)
Definition text_here (s : str) : option str :=
  match s with
  | q :: t => if is_quote q then if has_char q t then Some (q :: take_while (fun c => negb (c =? q)) t ++ [q]) else None else Some (take_while bare_char s)
  | [] => Some []
  end.
Lemma take_len_drop : forall p (s : str), skipn (length (take_while p s)) s = drop_while p s.
Proof. intros p s. rewrite <- (take_drop p s) at 2. rewrite skipn_app, skipn_all, Nat.sub_diag. reflexivity. Qed.
Lemma text_cut : forall s v, text_here s = Some v -> s = v ++ skipn (length v) s.
Proof.
  intros [|q t] v H; [injection H as <-; reflexivity|]. cbn [text_here] in H. destruct (is_quote q).
  - destruct (has_char q t) eqn:E; [|discriminate]. injection H as <-. cbn [length skipn]. rewrite app_length. cbn [length app]. rewrite Nat.add_1_r. f_equal. rewrite <- app_assoc. cbn [app]. rewrite <- (has_take q t E). symmetry. apply take_drop.
  - assert (E : v = take_while bare_char (q :: t)) by congruence. subst v. rewrite take_len_drop. symmetry. apply take_drop.
Qed.
Lemma attr_text_via : forall {A} (k : spot -> option A), total k -> forall b s g, via attr_text k (Spot b s g) = match text_here s with Some v => k (Spot (rev v ++ b) (skipn (length v) s) g) | None => None end.
Proof.
  intros A k T b s g. unfold attr_text. cbn [alts]. rewrite !via_alt. rewrite via_seq, not_via, via_cls.
  assert (BR : via (Many (Cls (neither (N.eqb 62) is_space))) k (Spot b s g) = k (Spot (rev (take_while bare_char s) ++ b) (skipn (length (take_while bare_char s)) s) g)).
  { rewrite many_takes by exact T. rewrite (spent_ext _ bare_char) by apply bare_is. now rewrite take_len_drop. }
  destruct s as [|q t].
  - rewrite !quoted_other by discriminate. rewrite BR. reflexivity.
  - rewrite quotes_is. cbn [text_here]. destruct (is_quote q) eqn:Q.
    + unfold is_quote in Q. destruct (N.eqb_spec q 39) as [->|N39].
      * rewrite quoted_via. rewrite (quoted_other 34) by congruence. destruct (has_char 39 t); [|reflexivity]. cbv zeta. destruct (some_x k T (Spot (rev (39 :: take_while (fun c => negb (c =? 39)) t ++ [39]) ++ b) (skipn (S (length (take_while (fun c => negb (c =? 39)) t))) t) g)) as [x X]. rewrite X.
        cbn [length skipn]. rewrite app_length. cbn [length]. rewrite Nat.add_1_r. now rewrite X.
      * cbn [orb] in Q. apply N.eqb_eq in Q. subst q. rewrite (quoted_other 39) by congruence. rewrite quoted_via. destruct (has_char 34 t); [|reflexivity]. cbv zeta. destruct (some_x k T (Spot (rev (34 :: take_while (fun c => negb (c =? 34)) t ++ [34]) ++ b) (skipn (S (length (take_while (fun c => negb (c =? 34)) t))) t) g)) as [x X]. rewrite X.
        cbn [length skipn]. rewrite app_length. cbn [length]. rewrite Nat.add_1_r. now rewrite X.
    + rewrite !quoted_other by (intros t' E; injection E as -> ->; discriminate Q). exact BR.
Qed.
Lemma last_app' : forall (a b : str) d, last (a ++ b) d = last b (last a d).
Proof.
  induction a as [|x a IH]; intros b d; [reflexivity|]. cbn [app]. assert (L : forall (l : str) y e, last (y :: l) e = last l y) by (induction l as [|z l IHl]; intros y e; [reflexivity|]; change (last (y :: z :: l) e) with (last (z :: l) e); rewrite !IHl; destruct l; reflexivity).
  rewrite !L. apply IH.
Qed.
Lemma last_one : forall (x : N) l d, last (x :: l) d = last l x.
Proof. intros x l d. change (x :: l) with ([x] ++ l). now rewrite last_app'. Qed.
Lemma eqs_61 : forall s d, take_while (N.eqb 61) s <> [] -> last (take_while (N.eqb 61) s) d = 61.
Proof.
  intros s d NE. pose proof (take_all (N.eqb 61) s) as F. revert NE F. generalize (take_while (N.eqb 61) s). intros l NE F. induction F as [|x l P F IH]; [now contradiction NE|]. apply N.eqb_eq in P. subst x. rewrite last_one. destruct l; [reflexivity|]. rewrite last_one. rewrite last_one in IH. apply IH. discriminate.
Qed.
Lemma rev_61 : forall s x w, rev (take_while (N.eqb 61) s) = x :: w -> x = 61 /\ 61 :: take_while (N.eqb 61) s = rev w ++ [61; 61] .
Proof.
  intros s x w R. assert (E : take_while (N.eqb 61) s = rev w ++ [x]) by (rewrite <- (rev_involutive (take_while _ s)), R; reflexivity). pose proof (take_all (N.eqb 61) s) as F. rewrite E in *. apply Forall_app in F as [F1 F2]. inversion F2 as [|? ? P _]; subst. apply N.eqb_eq in P. subst x. split; [reflexivity|].
  assert (C : forall l, Forall (fun c => (61 =? c) = true) l -> 61 :: l = l ++ [61]) by (induction l as [|y l IH]; intros FL; [reflexivity|]; inversion FL as [|? ? P FL']; subst; apply N.eqb_eq in P; subst y; cbn [app]; now rewrite <- IH).
  change (61 :: rev w ++ [61]) with ((61 :: rev w) ++ [61]). rewrite (C (rev w) F1), <- app_assoc. reflexivity.
Qed.
Lemma blank_all : forall {A} (k : spot -> option A), (forall b c t g, is_space c = true -> k (Spot b (c :: t) g) = None) -> forall s b g, via blank_re k (Spot b s g) = k (spent is_space b s g).
Proof. intros A k H s b g. now apply many_all. Qed.
Section Value.
Context {A : Type}.
Variable X : re.
Variable k : spot -> option A.
Variable K : spot -> spot -> option A.
Hypothesis XP : forall s, via X k s = via attr_text (K s) s.
Hypothesis KT : forall s, total (K s).
Lemma x_via : forall b s g, via X k (Spot b s g) = match text_here s with Some v => K (Spot b s g) (Spot (rev v ++ b) (skipn (length v) s) g) | None => None end.
Proof. intros. rewrite XP. now apply attr_text_via. Qed.
Lemma text_space : forall c t, is_space c = true -> text_here (c :: t) = Some [].
Proof.
  intros c t S0. cbn [text_here]. replace (is_quote c) with false; [cbn [take_while]; unfold bare_char; rewrite S0, orb_true_r; reflexivity|]. symmetry. unfold is_quote. apply not_true_is_false. intros H. apply orb_prop in H as [H|H]; apply N.eqb_eq in H; subst c; discriminate S0.
Qed.
Lemma blankx_via : forall b s g, via (Seq blank_re X) k (Spot b s g) = match text_here (drop_while is_space s) with
  | Some v => K (Spot (rev (take_while is_space s) ++ b) (drop_while is_space s) g) (Spot (rev v ++ rev (take_while is_space s) ++ b) (skipn (length v) (drop_while is_space s)) g)
  | None => match rev (take_while is_space s) with [] => None | x :: w => K (Spot (w ++ b) (x :: drop_while is_space s) g) (Spot (w ++ b) (x :: drop_while is_space s) g) end
  end.
Proof.
  intros b s g. rewrite via_seq. unfold blank_re. rewrite many_back.
  - unfold spent. rewrite x_via. destruct (text_here (drop_while is_space s)) as [v|].
    + match goal with |- match ?e with _ => _ end = _ => destruct e eqn:E; [reflexivity|now apply KT in E] end.
    + destruct (rev (take_while is_space s)) as [|x w] eqn:R; [reflexivity|]. rewrite x_via, text_space; [reflexivity|]. assert (IN : In x (take_while is_space s)) by (apply in_rev; rewrite R; now left). pose proof (take_all is_space s) as F. rewrite Forall_forall in F. now apply F.
  - intros b0 c t g0 S0 H. rewrite x_via, text_space in H by exact S0. now apply KT in H.
Qed.
Lemma value_via : forall b s g, match attr_value s with
  | None => via (seqs [blank_re; some_of (chr 61); blank_re; X]) k (Spot b s g) = None
  | Some (v, p, r) => exists pre, pre <> [] /\ s = pre ++ v ++ r /\ (forall d, p = last (pre ++ v) d)
      /\ via (seqs [blank_re; some_of (chr 61); blank_re; X]) k (Spot b s g) = K (Spot (rev pre ++ b) (v ++ r) g) (Spot (rev v ++ rev pre ++ b) r g)
  end.
Proof.
  intros b s g. cbn [seqs]. rewrite via_seq, blank_all.
  2:{ intros b0 c t g0 S0. unfold some_of. rewrite !via_seq. unfold chr at 1. rewrite via_cls. destruct (N.eqb_spec 61 c) as [<-|]; [discriminate S0|reflexivity]. }
  pose proof (take_drop is_space s) as TD1. unfold spent. unfold attr_value. set (w1 := take_while is_space s) in *. set (s1 := drop_while is_space s) in *. clearbody w1 s1.
  rewrite via_seq. unfold some_of. rewrite via_seq. unfold chr. rewrite via_cls. cbv zeta. destruct s1 as [|c e]; [reflexivity|]. cbn [take_while drop_while]. destruct (N.eqb_spec 61 c) as [<-|NC]; [|reflexivity].
  rewrite many_back.
  2:{ intros b0 c t g0 P. apply N.eqb_eq in P. subst c. rewrite blankx_via. change (drop_while is_space (61 :: t)) with (61 :: t). change (text_here (61 :: t)) with (Some (take_while bare_char (61 :: t))). apply KT. }
  unfold spent. rewrite blankx_via. pose proof (take_drop (N.eqb 61) e) as TD2. pose proof (eqs_61 (61 :: e)) as L61. cbn [take_while] in L61. change (61 =? 61) with true in L61. cbv iota in L61. pose proof (rev_61 e) as R61.
  set (eqs := take_while (N.eqb 61) e) in *. set (s2 := drop_while (N.eqb 61) e) in *. clearbody eqs s2. pose proof (take_drop is_space s2) as TD3. set (w2 := take_while is_space s2) in *. set (s3 := drop_while is_space s2) in *. assert (N3 : w2 = [] -> s3 = s2) by (intros Z; rewrite Z in TD3; exact TD3). clearbody w2 s3.
  assert (ES : forall r, s3 = r -> s = (w1 ++ (61 :: eqs) ++ w2) ++ r) by (intros r <-; rewrite <- TD1, <- TD2, <- TD3; rewrite <- !app_assoc; reflexivity).
  assert (NP : w1 ++ (61 :: eqs) ++ w2 <> []) by (intros Z; apply app_eq_nil in Z as [_ Z]; discriminate Z).
  assert (RP : rev (w1 ++ (61 :: eqs) ++ w2) ++ b = rev w2 ++ rev eqs ++ 61 :: rev w1 ++ b) by (rewrite !rev_app_distr; cbn [rev]; rewrite <- !app_assoc; reflexivity).
  assert (LP : forall d, last (w1 ++ (61 :: eqs) ++ w2) d = last_of 61 w2) by (intros d; rewrite !last_app', L61 by discriminate; reflexivity).
  assert (OK3 : forall v, text_here s3 = Some v -> exists pre, pre <> [] /\ s = pre ++ v ++ skipn (length v) s3 /\ (forall d, last_of (last_of 61 w2) v = last (pre ++ v) d)
     /\ match text_here s3 with
        | Some v0 => K (Spot (rev w2 ++ rev eqs ++ 61 :: rev w1 ++ b) s3 g) (Spot (rev v0 ++ rev w2 ++ rev eqs ++ 61 :: rev w1 ++ b) (skipn (length v0) s3) g)
        | None => match rev w2 with [] => None | x :: w => K (Spot (w ++ rev eqs ++ 61 :: rev w1 ++ b) (x :: s3) g) (Spot (w ++ rev eqs ++ 61 :: rev w1 ++ b) (x :: s3) g) end
        end = K (Spot (rev pre ++ b) (v ++ skipn (length v) s3) g) (Spot (rev v ++ rev pre ++ b) (skipn (length v) s3) g)).
  { intros v TH. exists (w1 ++ (61 :: eqs) ++ w2). split; [exact NP|]. split; [apply ES; now apply text_cut|]. split; [intros d; rewrite last_app', LP; reflexivity|]. rewrite TH, RP, <- (text_cut s3 v TH). reflexivity. }
  assert (FIN : forall v p r (e0 : option A), (exists pre, pre <> [] /\ s = pre ++ v ++ r /\ (forall d, p = last (pre ++ v) d) /\ e0 = K (Spot (rev pre ++ b) (v ++ r) g) (Spot (rev v ++ rev pre ++ b) r g)) ->
    exists pre, pre <> [] /\ s = pre ++ v ++ r /\ (forall d, p = last (pre ++ v) d) /\ match e0 with Some x => Some x | None => match rev eqs with [] => None | x :: w => via (Seq blank_re X) k (Spot (w ++ 61 :: rev w1 ++ b) (x :: s2) g) end end = K (Spot (rev pre ++ b) (v ++ r) g) (Spot (rev v ++ rev pre ++ b) r g)).
  { intros v p r e0 (pre & H1 & H2 & H3 & ->). exists pre. repeat split; auto. match goal with |- match ?e with _ => _ end = _ => destruct e eqn:E; [reflexivity|now apply KT in E] end. }
  destruct s3 as [|q t].
  - apply (FIN [] (last_of (last_of 61 w2) []) []). apply (OK3 []). reflexivity.
  - destruct (is_quote q) eqn:Q; [destruct (has_char q t) eqn:HQ|].
    + specialize (OK3 (q :: take_while (fun c => negb (c =? q)) t ++ [q])). cbn [text_here] in OK3. rewrite Q, HQ in OK3. cbn [length skipn] in OK3. rewrite app_length in OK3. cbn [length] in OK3. rewrite Nat.add_1_r in OK3. cbn [text_here]. rewrite Q, HQ. specialize (OK3 eq_refl). cbn [length skipn]. rewrite app_length. cbn [length]. rewrite Nat.add_1_r.
      assert (LQ : forall d v, last (q :: v ++ [q]) d = q) by (intros d v; change (q :: v ++ [q]) with ((q :: v) ++ [q]); rewrite last_app'; reflexivity). unfold last_of at 1 in OK3. rewrite LQ in OK3. apply FIN. exact OK3.
    + cbn [text_here]. rewrite Q, HQ. destruct (rev w2) as [|x w] eqn:RW.
      * assert (Z : w2 = []) by (rewrite <- (rev_involutive w2), RW; reflexivity). destruct (rev eqs) as [|x w] eqn:RE.
        -- assert (ZE : eqs = []) by (rewrite <- (rev_involutive eqs), RE; reflexivity). rewrite ZE. reflexivity.
        -- destruct (R61 x w eq_refl) as [-> RR]. destruct eqs as [|e1 eqs]; [discriminate RE|]. exists (w1 ++ rev w ++ [61]). rewrite blankx_via. rewrite <- (N3 Z).
           change (drop_while is_space (61 :: q :: t)) with (61 :: q :: t). change (take_while is_space (61 :: q :: t)) with (@nil N). change (text_here (61 :: q :: t)) with (Some (take_while bare_char (61 :: q :: t))). change (fun c : N => negb ((c =? 62) || is_space c)) with bare_char. cbn [rev app].
           assert (TB : 61 :: q :: t = take_while bare_char (61 :: q :: t) ++ drop_while bare_char (61 :: q :: t)) by (symmetry; apply take_drop). split; [destruct w1; [destruct (rev w)|]; discriminate|]. change (if negb ((61 =? 62) || is_space 61) then 61 :: take_while bare_char (q :: t) else []) with (take_while bare_char (61 :: q :: t)). change (if negb ((61 =? 62) || is_space 61) then drop_while bare_char (q :: t) else 61 :: q :: t) with (drop_while bare_char (61 :: q :: t)). split; [|split].
           ++ transitivity ((w1 ++ rev w ++ [61]) ++ 61 :: q :: t); [|f_equal; exact TB]. rewrite <- TD1, <- TD2, <- TD3, Z. cbn [app]. rewrite <- !app_assoc. f_equal. change ((61 :: e1 :: eqs) ++ q :: t = rev w ++ [61; 61] ++ q :: t). rewrite RR, <- app_assoc. reflexivity.
           ++ intros d. unfold last_of. rewrite !last_app'. reflexivity.
           ++ rewrite take_len_drop. match goal with |- _ = K (Spot _ ?y _) (Spot _ ?z _) => change y with (take_while bare_char (61 :: q :: t) ++ drop_while bare_char (61 :: q :: t)); change z with (drop_while bare_char (61 :: q :: t)) end. rewrite <- TB. rewrite !rev_app_distr, rev_involutive. cbn [rev app]. rewrite <- !app_assoc.
              assert (CW : w ++ 61 :: rev w1 ++ b = 61 :: w ++ rev w1 ++ b). { assert (RR2 : rev (61 :: e1 :: eqs) = rev (rev w ++ [61; 61])) by now rewrite RR. rewrite rev_app_distr, rev_involutive in RR2. cbn [rev app] in RR2. cbn [rev] in RE. rewrite RE in RR2. cbn [app] in RR2. injection RR2 as RR2. change (61 :: rev w1 ++ b) with ([61] ++ rev w1 ++ b). rewrite app_assoc, RR2. reflexivity. }
              rewrite CW. reflexivity.
      * change (match eqs with [] => None | _ :: _ => Some (let v := take_while bare_char (61 :: q :: t) in (v, last_of 61 v, drop_while bare_char (61 :: q :: t))) end) with (match eqs with [] => None | _ :: _ => Some (let v := take_while bare_char (61 :: q :: t) in (v, last_of 61 v, drop_while bare_char (61 :: q :: t))) end).
        assert (W2 : w2 = rev w ++ [x]) by (rewrite <- (rev_involutive w2), RW; reflexivity). exists (w1 ++ (61 :: eqs) ++ rev w). split; [intros Z; apply app_eq_nil in Z as [_ Z]; discriminate Z|]. split; [|split].
        -- rewrite <- TD1, <- TD2, <- TD3, W2. cbn [app]. rewrite <- !app_assoc. cbn [app]. rewrite <- !app_assoc. reflexivity.
        -- intros d. cbn [tl]. rewrite app_nil_r. unfold last_of. rewrite !last_app', L61 by discriminate. reflexivity.
        -- match goal with |- match ?e with _ => _ end = _ => destruct e eqn:E; [|now apply KT in E] end. rewrite <- E. assert (RW2 : rev (w1 ++ (61 :: eqs) ++ rev w) ++ b = w ++ rev eqs ++ 61 :: rev w1 ++ b) by (rewrite !rev_app_distr, rev_involutive; cbn [rev]; rewrite <- !app_assoc; reflexivity). rewrite RW2. reflexivity.
    + change (fun c : N => negb ((c =? 62) || is_space c)) with bare_char. specialize (OK3 (take_while bare_char (q :: t))). cbn [text_here] in OK3. rewrite Q in OK3. specialize (OK3 eq_refl). rewrite take_len_drop in OK3. cbn [text_here]. rewrite Q. rewrite take_len_drop. apply FIN. exact OK3.
Qed.
End Value.

(** ** Attributes *)
Lemma hd_rev : forall (l b : str), hd 0 (rev l ++ b) = last l (hd 0 b).
Proof. induction l as [|x l IH]; intros b; [reflexivity|]. cbn [rev]. rewrite <- app_assoc. cbn [app]. rewrite IH, last_one. reflexivity. Qed.
Definition more_char (c : N) : bool := negb (is_space c || (c =? 47) || (c =? 61) || (c =? 62)).
Lemma more_is : forall c, neither is_space (one_of [47; 61; 62]) c = more_char c.
Proof. intros c. unfold neither, one_of, more_char. cbn [existsb]. now rewrite orb_false_r, !orb_assoc. Qed.
Definition before_attr (b : str) : bool := is_quote (hd 0 b) || is_space (hd 0 b) || (hd 0 b =? 47).
Definition first_char (c : N) : bool := negb (is_space c || (c =? 47) || (c =? 62)).
Definition attr_name_of (s : str) : str := match s with c :: r => c :: take_while more_char r | [] => [] end.
Lemma attr_name_via : forall {A} (k : spot -> option A), total k -> forall b s g, via attr_name k (Spot b s g) = match s with
  | c :: r => if before_attr b && first_char c then k (Spot (rev (c :: take_while more_char r) ++ b) (drop_while more_char r) g) else None
  | [] => None end.
Proof.
  intros A k T b s g. unfold attr_name. cbn [seqs]. rewrite via_seq, via_behind. cbn [rev app]. assert (B : rowed [either quotes (either is_space (N.eqb 47))] b = before_attr b).
  { unfold before_attr. destruct b as [|p b]; [reflexivity|]. cbn [rowed hd]. rewrite andb_true_r. unfold either. now rewrite quotes_is, (N.eqb_sym 47), orb_assoc. }
  rewrite B. destruct (before_attr b); cbn [andb]; [|now destruct s]. rewrite via_seq, via_cls. destruct s as [|c r]; [reflexivity|]. assert (F : neither is_space (one_of [47; 62]) c = first_char c) by (unfold neither, one_of, first_char; cbn [existsb]; now rewrite orb_false_r, !orb_assoc).
  rewrite F. destruct (first_char c); [|reflexivity]. rewrite many_takes by exact T. rewrite (spent_ext _ more_char) by apply more_is. unfold spent. cbn [rev]. now rewrite <- app_assoc.
Qed.
Definition attr_place (b s : str) (r : option (str * option str * N * str)) (w : str) : Prop :=
  match r with Some (nm, v, p, t) => s = w ++ t /\ w <> [] /\ p = hd 0 (rev w ++ b) | None => True end.
Lemma attr_here_is : forall p c r, attr_here p (c :: r) = if (is_quote p || is_space p || (p =? 47)) && first_char c then
   match attr_value (drop_while more_char r) with
   | Some (v, q, s2) => let '(p', s3) := skip_misc q s2 in Some (c :: take_while more_char r, Some v, p', s3)
   | None => let '(p', s3) := skip_misc (last_of c (c :: take_while more_char r)) (drop_while more_char r) in Some (c :: take_while more_char r, None, p', s3)
   end else None.
Proof. reflexivity. Qed.
Lemma skipn_misc : forall x s, s = x ++ skipn (length (misc_of s)) s -> length x = length (misc_of s) -> x = misc_of s.
Proof. intros x s E L. rewrite (misc_cut s) in E at 1. apply app_same in E as [E _]; auto. Qed.

Lemma attr_via : forall b s, match attr_here (hd 0 b) s with
  | None => match_at attrfind_tolerant b s = None
  | Some (nm, v, p, r) => exists w m, s = w ++ r /\ w <> [] /\ match_at attrfind_tolerant b s = Some m /\ seen m = rev w ++ b /\ ahead m = r /\ p = hd 0 (seen m)
      /\ group 1 m = Some nm /\ group 3 m = v /\ match v with None => group 2 m = None | Some _ => exists x y, group 2 m = Some (x :: y) end
  end.
Proof.
  intros b s. rewrite match_via. unfold attrfind_tolerant. cbn [seqs]. rewrite via_seq, via_grp. set (G2 := Grp 2 (Seq blank_re (Seq (some_of (chr 61)) (Seq blank_re (Grp 3 attr_text))))).
  assert (T1 : total (@Some spot)) by (intros t; discriminate). assert (T2 : total (via misc (@Some spot))) by (now apply misc_total).
  assert (T3 : total (via (Seq (opt G2) misc) (@Some spot))) by (intros t; rewrite via_seq; now apply opt_total).
  rewrite attr_name_via by (intros t; apply T3). destruct s as [|c r]; [reflexivity|]. rewrite attr_here_is. fold (before_attr b). destruct (before_attr b && first_char c) eqn:BF; [|reflexivity]. clear BF.
  set (nm := c :: take_while more_char r). set (s1 := drop_while more_char r). assert (ES : c :: r = nm ++ s1) by (unfold nm, s1; cbn [app]; now rewrite take_drop). cbn [seen ahead groups]. rewrite (eaten_cut b (c :: r) nm s1 _ _ _ ES).
  rewrite via_seq, via_opt. set (b1 := rev nm ++ b). unfold G2 at 1. rewrite via_grp.
  pose proof (value_via (Grp 3 attr_text) (fun t => via misc Some (Spot (seen t) (ahead t) ((2%nat, eaten (Spot b1 s1 [(1%nat, nm)]) t) :: groups t)))
     (fun s0 t => via misc Some (Spot (seen t) (ahead t) ((2%nat, eaten (Spot b1 s1 [(1%nat, nm)]) (Spot (seen t) (ahead t) ((3%nat, eaten s0 t) :: groups t))) :: (3%nat, eaten s0 t) :: groups t)))
     ltac:(intros s0; rewrite via_grp; reflexivity) ltac:(intros s0 t; apply T2) b1 s1 [(1%nat, nm)]) as V. cbn [seqs] in V.
  destruct (attr_value s1) as [[[v p] t]|].
  - destruct V as (pre & NP & E1 & LP & V). match goal with |- context [via (Seq blank_re ?R) ?kk ?ss] => match type of V with _ = ?rhs => change (via (Seq blank_re R) kk ss = rhs) in V end end. rewrite V. rewrite misc_via by exact T1. rewrite skip_misc_is. cbn [seen ahead groups].
    assert (E2 : s1 = (pre ++ v) ++ t) by (rewrite <- app_assoc; exact E1). rewrite (eaten_cut b1 s1 (pre ++ v) t _ _ _ E2). rewrite eaten_app.
    exists (nm ++ pre ++ v ++ misc_of t), (Spot (rev (misc_of t) ++ rev v ++ rev pre ++ b1) (skipn (length (misc_of t)) t) ((2%nat, pre ++ v) :: (3%nat, v) :: [(1%nat, nm)])).
    split; [rewrite ES, E1; rewrite <- !app_assoc; do 3 f_equal; apply misc_cut|]. split; [discriminate|]. split; [reflexivity|]. cbn [seen ahead]. split; [unfold b1; rewrite !rev_app_distr, <- !app_assoc; reflexivity|]. split; [reflexivity|].
    split; [rewrite !hd_rev, (LP (hd 0 b1)), last_app'; reflexivity|]. split; [reflexivity|]. split; [reflexivity|]. destruct pre as [|x pre]; [now contradiction NP|]. exists x, (pre ++ v). reflexivity.
  - match goal with |- context [via (Seq blank_re ?R) ?kk ?ss] => match type of V with _ = ?rhs => change (via (Seq blank_re R) kk ss = rhs) in V end end. rewrite V. rewrite misc_via by exact T1. rewrite skip_misc_is. exists (nm ++ misc_of s1), (Spot (rev (misc_of s1) ++ b1) (skipn (length (misc_of s1)) s1) [(1%nat, nm)]).
    split; [rewrite ES, <- app_assoc; f_equal; apply misc_cut|]. split; [discriminate|]. split; [reflexivity|]. cbn [seen ahead]. split; [unfold b1; rewrite rev_app_distr, <- app_assoc; reflexivity|]. split; [reflexivity|].
    split; [|repeat split]. rewrite hd_rev. f_equal. unfold b1. rewrite hd_rev. unfold nm. unfold last_of. rewrite !last_one. reflexivity.
Qed.

(** ** The end of a start tag *)
(** A match never goes back, and some always go on. *)
Lemma greedy_le : forall body, (forall s t, In t (body s) -> (length (ahead t) <= length (ahead s))%nat) -> forall n s t, In t (greedy body n s) -> (length (ahead t) <= length (ahead s))%nat.
Proof.
  intros body H. induction n as [|n IH]; intros s t I; cbn [greedy] in I; [destruct I as [<-|[]]; lia|]. apply in_app_or in I as [I|[<-|[]]]; [|lia]. apply in_flat_map in I as (u & I1 & I2). destruct (progress s u); [|destruct I2]. apply IH in I2. apply H in I1. lia.
Qed.
Lemma lazy_le : forall body, (forall s t, In t (body s) -> (length (ahead t) <= length (ahead s))%nat) -> forall n s t, In t (lazy body n s) -> (length (ahead t) <= length (ahead s))%nat.
Proof.
  intros body H. induction n as [|n IH]; intros s t I; cbn [lazy] in I; [destruct I as [<-|[]]; lia|]. destruct I as [<-|I]; [lia|]. apply in_flat_map in I as (u & I1 & I2). destruct (progress s u); [|destruct I2]. apply IH in I2. apply H in I1. lia.
Qed.
Lemma ways_le : forall r s t, In t (ways r s) -> (length (ahead t) <= length (ahead s))%nat.
Proof.
  induction r as [p| |a IHa c IHc|a IHa c IHc|a IHa|a IHa|a IHa|a IHa|l| |n a IHa]; intros s t I; cbn [ways] in I.
  - destruct (ahead s) as [|x r]; [destruct I|]. destruct (p x); try contradiction; destruct I as [<-|[]]. cbn. lia.
  - destruct I as [<-|[]]. lia.
  - apply in_flat_map in I as (u & I1 & I2). apply IHa in I1. apply IHc in I2. lia.
  - apply in_app_or in I as [I|I]; eauto.
  - eapply greedy_le; eauto.
  - eapply lazy_le; eauto.
  - destruct (ways a s); try contradiction; destruct I as [<-|[]]. lia.
  - destruct (ways a s); try contradiction; destruct I as [<-|[]]. lia.
  - destruct (rowed _ _); try contradiction; destruct I as [<-|[]]. lia.
  - destruct (ahead s) eqn:E; try contradiction; destruct I as [<-|[]]. rewrite E. cbn. lia.
  - apply in_map_iff in I as (u & <- & I). apply IHa in I. exact I.
Qed.
Definition strict (r : re) : Prop := forall s t, In t (ways r s) -> progress s t = true.
Lemma strict_cls : forall p, strict (Cls p).
Proof. intros p s t I. cbn [ways] in I. unfold progress. destruct (ahead s) as [|x r]; [destruct I|]. destruct (p x); try contradiction; destruct I as [<-|[]]. cbn [ahead length]. apply Nat.ltb_lt. lia. Qed.
Lemma strict_left : forall a c, strict a -> strict (Seq a c).
Proof. intros a c H s t I. cbn [ways] in I. apply in_flat_map in I as (u & I1 & I2). apply H in I1. apply ways_le in I2. unfold progress in *. apply Nat.ltb_lt in I1. apply Nat.ltb_lt. lia. Qed.
Lemma strict_right : forall a c, strict c -> strict (Seq a c).
Proof. intros a c H s t I. cbn [ways] in I. apply in_flat_map in I as (u & I1 & I2). apply H in I2. apply ways_le in I1. unfold progress in *. apply Nat.ltb_lt in I2. apply Nat.ltb_lt. lia. Qed.
Lemma via_many_strict : forall {A} a (k : spot -> option A), strict a -> forall s, via (Many a) k s = match via a (via (Many a) k) s with Some x => Some x | None => k s end.
Proof.
  intros A a k H s. rewrite via_many. change (via a (fun t => if progress s t then via (Many a) k t else None) s) with (first (fun t => if progress s t then via (Many a) k t else None) (ways a s)). change (via a (via (Many a) k) s) with (first (via (Many a) k) (ways a s)). assert (E : forall l, incl l (ways a s) -> first (fun t => if progress s t then via (Many a) k t else None) l = first (via (Many a) k) l).
  { induction l as [|t l IH]; intros IN; [reflexivity|]. cbn [first]. rewrite (H s t) by (apply IN; now left). rewrite IH; [reflexivity|]. intros u U1. apply IN. now right. }
  rewrite E by apply incl_refl. reflexivity.
Qed.
Definition attr_loop : re := seqs [attr_name; opt (seqs [blank_re; some_of (chr 61); blank_re; attr_text; blank_re]); misc].
Lemma loop_via : forall {A} (k : spot -> option A), total k -> forall b s g, match attr_here (hd 0 b) s with
  | None => via attr_loop k (Spot b s g) = None
  | Some (_, _, p, r) => exists w, s = w ++ r /\ w <> [] /\ p = hd 0 (rev w ++ b) /\ via attr_loop k (Spot b s g) = k (Spot (rev w ++ b) r g)
  end.
Proof.
  intros A k T b s g. unfold attr_loop. cbn [seqs]. rewrite via_seq. set (VP := Seq blank_re (Seq (some_of (chr 61)) (Seq blank_re (Seq attr_text blank_re)))).
  assert (T2 : total (via misc k)) by (now apply misc_total). assert (T3 : total (via (Seq (opt VP) misc) k)) by (intros t; rewrite via_seq; now apply opt_total).
  rewrite attr_name_via by exact T3. destruct s as [|c r]; [reflexivity|]. rewrite attr_here_is. fold (before_attr b). destruct (before_attr b && first_char c) eqn:BF; [|reflexivity]. clear BF.
  set (nm := c :: take_while more_char r). set (s1 := drop_while more_char r). assert (ES : c :: r = nm ++ s1) by (unfold nm, s1; cbn [app]; now rewrite take_drop).
  rewrite via_seq, via_opt. set (b1 := rev nm ++ b).
  pose proof (value_via (Seq attr_text blank_re) (via misc k) (fun s0 t => via blank_re (via misc k) t)
     ltac:(intros s0; rewrite via_seq; reflexivity) ltac:(intros s0; apply many_total_k; exact T2) b1 s1 g) as V. cbn [seqs] in V. fold VP in V.
  destruct (attr_value s1) as [[[v p] t]|].
  - destruct V as (pre & NP & E1 & LP & ->). rewrite skip_misc_is. rewrite blank_misc, misc_via by exact T. exists (nm ++ pre ++ v ++ misc_of t).
    assert (RB : rev (nm ++ pre ++ v ++ misc_of t) ++ b = rev (misc_of t) ++ rev v ++ rev pre ++ b1) by (unfold b1; rewrite !rev_app_distr, <- !app_assoc; reflexivity). rewrite RB.
    split; [rewrite ES, E1; rewrite <- !app_assoc; do 3 f_equal; apply misc_cut|]. split; [discriminate|]. split; [rewrite !hd_rev, (LP (hd 0 b1)), last_app'; reflexivity|].
    destruct (some_x k T (Spot (rev (misc_of t) ++ rev v ++ rev pre ++ b1) (skipn (length (misc_of t)) t) g)) as [x X]. now rewrite X.
  - rewrite V. rewrite misc_via by exact T. rewrite skip_misc_is. exists (nm ++ misc_of s1).
    assert (RB : rev (nm ++ misc_of s1) ++ b = rev (misc_of s1) ++ b1) by (unfold b1; rewrite rev_app_distr, <- app_assoc; reflexivity). rewrite RB.
    split; [rewrite ES, <- app_assoc; f_equal; apply misc_cut|]. split; [discriminate|]. split; [|reflexivity]. rewrite hd_rev. f_equal. unfold b1. rewrite hd_rev. unfold nm. unfold last_of. rewrite !last_one. reflexivity.
Qed.
Lemma loop_strict : strict attr_loop.
Proof. unfold attr_loop, attr_name. cbn [seqs]. apply strict_left, strict_right, strict_left, strict_cls. Qed.
Lemma loops_via : forall {A} (k : spot -> option A), total k -> forall f b s g, (length s <= f)%nat ->
  exists w, s = w ++ skip_attrs f (hd 0 b) s /\ via (Many attr_loop) k (Spot b s g) = k (Spot (rev w ++ b) (skip_attrs f (hd 0 b) s) g).
Proof.
  intros A k T. assert (TM : total (via (Many attr_loop) k)) by (now apply many_total_k). induction f as [|f IH]; intros b s g L.
  - destruct s; [|cbn in L; lia]. exists []. split; [reflexivity|]. now rewrite via_many_nil.
  - cbn [skip_attrs]. rewrite via_many_strict by exact loop_strict. pose proof (loop_via (via (Many attr_loop) k) TM b s g) as V. destruct (attr_here (hd 0 b) s) as [[[[nm v] p] r]|].
    + destruct V as (w & E & NW & -> & V). rewrite V. destruct (IH (rev w ++ b) r g) as (w' & E' & V'). { rewrite E, app_length in L. destruct w; [now contradiction NW|cbn in L; lia]. }
      rewrite V'. exists (w ++ w'). split; [rewrite <- app_assoc, <- E'; exact E|]. rewrite rev_app_distr, <- app_assoc. destruct (some_x k T (Spot (rev w' ++ rev w ++ b) (skip_attrs f (hd 0 (rev w ++ b)) r) g)) as [x X]. now rewrite X.
    + rewrite V. exists []. split; reflexivity.
Qed.
(** [check_for_whole_start_tag] after its expression has matched. *)
Definition tag_stop (j : str) : option str :=
  match j with
  | [] => None
  | c :: r =>
      if c =? 62 then Some r
      else if c =? 47 then match r with
                           | d :: r' => if d =? 62 then Some r' else None
                           | [] => None
                           end
      else if is_alpha_ascii c || (c =? 61) then None
      else Some j
  end.
Lemma skip_attrs_fuel : forall f f' p s, (length s <= f)%nat -> (length s <= f')%nat -> skip_attrs f p s = skip_attrs f' p s.
Proof.
  induction f as [|f IH]; intros f' p s L L'.
  - destruct s; [|cbn in L; lia]. now destruct f'.
  - destruct f' as [|f']; [destruct s; [reflexivity|cbn in L'; lia]|]. cbn [skip_attrs]. destruct (attr_here p s) as [[[[nm v] q] r]|] eqn:E; [|reflexivity]. apply suff_attr in E as (c & s' & -> & SF). apply suff_len in SF. cbn [length] in L, L'. apply IH; lia.
Qed.
Lemma start_match : forall b s, match match_at locatestarttagend_tolerant b (60 :: s) with
  | Some m => whole_start_tag s = tag_stop (ahead m) /\ exists w, 60 :: s = w ++ ahead m
  | None => forall c t, s = c :: t -> is_alpha_ascii c = false
  end.
Proof.
  intros b s. rewrite match_via. unfold locatestarttagend_tolerant. cbn [seqs]. rewrite via_seq. unfold chr at 1. rewrite via_cls. change (60 =? 60) with true. cbv iota. rewrite via_seq.
  assert (T1 : total (@Some spot)) by (intros t; discriminate). assert (T2 : total (via blank_re (@Some spot))) by (now apply many_total_k).
  match goal with |- context [via (Seq (opt ?B) blank_re) Some] => set (BODY := B) end. assert (T3 : total (via (Seq (opt BODY) blank_re) (@Some spot))) by (intros t; rewrite via_seq; now apply opt_total).
  rewrite tag_name_via by exact T3. destruct s as [|c s]; [discriminate|]. destruct (is_alpha_ascii c) eqn:EA; [|intros c' t E; congruence]. set (t := c :: s). unfold spent. rewrite via_seq, via_opt. unfold BODY. rewrite via_seq.
  assert (T4 : total (via (Many attr_loop) (via blank_re (@Some spot)))) by (now apply many_total_k).
  fold attr_loop. change (Many (Seq attr_name (Seq (opt (Seq blank_re (Seq (some_of (chr 61)) (Seq blank_re (Seq attr_text blank_re))))) misc))) with (Many attr_loop).
  rewrite many_takes by exact T4. assert (SP : forall b0 s0 g0, spent (either is_space (N.eqb 47)) b0 s0 g0 = spent slash_or_space b0 s0 g0) by (intros; apply spent_ext; intros x; unfold either, slash_or_space; now rewrite (N.eqb_sym 47)).
  rewrite SP. unfold spent. set (nm := take_while name_char t). set (s1 := drop_while name_char t). set (w := take_while slash_or_space s1). set (s2 := drop_while slash_or_space s1). assert (E1 : nm ++ s1 = t) by apply take_drop. assert (E2 : w ++ s2 = s1) by apply take_drop.
  destruct (loops_via (via blank_re (@Some spot)) T2 (length t) (rev w ++ rev nm ++ 60 :: b) s2 []) as (x & EX & VX). { rewrite <- E1, <- E2, !app_length. lia. }
  rewrite VX. unfold blank_re at 1. rewrite many_takes by exact T1. unfold spent. cbn [ahead].
  assert (HD : hd 0 (rev w ++ rev nm ++ 60 :: b) = last_of (last_of 0 nm) w).
  { rewrite !hd_rev. cbn [hd]. unfold last_of. f_equal. unfold nm, t. cbn [take_while]. rewrite (alpha_name c EA), !last_one. reflexivity. }
  rewrite HD in *. split; [reflexivity|]. set (j0 := skip_attrs (length t) (last_of (last_of 0 nm) w) s2) in *. exists (60 :: nm ++ w ++ x ++ take_while is_space j0).
  cbn [app]. rewrite <- !app_assoc, take_drop, <- EX, E2, E1. reflexivity.
Qed.

(** ** Tag names, end tags *)
Lemma via_chr : forall {A} x (k : spot -> option A) b s g, via (chr x) k (Spot b s g) = match s with c :: t => if x =? c then k (Spot (c :: b) t g) else None | [] => None end.
Proof. intros. unfold chr. apply via_cls. Qed.
Lemma tagfind_match : forall b s, match s with
  | c :: _ => if is_alpha_ascii c then let nm := take_while name_char s in let s1 := drop_while name_char s in
      exists w, s1 = w ++ snd (skip_misc 0 s1) /\ match_at tagfind_tolerant b s = Some (Spot (rev w ++ rev nm ++ b) (snd (skip_misc 0 s1)) [(1%nat, nm)]) /\ (forall p, fst (skip_misc p s1) = last w p)
    else match_at tagfind_tolerant b s = None
  | [] => match_at tagfind_tolerant b s = None
  end.
Proof.
  intros b s. rewrite match_via. unfold tagfind_tolerant. rewrite via_seq, via_grp. assert (T1 : total (@Some spot)) by (intros t; discriminate).
  rewrite tag_name_via by (intros t; apply misc_total; exact T1). destruct s as [|c s]; [reflexivity|]. destruct (is_alpha_ascii c); [|reflexivity]. cbv zeta. set (t := c :: s). unfold spent. cbn [seen ahead groups].
  pose proof (take_drop name_char t) as E. set (nm := take_while name_char t) in *. set (s1 := drop_while name_char t) in *. rewrite (eaten_cut b t nm s1) by (now symmetry). rewrite misc_via by exact T1. exists (misc_of s1). rewrite skip_misc_is. cbn [snd]. split; [apply misc_cut|]. split; [reflexivity|]. intros p. now rewrite skip_misc_is.
Qed.
Lemma endc_is : forall c, (one_of [45; 46; 58; 95] c || az c || d09 c) = end_name_char c.
Proof. intros c. rewrite az_is. unfold one_of, end_name_char. cbn [existsb]. rewrite orb_false_r. change (d09 c) with (is_digit_ascii c). destruct (is_alpha_ascii c), (is_digit_ascii c), (c =? 45), (c =? 46), (c =? 58), (c =? 95); reflexivity. Qed.
Lemma space_not : forall c, is_space c = true -> is_alpha_ascii c = false /\ end_name_char c = false /\ decl_name_char c = false /\ (62 =? c) = false /\ (93 =? c) = false.
Proof.
  intros c S0. assert (D : forall x, is_space x = false -> (x =? c) = false) by (intros x H; destruct (N.eqb_spec x c); congruence).
  assert (A : is_alpha_ascii c = false). { apply not_true_is_false. unfold is_alpha_ascii, is_lower_ascii, is_upper_ascii. rewrite orb_true_iff, !andb_true_iff, !N.leb_le. unfold is_space in S0. repeat rewrite orb_true_iff in S0. rewrite ?andb_true_iff, ?N.leb_le, ?N.eqb_eq in S0. lia. }
  assert (G : is_digit_ascii c = false). { apply not_true_is_false. unfold is_digit_ascii. rewrite !andb_true_iff, !N.leb_le. unfold is_space in S0. repeat rewrite orb_true_iff in S0. rewrite ?andb_true_iff, ?N.leb_le, ?N.eqb_eq in S0. lia. }
  unfold end_name_char, decl_name_char. rewrite A, G. rewrite !(N.eqb_sym c). rewrite !D by reflexivity. repeat split.
Qed.
Lemma end_match : forall b t, match end_tag_name t with
  | Some nm => exists m, match_at endtagfind b (60 :: 47 :: t) = Some m /\ group 1 m = Some nm
  | None => match_at endtagfind b (60 :: 47 :: t) = None
  end.
Proof.
  intros b t. rewrite match_via. unfold endtagfind. cbn [seqs]. rewrite via_seq. rewrite via_chr. change (60 =? 60) with true. cbv iota. rewrite via_seq. rewrite via_chr. change (47 =? 47) with true. cbv iota. rewrite via_seq, blank_all.
  2:{ intros b0 c s g S0. rewrite via_seq, via_grp, via_seq, via_cls, az_is. destruct (space_not c S0) as [-> _]. reflexivity. }
  unfold spent. unfold end_tag_name. set (s := drop_while is_space t). clearbody s. generalize (rev (take_while is_space t) ++ 47 :: 60 :: b). intros b1. rewrite via_seq, via_grp, via_seq, via_cls. destruct s as [|c s]; [reflexivity|]. rewrite az_is. destruct (is_alpha_ascii c); [|reflexivity].
  rewrite many_all.
  2:{ intros b0 x u g P. rewrite endc_is in P. cbn [seen ahead groups]. rewrite via_seq, blank_all. 2:{ intros b2 y u2 g2 S0. rewrite via_chr. destruct (space_not y S0) as (_ & _ & _ & -> & _). reflexivity. }
      unfold spent. cbn [drop_while take_while]. destruct (is_space x) eqn:SX; [destruct (space_not x SX) as (_ & Q & _); congruence|]. rewrite via_chr. destruct (N.eqb_spec 62 x) as [<-|]; [discriminate P|reflexivity]. }
  rewrite (spent_ext _ end_name_char) by apply endc_is. unfold spent. cbn [seen ahead groups]. rewrite via_seq, blank_all. 2:{ intros b2 y u2 g2 S0. rewrite via_chr. destruct (space_not y S0) as (_ & _ & _ & -> & _). reflexivity. }
  unfold spent. rewrite via_chr. destruct (drop_while is_space (drop_while end_name_char s)) as [|g r] eqn:ED; [reflexivity|]. rewrite (N.eqb_sym 62). destruct (g =? 62) eqn:EG; [|reflexivity]. eexists. split; [reflexivity|].
  cbn [group groups find fst Nat.eqb]. f_equal. apply eaten_cut. cbn [app]. now rewrite take_drop.
Qed.

(** ** Comments, sections, raw text *)
Lemma search_re : forall r p, (forall b s, match_at r b s = None /\ p s = None \/ exists m, match_at r b s = Some m /\ p s = Some (ahead m)) ->
  forall s b, search p s = match search_from r b s with Some (_, m) => Some (ahead m) | None => None end.
Proof.
  intros r p H. induction s as [|c s IH]; intros b; cbn [search search_from].
  - destruct (H b []) as [[-> ->]|(m & -> & ->)]; reflexivity.
  - destruct (H b (c :: s)) as [[-> ->]|(m & -> & ->)]; [apply IH|reflexivity].
Qed.
Lemma gt_after : forall b g s k0, (forall t : spot, k0 t = @Some spot t) -> via (Seq blank_re (chr 62)) k0 (Spot b s g) = match drop_while is_space s with x :: r => if x =? 62 then Some (Spot (62 :: rev (take_while is_space s) ++ b) r g) else None | [] => None end.
Proof.
  intros b g s k0 K0. rewrite via_seq, blank_all. 2:{ intros b2 y u2 g2 S0. rewrite via_chr. destruct (space_not y S0) as (_ & _ & _ & -> & _). reflexivity. }
  unfold spent. rewrite via_chr. destruct (drop_while is_space s) as [|x r]; [reflexivity|]. rewrite (N.eqb_sym 62). destruct (N.eqb_spec x 62) as [->|]; [apply K0|reflexivity].
Qed.
Lemma comment_re : forall b s, match_at commentclose b s = None /\ comment_close s = None \/ exists m, match_at commentclose b s = Some m /\ comment_close s = Some (ahead m).
Proof.
  intros b s. rewrite match_via. unfold commentclose. cbn [seqs]. rewrite via_seq. rewrite via_chr. unfold comment_close, close_at. destruct s as [|a r]; [now left|]. rewrite (N.eqb_sym 45). destruct (a =? 45); [|now left]. rewrite via_seq. rewrite via_chr. destruct r as [|c r]; [now left|]. rewrite (N.eqb_sym 45). destruct (c =? 45); [|now left].
  rewrite gt_after by reflexivity. destruct (drop_while is_space r) as [|x t]; [now left|]. destruct (x =? 62); [right|now left]. eexists. split; reflexivity.
Qed.
Lemma ms_re : forall b s, match_at msmarkedsectionclose b s = None /\ ms_close s = None \/ exists m, match_at msmarkedsectionclose b s = Some m /\ ms_close s = Some (ahead m).
Proof.
  intros b s. rewrite match_via. unfold msmarkedsectionclose. cbn [seqs]. rewrite via_seq. rewrite via_chr. unfold ms_close. destruct s as [|a r]; [now left|]. rewrite (N.eqb_sym 93). destruct (a =? 93); [|now left].
  rewrite gt_after by reflexivity. destruct (drop_while is_space r) as [|x t]; [now left|]. destruct (x =? 62); [right|now left]. eexists. split; reflexivity.
Qed.
Lemma section_re : forall b s, match_at markedsectionclose b s = None /\ section_close s = None \/ exists m, match_at markedsectionclose b s = Some m /\ section_close s = Some (ahead m).
Proof.
  intros b s. rewrite match_via. unfold markedsectionclose. cbn [seqs]. rewrite via_seq. rewrite via_chr. unfold section_close, close_at. destruct s as [|a r]; [now left|]. rewrite (N.eqb_sym 93). destruct (a =? 93); [|now left].
  rewrite via_seq, blank_all. 2:{ intros b2 y u2 g2 S0. rewrite via_seq. rewrite via_chr. destruct (space_not y S0) as (_ & _ & _ & _ & ->). reflexivity. }
  unfold spent. rewrite via_seq. rewrite via_chr. destruct (drop_while is_space r) as [|c u]; [now left|]. rewrite (N.eqb_sym 93). destruct (c =? 93); [|now left].
  rewrite gt_after by reflexivity. destruct (drop_while is_space u) as [|x t]; [now left|]. destruct (x =? 62); [right|now left]. eexists. split; reflexivity.
Qed.
Lemma letter_is : forall p c, In p [115; 99; 114; 105; 112; 116; 121; 108; 101] -> any_case p c = same_letter p c.
Proof.
  intros p c I. unfold any_case, same_letter, is_upper_ascii, one_of, span. cbn [existsb]. rewrite orb_false_r. rewrite (N.eqb_sym c p), (N.eqb_sym (c + 32) p). f_equal. f_equal. f_equal.
  assert (R : 97 <= p <= 122) by (repeat destruct I as [<-|I]; try lia; destruct I). replace ((97 <=? p) && (p <=? 122)) with true by (symmetry; rewrite andb_true_iff, !N.leb_le; lia). cbn [andb]. destruct (N.eqb_spec p (c + 32)) as [->|]; [|now rewrite andb_false_r]. rewrite andb_true_r. symmetry. rewrite andb_true_iff, !N.leb_le. lia.
Qed.
Lemma word_ci_via : forall {A} (k : spot -> option A) e b s g, Forall (fun p => In p [115; 99; 114; 105; 112; 116; 121; 108; 101]) e -> e <> [] ->
  via (seqs (map (fun c => Cls (any_case c)) e)) k (Spot b s g) = match starts_ci e s with Some r => k (Spot (rev (firstn (length e) s) ++ b) r g) | None => None end.
Proof.
  intros A k. induction e as [|p e IH]; intros b s g F NE; [now contradiction NE|]. inversion F as [|? ? P F']; subst. destruct e as [|p2 e].
  - cbn [map seqs]. rewrite via_cls. destruct s as [|c s]; [reflexivity|]. rewrite letter_is by exact P. cbn [starts_ci]. destruct (same_letter p c); reflexivity.
  - cbn [map]. change (seqs (Cls (any_case p) :: Cls (any_case p2) :: map (fun c => Cls (any_case c)) e)) with (Seq (Cls (any_case p)) (seqs (map (fun c => Cls (any_case c)) (p2 :: e)))). rewrite via_seq, via_cls. destruct s as [|c s]; [reflexivity|]. rewrite letter_is by exact P. cbn [starts_ci]. destruct (same_letter p c); [|reflexivity].
    rewrite IH; [|exact F'|discriminate]. change (starts_ci (p2 :: e) s) with (match s with y :: s' => if same_letter p2 y then starts_ci e s' else None | [] => None end). destruct s as [|y s]; [reflexivity|]. destruct (same_letter p2 y); [|reflexivity]. destruct (starts_ci e s); [|reflexivity]. cbn [length firstn rev]. now rewrite <- !app_assoc.
Qed.
Lemma ci_space : forall {A} (k : spot -> option A) e b c s g, Forall (fun p => In p [115; 99; 114; 105; 112; 116; 121; 108; 101]) e -> e <> [] -> is_space c = true -> via (seqs (map (fun c => Cls (any_case c)) e)) k (Spot b (c :: s) g) = None.
Proof.
  intros A k e b c s g F NE S0. rewrite word_ci_via by auto. destruct e as [|p e]; [now contradiction NE|]. inversion F as [|? ? P F']; subst. cbn [starts_ci]. replace (same_letter p c) with false; [reflexivity|]. symmetry. unfold same_letter. destruct (space_not c S0) as [A0 _]. unfold is_alpha_ascii in A0. apply orb_false_iff in A0 as [A1 A2].
  replace (is_upper_ascii c) with false by (symmetry; assumption). cbn [andb]. rewrite orb_false_r. assert (D : forall x, is_space x = false -> (c =? x) = false) by (intros x H; destruct (N.eqb_spec c x); congruence). rewrite !D by reflexivity. cbn [orb]. rewrite !andb_false_r, !orb_false_r.
  destruct (N.eqb_spec p c) as [->|]; [|reflexivity]. exfalso. repeat destruct P as [<-|P]; try discriminate S0. destruct P.
Qed.
Lemma raw_re : forall e, Forall (fun p => In p [115; 99; 114; 105; 112; 116; 121; 108; 101]) e -> e <> [] -> forall b s, cdata_close e s = true <-> match_at (raw_close_re e) b s <> None.
Proof.
  intros e F NE b s. rewrite match_via. unfold raw_close_re. cbn [seqs]. rewrite via_seq. rewrite via_chr. destruct s as [|x s]; [split; [discriminate|congruence]|].
  assert (NB : forall y (s' : str), y <> 60 -> cdata_close e (y :: s') = false) by (intros y s' NY; unfold cdata_close; destruct y as [|p]; [reflexivity|]; repeat (destruct p as [p|p|]; try reflexivity); now contradiction NY).
  destruct (N.eqb_spec 60 x) as [<-|NX]; [|rewrite NB by congruence; split; [discriminate|congruence]]. rewrite via_seq. rewrite via_chr. destruct s as [|y s]; [split; [discriminate|congruence]|].
  destruct (N.eqb_spec 47 y) as [<-|NY].
  2:{ replace (cdata_close e (60 :: y :: s)) with false; [split; [discriminate|congruence]|]. unfold cdata_close. destruct y as [|p]; [reflexivity|]; repeat (destruct p as [p|p|]; try reflexivity); now contradiction NY. }
  rewrite via_seq, blank_all. 2:{ intros b0 c t g S0. rewrite via_seq. now apply ci_space. }
  unfold spent. rewrite via_seq, word_ci_via by auto. cbn [cdata_close]. destruct (starts_ci e (drop_while is_space s)) as [r|]; [|split; [discriminate|congruence]]. rewrite gt_after by reflexivity.
  destruct (drop_while is_space r) as [|g t]; [split; [discriminate|congruence]|]. destruct (g =? 62); split; congruence.
Qed.
Lemma raw_search : forall e, Forall (fun p => In p [115; 99; 114; 105; 112; 116; 121; 108; 101]) e -> e <> [] -> forall s b,
  match cdata_text e s with
  | Some (a, r) => exists m, search_from (raw_close_re e) b s = Some (rev b ++ a, m) /\ s = a ++ r
  | None => search_from (raw_close_re e) b s = None
  end.
Proof.
  intros e F NE. induction s as [|c s IH]; intros b; cbn [cdata_text search_from].
  - pose proof (raw_re e F NE b []) as [R1 R2]. destruct (cdata_close e []) eqn:E; [exfalso; discriminate E|]. destruct (match_at (raw_close_re e) b []); [discriminate (R2 ltac:(congruence))|reflexivity].
  - pose proof (raw_re e F NE b (c :: s)) as [R1 R2]. destruct (cdata_close e (c :: s)).
    + destruct (match_at (raw_close_re e) b (c :: s)) as [m|]; [|now contradiction R1]. exists m. rewrite app_nil_r. split; reflexivity.
    + destruct (match_at (raw_close_re e) b (c :: s)) as [m|]; [discriminate (R2 ltac:(congruence))|]. specialize (IH (c :: b)). destruct (cdata_text e s) as [[a r]|]; [|exact IH]. destruct IH as (m & -> & ->). exists m. cbn [rev]. rewrite <- app_assoc. split; reflexivity.
Qed.
Lemma declc_is : forall c, (one_of [45; 95; 46] c || az c || d09 c) = decl_name_char c.
Proof. intros c. rewrite az_is. unfold one_of, decl_name_char. cbn [existsb]. rewrite orb_false_r. change (d09 c) with (is_digit_ascii c). destruct (is_alpha_ascii c), (is_digit_ascii c), (c =? 45), (c =? 46), (c =? 95); reflexivity. Qed.
Lemma decl_match : forall b s, match s with
  | c :: _ => if is_alpha_ascii c then exists m, match_at declname b s = Some m /\ ahead m = drop_while is_space (drop_while decl_name_char s)
                /\ eaten (Spot b s []) m = take_while decl_name_char s ++ take_while is_space (drop_while decl_name_char s)
              else match_at declname b s = None
  | [] => match_at declname b s = None end.
Proof.
  intros b s. rewrite match_via. unfold declname. cbn [seqs]. rewrite via_seq, via_cls. destruct s as [|c s]; [reflexivity|]. rewrite az_is. destruct (is_alpha_ascii c) eqn:E; [|reflexivity]. assert (T1 : total (@Some spot)) by (intros t; discriminate).
  rewrite via_seq, many_takes by (now apply many_total_k). rewrite (spent_ext _ decl_name_char) by apply declc_is. unfold spent. unfold blank_re. rewrite many_takes by exact T1. unfold spent. assert (DC : decl_name_char c = true) by (unfold decl_name_char; now rewrite E). eexists. split; [reflexivity|]. cbn [ahead take_while drop_while]. rewrite DC. split; [reflexivity|].
  apply eaten_cut. rewrite <- app_assoc, take_drop. cbn [app]. now rewrite take_drop.
Qed.
Close Scope N_scope.
