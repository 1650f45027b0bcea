(** Facts about the matcher of RegexSpec, in continuation form. *)
From Verif Require Import RegexSpec Tokenizer TokFacts.
From Coq Require Import Lia.
Open Scope N_scope.

Section First.
Context {A : Type}.
Fixpoint first (k : spot -> option A) (l : list spot) : option A :=
  match l with
  | [] => None
  | s :: r => match k s with Some x => Some x | None => first k r end
  end.
Lemma first_app : forall k a b, first k (a ++ b) = match first k a with Some x => Some x | None => first k b end.
Proof. intros k. induction a as [|s a IH]; intros b; cbn [app first]; auto. destruct (k s); auto. Qed.
Lemma first_flat : forall k f l, first k (flat_map f l) = first (fun s => first k (f s)) l.
Proof. intros k f. induction l as [|s l IH]; cbn [flat_map first]; auto. rewrite first_app, IH. reflexivity. Qed.
Lemma first_map : forall k f l, first k (map f l) = first (fun s => k (f s)) l.
Proof. intros k f. induction l as [|s l IH]; cbn [map first]; auto. now rewrite IH. Qed.
Lemma first_ext : forall k k' l, (forall s, k s = k' s) -> first k l = first k' l.
Proof. intros k k' l H. induction l as [|s l IH]; cbn [first]; auto. now rewrite H, IH. Qed.
Definition via (r : re) (k : spot -> option A) (s : spot) : option A := first k (ways r s).
Lemma via_ext : forall r k k' s, (forall t, k t = k' t) -> via r k s = via r k' s.
Proof. intros. now apply first_ext. Qed.
Lemma via_seq : forall a b k s, via (Seq a b) k s = via a (via b k) s.
Proof. intros. unfold via at 1. cbn [ways]. now rewrite first_flat. Qed.
Lemma via_alt : forall a b k s, via (Alt a b) k s = match via a k s with Some x => Some x | None => via b k s end.
Proof. intros. unfold via at 1. cbn [ways]. now rewrite first_app. Qed.
Lemma via_emp : forall k s, via Emp k s = k s.
Proof. intros. unfold via. cbn. destruct (k s); auto. Qed.
Lemma via_opt : forall a k s, via (opt a) k s = match via a k s with Some x => Some x | None => k s end.
Proof. intros. unfold opt. now rewrite via_alt, via_emp. Qed.
Lemma via_cls : forall p k b s g, via (Cls p) k (Spot b s g) = match s with c :: t => if p c then k (Spot (c :: b) t g) else None | [] => None end.
Proof. intros p k b [|c s] g; unfold via; cbn; auto. destruct (p c); cbn; auto. destruct (k _); auto. Qed.
Lemma via_behind : forall l k b s g, via (Behind l) k (Spot b s g) = if rowed (rev l) b then k (Spot b s g) else None.
Proof. intros. unfold via. cbn [ways seen]. destruct (rowed _ _); cbn; auto. destruct (k _); auto. Qed.
Lemma via_end : forall k b s g, via AtEnd k (Spot b s g) = match s with [] => k (Spot b s g) | _ => None end.
Proof. intros k b [|c s] g; unfold via; cbn; auto. destruct (k _); auto. Qed.
Lemma via_grp : forall n a k s, via (Grp n a) k s = via a (fun t => k (Spot (seen t) (ahead t) ((n, eaten s t) :: groups t))) s.
Proof. intros. unfold via. cbn [ways]. now rewrite first_map. Qed.
Lemma via_ahead : forall a k s, via (Ahead a) k s = match ways a s with [] => None | _ => k s end.
Proof. intros. unfold via. cbn [ways]. destruct (ways a s); cbn; auto. destruct (k s); auto. Qed.
Lemma via_not : forall a k s, via (NotAhead a) k s = match ways a s with [] => k s | _ => None end.
Proof. intros. unfold via. cbn [ways]. destruct (ways a s); cbn; auto. destruct (k s); auto. Qed.

(** ** Repeated characters *)
Lemma via_many_nil : forall a k b g, via (Many a) k (Spot b [] g) = k (Spot b [] g).
Proof. intros. unfold via. cbn. destruct (k _); auto. Qed.
Lemma via_many_cls : forall p k b c t g, via (Many (Cls p)) k (Spot b (c :: t) g)
  = if p c then match via (Many (Cls p)) k (Spot (c :: b) t g) with Some x => Some x | None => k (Spot b (c :: t) g) end else k (Spot b (c :: t) g).
Proof.
  intros. unfold via. cbn [ways ahead length]. cbn [greedy ways ahead seen groups]. destruct (p c).
  - cbn [flat_map]. unfold progress. cbn [ahead length]. assert (Nat.ltb (length t) (S (length t)) = true) as -> by (apply Nat.ltb_lt; lia). rewrite app_nil_r, first_app. cbn [first]. destruct (first k _); auto. destruct (k _); auto.
  - cbn [flat_map app first]. destruct (k _); auto.
Qed.
Lemma via_few_cls : forall p k b s g, via (Few (Cls p)) k (Spot b s g)
  = match k (Spot b s g) with
    | Some x => Some x
    | None => match s with c :: t => if p c then via (Few (Cls p)) k (Spot (c :: b) t g) else None | [] => None end
    end.
Proof.
  intros p k b [|c t] g; unfold via; cbn [ways ahead length]; cbn [lazy first]; destruct (k _); auto. cbn [ways ahead seen groups]. destruct (p c); cbn [flat_map first]; auto.
  unfold progress. cbn [ahead length]. assert (Nat.ltb (length t) (S (length t)) = true) as -> by (apply Nat.ltb_lt; lia). now rewrite app_nil_r.
Qed.
Definition spent (p : N -> bool) (b s : str) (g : list (nat * str)) : spot := Spot (rev (take_while p s) ++ b) (drop_while p s) g.
(** If it cannot go on before a character of the class, all of them are taken. *)
Lemma many_all : forall p k, (forall b c t g, p c = true -> k (Spot b (c :: t) g) = None) ->
  forall s b g, via (Many (Cls p)) k (Spot b s g) = k (spent p b s g).
Proof.
  intros p k H. induction s as [|c s IH]; intros b g; [now rewrite via_many_nil|]. rewrite via_many_cls. unfold spent. cbn [take_while drop_while]. destruct (p c) eqn:E; auto.
  rewrite IH. unfold spent. cbn [rev]. rewrite <- app_assoc. cbn [app]. rewrite H by exact E. now destruct (k _).
Qed.
(** If it can go on after all of them, all of them are taken. *)
Lemma many_total : forall p k s b g x, k (spent p b s g) = Some x -> via (Many (Cls p)) k (Spot b s g) = Some x.
Proof.
  intros p k. induction s as [|c s IH]; intros b g x H; [now rewrite via_many_nil|]. rewrite via_many_cls. unfold spent in H. cbn [take_while drop_while] in H. destruct (p c) eqn:E; auto.
  erewrite IH; [reflexivity|]. unfold spent. cbn [rev] in H. rewrite <- app_assoc in H. exact H.
Qed.
Lemma some_all : forall p k, (forall b c t g, p c = true -> k (Spot b (c :: t) g) = None) ->
  forall s b g, via (some_of (Cls p)) k (Spot b s g) = match take_while p s with [] => None | _ => k (spent p b s g) end.
Proof.
  intros p k H s b g. unfold some_of. rewrite via_seq, via_cls. destruct s as [|c s]; auto. unfold spent. cbn [take_while drop_while]. destruct (p c) eqn:E; auto. rewrite many_all by exact H. unfold spent. cbn [rev]. now rewrite <- app_assoc.
Qed.
Lemma some_total : forall p k s b g x, take_while p s <> [] -> k (spent p b s g) = Some x -> via (some_of (Cls p)) k (Spot b s g) = Some x.
Proof.
  intros p k s b g x NE H. unfold some_of. rewrite via_seq, via_cls. destruct s as [|c s]; [now contradiction NE|]. unfold spent in H. cbn [take_while drop_while] in *. destruct (p c) eqn:E; [|now contradiction NE].
  apply many_total. unfold spent. cbn [rev] in H. now rewrite <- app_assoc in H.
Qed.
Lemma some_none : forall p k s b g, take_while p s = [] -> via (some_of (Cls p)) k (Spot b s g) = None.
Proof. intros p k s b g E. unfold some_of. rewrite via_seq, via_cls. destruct s as [|c s]; auto. cbn [take_while] in E. destruct (p c); [discriminate|auto]. Qed.
Lemma up_to_total : forall p k n s b g x, k (Spot (rev (take_upto n p s) ++ b) (skipn (length (take_upto n p s)) s) g) = Some x ->
  via (up_to n (Cls p)) k (Spot b s g) = Some x.
Proof.
  intros p k. induction n as [|n IH]; intros s b g x H; cbn [up_to].
  - rewrite via_emp. exact H.
  - rewrite via_alt, via_seq, via_cls, via_emp. destruct s as [|c s]; [exact H|]. cbn [take_upto] in H. destruct (p c) eqn:E; [|exact H].
    erewrite IH; [reflexivity|]. cbn [rev length skipn] in H. rewrite <- app_assoc in H. exact H.
Qed.
End First.

Lemma match_via : forall r b s, match_at r b s = via r Some (Spot b s []).
Proof. intros. unfold match_at, via. destruct (ways r _); auto. Qed.
Lemma ways_via : forall r s, match ways r s with [] => False | _ => True end <-> via r (fun _ => Some tt) s <> None.
Proof. intros. unfold via. destruct (ways r s); cbn; split; intros H; auto; congruence. Qed.
Lemma ahead_via : forall {A} a (k : spot -> option A) s, via (Ahead a) k s = match via a (fun _ => Some tt) s with Some _ => k s | None => None end.
Proof. intros. rewrite via_ahead. unfold via. destruct (ways a s); auto. Qed.
Lemma not_via : forall {A} a (k : spot -> option A) s, via (NotAhead a) k s = match via a (fun _ => Some tt) s with Some _ => None | None => k s end.
Proof. intros. rewrite via_not. unfold via. destruct (ways a s); auto. Qed.
Lemma eaten_app : forall b x y b' g g', eaten (Spot b (x ++ y) g) (Spot b' y g') = x.
Proof. intros. unfold eaten. cbn [ahead]. rewrite app_length. replace (length x + length y - length y)%nat with (length x) by lia. now rewrite firstn_app, Nat.sub_diag, firstn_all, firstn_O, app_nil_r. Qed.
Lemma eaten_cut : forall b s x y b' g g', s = x ++ y -> eaten (Spot b s g) (Spot b' y g') = x.
Proof. intros. subst. apply eaten_app. Qed.

(** ** Matches in a text *)
Definition moves (r : re) : Prop := forall b s m, match_at r b s = Some m -> (length (ahead m) < length s)%nat.
Lemma scan_fuel : forall r, moves r -> forall f f' b s, (length s <= f)%nat -> (length s <= f')%nat -> scan r f b s = scan r f' b s.
Proof.
  intros r MV. induction f as [|f IH]; intros f' b s L L'; destruct s as [|c t]; cbn [length] in *; try lia; [now destruct f'|now destruct f'|].
  destruct f' as [|f']; [lia|]. cbn [scan]. destruct (match_at r b (c :: t)) as [m|] eqn:E; f_equal; apply IH; try (cbn [length]; lia); apply MV in E; cbn [length] in E; lia.
Qed.
Definition items_at (r : re) (b s : str) : list item := scan r (length s) b s.
Lemma items_cons : forall r, moves r -> forall b c t, items_at r b (c :: t) =
  match match_at r b (c :: t) with
  | Some m => Found (eaten (Spot b (c :: t) []) m) (groups m) :: items_at r (seen m) (ahead m)
  | None => Other c :: items_at r (c :: b) t
  end.
Proof.
  intros r MV b c t. unfold items_at. cbn [length scan]. destruct (match_at r b (c :: t)) as [m|] eqn:E; auto. f_equal. apply MV in E. cbn [length] in E. apply scan_fuel; auto; lia.
Qed.
Close Scope N_scope.
