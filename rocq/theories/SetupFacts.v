(** The setup of a parser: facts. *)
From Verif Require Import BaseFacts StrFacts.
From Verif Require Export SetupSpec Themes.
Open Scope N_scope.

(** ** Tables *)
Lemma names_keys : forall {A} (d : dict A), names d = dkeys d.
Proof. reflexivity. Qed.

Lemma dget_In : forall {A} (d : dict A) k v, dget k d = Some v -> In (k, v) d.
Proof.
  induction d as [|[k' v'] d IH]; intros k v H; cbn [dget] in H; [discriminate H|]. destruct (seqb_spec k k') as [<-|NE]; [injection H as <-; now left|right; auto].
Qed.
Lemma dset_cases : forall {A} (d : dict A) k v,
  (exists a w b, d = a ++ (k, w) :: b /\ ~ In k (names a) /\ dset k v d = a ++ (k, v) :: b)
  \/ ~ In k (names d) /\ dset k v d = d ++ [(k, v)].
Proof.
  induction d as [|[k' w] d IH]; intros k v; cbn [dset]; [right; split; auto|].
  destruct (seqb_spec k k') as [<-|NE]; [left; exists [], w, d; auto|].
  destruct (IH k v) as [(a & w' & b & -> & N & ->)|[N ->]].
  - left. exists ((k', w) :: a), w', b. split; [reflexivity|]. split; [|reflexivity]. unfold names. cbn [map fst In]. intros [E|E]; [congruence|now apply N].
  - right. split; [|reflexivity]. unfold names. cbn [map fst In]. intros [E|E]; [congruence|now apply N].
Qed.
Lemma replaced_none : forall {A} (own t : dict A), (forall k, In k (names t) -> ~ In k (names own)) -> replaced own t t.
Proof. induction t as [|[k v] t IH]; intros H; [constructor|]. apply rp_stock; [apply H; now left|]. apply IH. intros; apply H; now right. Qed.
Lemma replaced_names : forall {A} (own t t' : dict A), replaced own t t' -> names t' = names t.
Proof. intros A own t t' H. induction H; unfold names in *; cbn [map fst]; congruence. Qed.
Lemma replaced_app : forall {A} (own a a' b b' : dict A), replaced own a a' -> replaced own b b' -> replaced own (a ++ b) (a' ++ b').
Proof. intros A own a a' b b' H K. induction H; cbn [app]; auto; [apply rp_own|apply rp_stock]; auto. Qed.
Lemma replaced_split : forall {A} (own a b t : dict A), replaced own (a ++ b) t -> exists a' b', t = a' ++ b' /\ replaced own a a' /\ replaced own b b'.
Proof.
  intros A own a. induction a as [|[k v] a IH]; intros b t H; [exists [], t; repeat split; auto; constructor|].
  cbn [app] in H. inversion H; subst; match goal with X : replaced own (a ++ b) _ |- _ => destruct (IH _ _ X) as (a' & b' & -> & P & Q) end.
  - exists ((k, w) :: a'), b'. repeat split; auto. now apply rp_own.
  - exists ((k, v) :: a'), b'. repeat split; auto. now apply rp_stock.
Qed.
Lemma fresh_app : forall {A} (stock a a' b b' : dict A), fresh stock a a' -> fresh stock b b' -> fresh stock (a ++ b) (a' ++ b').
Proof. intros A stock a a' b b' H K. induction H; cbn [app]; auto; [apply fr_new|apply fr_old]; auto. Qed.
(** Adding one entry to the caller's table. *)
Lemma replaced_more : forall {A} k v (own t t' : dict A), ~ In k (names own) -> ~ In k (names t) -> replaced own t t' -> replaced (own ++ [(k, v)]) t t'.
Proof.
  intros A k v own t t' NO NT H. induction H as [|k' v' w t t' I _ IH|k' v' t t' NI _ IH]; [constructor| |].
  - apply rp_own; [apply in_or_app; now left|]. apply IH. intros X; apply NT; now right.
  - apply rp_stock; [|apply IH; intros X; apply NT; now right]. unfold names in *. rewrite map_app, in_app_iff. cbn [map fst In]. intros [X|[X|[]]]; [now apply NI|]. apply NT. left. cbn [fst]. congruence.
Qed.
Lemma fresh_names : forall {A} (stock a a' : dict A), fresh stock a a' -> forall k, In k (names a') -> In k (names a) /\ ~ In k (names stock).
Proof.
  intros A stock a a' H. induction H as [|k v t t' N _ IH|k v t t' N _ IH]; intros x X; [inversion X| |].
  - cbn [names map fst In] in *. destruct X as [<-|X]; [split; auto|]. destruct (IH _ X). split; auto.
  - destruct (IH _ X) as [P Q]. split; [now right|exact Q].
Qed.
Lemma names_app : forall {A} (a b : dict A), names (a ++ b) = names a ++ names b.
Proof. intros. unfold names. apply map_app. Qed.
Lemma overlay_set : forall {A} (stock own all : dict A) k v, NoDup (names stock) -> ~ In k (names own) ->
  overlay stock own all -> overlay stock (own ++ [(k, v)]) (dset k v all).
Proof.
  intros A stock own all k v ND NO (olds & news & R & F & ->).
  destruct (in_dec (list_eq_dec N.eq_dec) k (names stock)) as [IS|NS].
  - assert (IO : In k (names olds)) by (rewrite (replaced_names _ _ _ R); exact IS).
    destruct (dset_cases (olds ++ news) k v) as [(a & w & b & E & NA & ->)|[N _]]; [|elim N; rewrite names_app, in_app_iff; now left].
    assert (K : exists b', olds = a ++ (k, w) :: b' /\ b = b' ++ news).
    { clear - E NA IO. revert a E NA. induction olds as [|[x y] olds IH]; intros a E NA; [inversion IO|]. destruct a as [|[x' y'] a].
      - cbn [app] in E. injection E as -> -> <-. exists olds. auto.
      - cbn [app] in E. injection E as -> -> E. destruct IO as [EQ|IO]; [elim NA; left; exact EQ|]. destruct (IH IO a E) as (b' & -> & ->); [intros X; apply NA; now right|]. exists b'. auto. }
    destruct K as (b' & -> & ->). clear E IO. exists (a ++ (k, v) :: b'), news. split; [|split; [|now rewrite <- app_assoc]].
    + (* the stock table splits at k *)
      assert (S : exists c w0 d, stock = c ++ (k, w0) :: d /\ ~ In k (names c) /\ ~ In k (names d) /\ replaced own c a /\ replaced own d b').
      { clear - R NA ND. revert a R NA. induction stock as [|[x y] stock IH]; intros a R NA; [inversion R; destruct a; discriminate|].
        inversion ND as [|? ? NI ND']; subst. specialize (IH ND'). destruct a as [|[x' y'] a].
        - cbn [app] in R. exists [], y, stock. inversion R; subst; repeat split; auto; try constructor; cbn [names map fst] in NI; auto.
        - cbn [app] in R. assert (X : x' = x /\ replaced own stock (a ++ (k, w) :: b')) by (inversion R; subst; auto). destruct X as [-> R'].
          destruct (IH a R') as (c & w0 & d & -> & N1 & N2 & R1 & R2); [intros X; apply NA; now right|].
          exists ((x, y) :: c), w0, d. split; [reflexivity|]. split; [|split; [exact N2|split; [|exact R2]]].
          + cbn [names map fst In]. intros [->|X]; [apply NA; now left|now apply N1].
          + inversion R; subst; [now apply rp_own|now apply rp_stock]. }
      destruct S as (c & w0 & d & -> & N1 & N2 & R1 & R2). apply replaced_app; [now apply replaced_more|]. apply rp_own; [apply in_or_app; right; now left|]. now apply replaced_more.
    + rewrite <- (app_nil_r news). apply fresh_app; auto. apply fr_old; auto. constructor.
  - assert (NI : ~ In k (names (olds ++ news))).
    { rewrite names_app, in_app_iff, (replaced_names _ _ _ R). intros [X|X]; [now apply NS|]. apply NO. exact (proj1 (fresh_names _ _ _ F _ X)). }
    destruct (dset_cases (olds ++ news) k v) as [(a & w & b & E & _ & _)|[_ ->]]; [elim NI; rewrite E, names_app, in_app_iff; right; now left|].
    exists olds, (news ++ [(k, v)]). split; [now apply replaced_more|]. split; [|now rewrite app_assoc]. apply fresh_app; auto. apply fr_new; auto. constructor.
Qed.
Lemma overlay_update : forall {A} (own stock own0 all : dict A), NoDup (names stock) -> NoDup (names (own0 ++ own)) ->
  overlay stock own0 all -> overlay stock (own0 ++ own) (dupdate all own).
Proof.
  intros A own. induction own as [|[k v] own IH]; intros stock own0 all N1 N2 O; [rewrite app_nil_r; exact O|].
  cbn [dupdate]. replace (own0 ++ (k, v) :: own) with ((own0 ++ [(k, v)]) ++ own) in * by (rewrite <- app_assoc; reflexivity).
  apply IH; auto. apply overlay_set; auto. rewrite !names_app in N2. cbn [names map fst] in N2. rewrite <- app_assoc in N2. apply NoDup_remove_2 in N2. intros X. apply N2. apply in_or_app. now left.
Qed.
Lemma overlay_dupdate : forall {A} (stock own : dict A), NoDup (names stock) -> NoDup (names own) -> overlay stock own (dupdate stock own).
Proof.
  intros A stock own N1 N2. apply (overlay_update own stock []); auto. exists stock, []. split; [apply replaced_none; auto|]. split; [constructor|now rewrite app_nil_r].
Qed.
Lemma selecting_ddel : forall {A} (t : dict A), NoDup (names t) -> selecting t (ddel [] t).
Proof.
  induction t as [|[k v] t IH]; intros N; [constructor|]. inversion N as [|? ? NI N']; subst. cbn [ddel]. destruct (seqb_spec [] k) as [<-|NE].
  - apply se_default. clear - NI. induction t as [|[k v] t IH]; constructor.
    + intros ->. apply NI. now left.
    + apply IH. intros X. apply NI. now right.
  - constructor; auto.
Qed.
Lemma overlay_one : forall {A} (stock own all all' : dict A), NoDup (names own) -> overlay stock own all -> overlay stock own all' -> all = all'.
Proof.
  intros A stock own all all' ND (o1 & n1 & R1 & F1 & ->) (o2 & n2 & R2 & F2 & ->). f_equal.
  - clear F1 F2. revert o2 R2. induction R1 as [|k v w t t' I _ IH|k v t t' NI _ IH]; intros o2 R2; inversion R2; subst; auto.
    + f_equal; auto. f_equal. clear - ND I H3. induction own as [|[k' x] own IHo]; [contradiction|]. inversion ND as [|? ? NN ND']; subst. destruct I as [I|I], H3 as [J|J]; [congruence| | |auto].
      * injection I as -> ->. elim NN. exact (in_map (@fst str A) _ _ J).
      * injection J as -> ->. elim NN. exact (in_map (@fst str A) _ _ I).
    + elim H3. exact (in_map (@fst str A) _ _ I).
    + elim NI. match goal with X : In (k, _) own |- _ => exact (in_map (@fst str A) _ _ X) end.
    + f_equal; auto.
  - clear R1 R2 ND. revert n2 F2. induction F1 as [|k v t t' N _ IH|k v t t' X _ IH]; intros n2 F2; inversion F2; subst; try contradiction; [reflexivity|f_equal; auto|auto].
Qed.

(** ** The texts of the tables *)
Definition letterb (c : N) : bool := ((97 <=? c) && (c <=? 122)) || ((65 <=? c) && (c <=? 90)) || ((48 <=? c) && (c <=? 57)) || (c =? 45) || (c =? 95).
Lemma letterb_ok : forall c, letterb c = true -> css_letter c.
Proof. intros c. unfold letterb, css_letter. rewrite !orb_true_iff, !andb_true_iff, !N.leb_le, !N.eqb_eq. lia. Qed.
Definition wordb (w : str) : bool := match w with [] => false | _ => forallb letterb w end.
Lemma wordb_ok : forall w, wordb w = true -> css_word w.
Proof.
  intros [|c w] H; [discriminate H|]. split; [discriminate|]. change (forallb letterb (c :: w) = true) in H. rewrite forallb_forall in H. apply Forall_forall. intros x X. apply letterb_ok. auto.
Qed.
(** One way of writing a compound. *)
Fixpoint written (s : sel) : option str :=
  match s with
  | SElement (Some w) => if wordb w then Some w else None
  | SElement None => Some []
  | SClass s w => match written s with Some t => if wordb w then Some (t ++ lit "." ++ w) else None | None => None end
  | SHash s w => match written s with Some t => if wordb w then Some (t ++ lit "#" ++ w) else None | None => None end
  | SPseudo s w => match written s with Some t => if wordb w then Some (t ++ lit ":" ++ w) else None | None => None end
  | _ => None
  end.
Lemma written_ok : forall s t, written s = Some t -> compound t s.
Proof.
  induction s; intros t H; cbn [written] in H; try discriminate H.
  - destruct name as [w|]; [destruct (wordb w) eqn:W; [|discriminate H]|]; injection H as <-; [apply cm_name; now apply wordb_ok|apply cm_left_out].
  - destruct (written s) as [u|]; [|discriminate H]. destruct (wordb c) eqn:W; [|discriminate H]. injection H as <-. apply cm_class; [auto|now apply wordb_ok].
  - destruct (written s) as [u|]; [|discriminate H]. destruct (wordb id) eqn:W; [|discriminate H]. injection H as <-. apply cm_id; [auto|now apply wordb_ok].
  - destruct (written s) as [u|]; [|discriminate H]. destruct (wordb ident) eqn:W; [|discriminate H]. injection H as <-. apply cm_pseudo; [auto|now apply wordb_ok].
Qed.
Fixpoint spelling (s : sel) : option str :=
  match s with
  | SCombined a c b =>
      match spelling a, written b with
      | Some t, Some (x :: u) =>
          if seqb c (lit " ") then Some (t ++ lit " " ++ x :: u)
          else match c with
               | [y] => if existsb (N.eqb y) [62; 43; 126] then Some (t ++ lit " " ++ [y] ++ lit " " ++ x :: u) else None
               | _ => None
               end
      | _, _ => None
      end
  | _ => match written s with Some (x :: u) => Some (x :: u) | _ => None end
  end.
Lemma one_blank : css_blank (lit " ").
Proof. repeat constructor. Qed.
Lemma spelling_ok : forall s t, spelling s = Some t -> css t s.
Proof.
  assert (G : forall s t, match written s with Some (x :: u) => Some (x :: u) | _ => None end = Some t -> css t s).
  { intros s t H. destruct (written s) as [[|x u]|] eqn:W; try discriminate H. injection H as <-. apply cs_one; [discriminate|now apply written_ok]. }
  induction s as [name|s IH c|s IH id|s IHs sub IHsub|s IH a o v|s IH i|s IH nm args|a IHa c b IHb|]; intros t H; try (apply G; exact H; fail).
  cbn [spelling] in H. destruct (spelling a) as [ta|]; [|discriminate H]. destruct (written b) as [[|x u]|] eqn:W; try discriminate H. apply written_ok in W.
  destruct (seqb_spec c (lit " ")) as [->|NE].
  - injection H as <-. apply (cs_inside ta a (x :: u) b (lit " ")); auto; try discriminate. apply one_blank.
  - destruct c as [|y [|? ?]]; try discriminate H. destruct (existsb (N.eqb y) [62; 43; 126]) eqn:X; [|discriminate H]. injection H as <-.
    apply existsb_exists in X as (z & I & Z). apply N.eqb_eq in Z. subst z. apply (cs_other ta a (x :: u) b (lit " ") (lit " ") y); auto; try apply one_blank. discriminate.
Qed.
Fixpoint listing (gap : str) (l : list selector) : option str :=
  match l with
  | [] => None
  | [Selector s false] => spelling s
  | Selector s false :: r => match spelling s, listing gap r with Some t, Some u => Some (t ++ lit "," ++ gap ++ u) | _, _ => None end
  | _ => None
  end.
Lemma listing_ok : forall gap l t, css_blank gap -> listing gap l = Some t -> css_list t l.
Proof.
  intros gap l t B. revert t. induction l as [|[s []] l IH]; intros t H; try discriminate H. cbn [listing] in H. destruct l as [|s' l].
  - apply cl_one. now apply spelling_ok.
  - destruct (spelling s) as [a|] eqn:E; [|discriminate H]. destruct (listing gap (s' :: l)) as [u|]; [|discriminate H]. injection H as <-. apply (cl_more a s u (s' :: l) gap); auto. now apply spelling_ok.
Qed.
Definition is_written (k : str) (l : list selector) : bool :=
  existsb (fun gap => match listing gap l with Some t => seqb t k | None => false end) [[]; lit " "].
Lemma is_written_ok : forall k l, is_written k l = true -> css_list k l.
Proof.
  intros k l H. unfold is_written in H. apply existsb_exists in H as (gap & G & H). destruct (listing gap l) as [t|] eqn:L; [|discriminate H]. apply seqb_eq in H. subst t.
  apply (listing_ok gap); auto. destruct G as [<-|[<-|[]]]; [constructor|apply one_blank].
Qed.
Close Scope N_scope.
