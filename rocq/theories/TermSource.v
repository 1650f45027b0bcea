(** A source text without the escape character is read as a document without it. *)
From Verif Require Import PageSpec TermClean MarkupFacts MarkupMain TextSpec Entities.
From Verif Require Export TermSpec MarkupSpec.
From Verif Require Import PieceSpec RegexSpec Tokenizer.
Open Scope Z_scope.
Section S.
Context `{U : Uni}.

(** ** Matches *)
Definition from (s t : spot) : Prop := incl (ahead t) (ahead s) /\ forall g, In g (groups t) -> In g (groups s) \/ incl (snd g) (ahead s).
Lemma from_refl : forall s, from s s. Proof. intros s. split; [apply incl_refl|auto]. Qed.
Lemma from_trans : forall a b c, from a b -> from b c -> from a c.
Proof. intros a b c [A1 A2] [B1 B2]. split; [eapply incl_tran; eauto|]. intros g H. destruct (B2 g H) as [K|K]; [auto|]. right. eapply incl_tran; eauto. Qed.
Lemma greedy_from : forall body, (forall s t, In t (body s) -> from s t) -> forall n s t, In t (greedy body n s) -> from s t.
Proof.
  intros body H. induction n as [|n IH]; intros s t J; cbn [greedy] in J; [destruct J as [<-|[]]; apply from_refl|]. apply in_app_or in J as [J|[<-|[]]]; [|apply from_refl]. apply in_flat_map in J as (u & I1 & I2). destruct (progress s u); [|destruct I2]. eapply from_trans; eauto.
Qed.
Lemma lazy_from : forall body, (forall s t, In t (body s) -> from s t) -> forall n s t, In t (lazy body n s) -> from s t.
Proof.
  intros body H. induction n as [|n IH]; intros s t J; cbn [lazy] in J; [destruct J as [<-|[]]; apply from_refl|]. destruct J as [<-|J]; [apply from_refl|]. apply in_flat_map in J as (u & I1 & I2). destruct (progress s u); [|destruct I2]. eapply from_trans; eauto.
Qed.
Lemma eaten_incl : forall s t, incl (eaten s t) (ahead s).
Proof. intros s t c K. unfold eaten in K. rewrite <- (firstn_skipn (length (ahead s) - length (ahead t)) (ahead s)). apply in_or_app. now left. Qed.
Lemma ways_from : forall r s t, In t (ways r s) -> from s t.
Proof.
  induction r as [p| |a IHa c IHc|a IHa c IHc|a IHa|a IHa|a IHa|a IHa|l| |n a IHa]; intros s t J; cbn [ways] in J.
  - destruct (ahead s) as [|x r] eqn:E; [destruct J|]. destruct (p x); try contradiction; destruct J as [<-|[]]. split; cbn; [rewrite E; apply incl_tl, incl_refl|auto].
  - destruct J as [<-|[]]. apply from_refl.
  - apply in_flat_map in J as (u & I1 & I2). eapply from_trans; eauto.
  - apply in_app_or in J as [J|J]; eauto.
  - eapply greedy_from; eauto.
  - eapply lazy_from; eauto.
  - destruct (ways a s); [destruct J|]. destruct J as [<-|[]]. apply from_refl.
  - destruct (ways a s); [|destruct J]. destruct J as [<-|[]]. apply from_refl.
  - destruct (rowed _ _); [|destruct J]. destruct J as [<-|[]]. apply from_refl.
  - destruct (ahead s); [|destruct J]. destruct J as [<-|[]]. apply from_refl.
  - apply in_map_iff in J as (u & <- & J). apply IHa in J as [J1 J2]. split; cbn [ahead groups]; [exact J1|]. intros g [<-|K]; [right; apply eaten_incl|auto].
Qed.
Lemma match_from : forall r b s m, match_at r b s = Some m -> from (Spot b s []) m.
Proof. intros r b s m H. unfold match_at in H. destruct (ways r (Spot b s [])) as [|x l] eqn:E; [discriminate|]. injection H as <-. apply (ways_from r). rewrite E. now left. Qed.
Lemma match_ahead : forall r b s m, match_at r b s = Some m -> clean s -> clean (ahead m).
Proof. intros r b s m H C. apply match_from in H as [H _]. eapply clean_incl; eauto. Qed.
Lemma match_groups : forall r b s m, match_at r b s = Some m -> clean s -> forall g, In g (groups m) -> clean (snd g).
Proof. intros r b s m H C g K. apply match_from in H as [_ H]. destruct (H g K) as [[]|L]. eapply clean_incl; eauto. Qed.
Lemma group_clean : forall r b s m n x, match_at r b s = Some m -> clean s -> group n m = Some x -> clean x.
Proof.
  intros r b s m n x H C G. unfold group in G. destruct (find _ (groups m)) as [[k y]|] eqn:E; [|discriminate]. injection G as <-. apply find_some in E as [E _].
  exact (match_groups _ _ _ _ H C _ E).
Qed.
Lemma search_clean : forall r s b x m, search_from r b s = Some (x, m) -> clean s -> clean b -> clean x /\ clean (ahead m).
Proof.
  intros r. induction s as [|c s IH]; intros b x m H C B; cbn [search_from] in H; destruct (match_at r b _) as [m'|] eqn:E.
  1,3: injection H as <- <-; split; [eapply clean_incl; [|exact B]; intros z K; now apply in_rev in K|eapply match_ahead; eauto].
  - discriminate.
  - apply clean_cons in C as [N C]. apply IH in H; auto. now apply clean_cons.
Qed.

(** ** References *)
Lemma entities_clean : forall k v, In (k, v) html5 -> clean v.
Proof.
  assert (H : forallb (fun p : string * str => negb (existsb (N.eqb 27) (snd p))) html5 = true) by (vm_compute; reflexivity).
  rewrite forallb_forall in H. intros k v K J. specialize (H _ K). cbn [snd] in H. apply negb_true_iff in H. rewrite <- not_true_iff_false in H. apply H. apply existsb_exists. exists 27%N. split; [exact J|reflexivity].
Qed.
Lemma code_clean : forall n t, code_text n t -> clean t.
Proof.
  assert (W : clean windows) by (vm_compute; intuition discriminate).
  intros n t H. destruct H as [|n K|n K|n K|n K L|n K1 K2 K3 K4]; try (intros [E|[]]; discriminate E); try exact clean_nil.
  - intros [E|[]]. destruct (nth_in_or_default (N.to_nat (n - 128)) windows 0%N) as [J|J]; [rewrite E in J; exact (W J)|rewrite J in E; discriminate E].
  - intros [E|[]]. subst n. apply K4. unfold no_character. right. right. left. split; discriminate.
Qed.
Lemma stands_clean : forall r v, stands_for r v -> clean r -> clean v.
Proof.
  intros r v H C. destruct H as [ds s t _ _ _ _ K|x ds s t _ _ _ _ K|c n v _ (k & K & _)|c n p q v _ _ E _ (k & K & _) _|c n _ _].
  - eapply code_clean; eauto.
  - eapply code_clean; eauto.
  - eapply entities_clean; eauto.
  - rewrite E in C. apply clean_app in C as [_ C]. apply clean_app. split; [eapply entities_clean; eauto|exact C].
  - apply clean_cons. split; [discriminate|exact C].
Qed.
Definition clean_item (x : item) : Prop := match x with Other c => c <> 27%N | Found _ g => forall y, In y g -> clean (snd y) end.
Lemma scan_clean : forall r f b s, clean s -> Forall clean_item (scan r f b s).
Proof.
  intros r. induction f as [|f IH]; intros b s C; cbn [scan]; [constructor|]. destruct s as [|c t]; [constructor|]. destruct (match_at r b (c :: t)) as [m|] eqn:E.
  - constructor; [exact (match_groups _ _ _ _ E C)|]. apply IH. exact (match_ahead _ _ _ _ E C).
  - apply clean_cons in C as [N C]. constructor; auto.
Qed.
Lemma decoded_clean : forall l t, decoded l t -> Forall clean_item l -> clean t.
Proof.
  induction 1 as [|c l t H IH|m g r l v t F1 S1 H IH]; intros K; [exact clean_nil| |]; inversion K as [|? ? K1 K2]; subst.
  - apply clean_cons. auto.
  - apply clean_app. split; [|auto]. apply find_some in F1 as [F1 _]. apply (stands_clean r); [exact S1|]. exact (K1 _ F1).
Qed.
Lemma read_clean : forall s t, decoded (items charref_re s) t -> clean s -> clean t.
Proof. intros s t H C. eapply decoded_clean; [exact H|]. now apply scan_clean. Qed.

(** ** Tags *)
Definition clean_attrs (a : list (str * option str)) : Prop := forall k v, In (k, Some v) a -> clean v.
Definition clean_op (o : op) : Prop := match o with OStart _ a => clean_attrs a | OData s => clean s | _ => True end.
Fixpoint clean_trace (t : trace) : Prop := match t with TStop _ r => clean r | TErr _ => True | TEv o k => clean_op o /\ clean_trace k end.
Definition clean_mark (m : mark) : Prop := match m with MGo evs _ r => Forall clean_op evs /\ clean r | _ => True end.
Lemma unquoted_clean : forall w v, unquoted w v -> clean w -> clean v.
Proof. intros w v H C. destruct H as [q v Q|v _]; [|exact C]. apply clean_cons in C as [_ C]. now apply clean_app in C as [C _]. Qed.
Lemma attributes_clean : forall stop b s l k, attributes stop b s l k -> clean s -> clean_attrs l.
Proof.
  induction 1 as [|b s L M|b s m nm v l k L M G V A IH]; intros C; [intros ? ? []|intros ? ? []|].
  intros k0 v0 [E|J]; [|exact (IH (match_ahead _ _ _ _ M C) k0 v0 J)]. injection E as _ E. subst v. inversion V as [|m' w v t G2 G3 Q D]; subst.
  eapply read_clean; [exact D|]. eapply unquoted_clean; [exact Q|]. exact (group_clean _ _ _ _ _ _ M C G3).
Qed.
Lemma ends_clean : forall s r, tag_ends s r -> clean s -> clean r.
Proof. intros s r H C. destruct H; auto; apply clean_cons in C as [_ C]; auto. now apply clean_cons in C as [_ C]. Qed.
Lemma start_clean : forall b s x, start_tag b s x -> clean s -> clean_mark x.
Proof.
  intros b s x H C.
  destruct H as [| |m stop m1 nm l k M1 T1 M2 G A _|m stop m1 nm l k M1 T1 M2 G A _|m stop m1 nm l k M1 T1 M2 G A _ _]; try exact Logic.I;
    (assert (CS : clean stop) by (eapply ends_clean; [exact T1|]; eapply match_ahead; eauto); split; [|exact CS]).
  1,2: assert (CA : clean_attrs l) by (eapply attributes_clean; [exact A|]; eapply match_ahead; [exact M2|]; destruct s; [exact C|now apply clean_cons in C as [_ C]]); repeat constructor; exact CA.
  constructor; [|constructor]. now apply firstn_clean.
Qed.
Lemma parted_clean : forall c s x r, parted c s x r -> clean s -> clean x /\ clean r.
Proof. intros c s x r [-> _] C. apply clean_app in C as [C1 C2]. split; [exact C1|]. now apply clean_cons in C2 as [_ C2]. Qed.
Lemma end_clean : forall raw b t x, end_tag raw b t x -> clean t -> clean_mark x.
Proof.
  intros raw b t x H C. destruct H as [|e x r _ P _|m nm x r _ _ P _|m nm x r _ _ P _ _|x r _ _ P _]; try exact Logic.I; apply parted_clean in P as [P1 P2]; auto; split; auto; repeat constructor.
  cbn [clean_op]. apply clean_cons. split; [discriminate|]. apply clean_cons. split; [discriminate|]. apply clean_app. split; [exact P1|]. intros [E|[]]. discriminate E.
Qed.
Lemma gt_clean : forall raw t x, up_to_gt raw t x -> clean t -> clean_mark x.
Proof. intros raw t x H C. destruct H as [|x r P]; [exact Logic.I|]. split; [constructor|]. now apply parted_clean in P as [_ P]. Qed.
Lemma until_clean : forall close raw b t x, up_to_match close raw b t x -> clean t -> clean_mark x.
Proof.
  intros close raw b t x H C. destruct H as [|x m P]; [exact Logic.I|]. split; [constructor|]. clear raw. revert b P. induction t as [|c t IH]; intros b P; cbn [search_from] in P; destruct (match_at close b _) as [m'|] eqn:E.
  1,3: injection P as _ <-; eapply match_ahead; eauto.
  - discriminate.
  - apply clean_cons in C as [_ C]. eauto.
Qed.
Lemma section_clean : forall b t x, marked_section b t x -> clean t -> clean_mark x.
Proof. intros b t x H C. destruct H; try exact Logic.I; eapply until_clean; eauto. Qed.
Lemma markup_clean : forall raw b s x, markup raw b s x -> clean s -> clean_mark x.
Proof.
  intros raw b s x H C. destruct H as [c t x _ H|t x H|t x H|t x H|t x _ H|t x _ _ _ H|c t _ _ _ _].
  - eapply start_clean; eauto.
  - apply clean_cons in C as [_ C]. apply clean_cons in C as [_ C]. eapply end_clean; eauto.
  - do 4 (apply clean_cons in C as [_ C]). eapply until_clean; eauto.
  - do 2 (apply clean_cons in C as [_ C]). eapply gt_clean; eauto.
  - do 3 (apply clean_cons in C as [_ C]). eapply section_clean; eauto.
  - do 2 (apply clean_cons in C as [_ C]). eapply gt_clean; eauto.
  - apply clean_cons in C as [_ C]. split; [|exact C]. repeat constructor. intros [E|[]]. discriminate E.
Qed.
Lemma given_up_clean : forall s a r, given_up s a r -> clean s -> clean a /\ clean r.
Proof.
  intros s a r H C. destruct H as [t x r P|t x r _ P|t _ _]; apply clean_cons in C as [_ C]; try (apply parted_clean in P as [P1 P2]; auto).
  - split; [|exact P2]. apply clean_cons. split; [discriminate|]. apply clean_app. split; [exact P1|]. intros [E|[]]. discriminate E.
  - split; apply clean_cons; (split; [discriminate|assumption]).
  - split; [|exact C]. intros [E|[]]. discriminate E.
Qed.
Lemma said_clean : forall a k t, said a k t -> clean a -> clean_trace k -> clean_trace t.
Proof. intros a k t H C K. destruct H as [u D|]; [|exact Logic.I]. split; [|exact K]. eapply read_clean; eauto. Qed.
Lemma calls_clean : forall evs k, clean_trace (fold_right TEv k evs) <-> Forall clean_op evs /\ clean_trace k.
Proof. induction evs as [|e evs IH]; intros k; cbn [fold_right clean_trace]; [intuition|]. rewrite IH. split; [intros (A & B & D); split; [now constructor|exact D]|intros [A D]; inversion A; subst; auto]. Qed.
Lemma reads_clean_both : forall fin,
  (forall raw s t, MarkupSpec.reads fin raw s t -> clean s -> clean_trace t)
  /\ (forall raw b s t, at_lt fin raw b s t -> clean s -> clean_trace t).
Proof.
  intros fin. apply (reads_both U fin (fun raw s t _ => clean s -> clean_trace t) (fun raw b s t _ => clean s -> clean_trace t)); intros; cbn [clean_trace]; auto.
  - eapply said_clean; eauto. exact clean_nil.
  - eapply said_clean; eauto. exact clean_nil.
  - match goal with P : parted _ _ _ _ |- _ => pose proof (parted_clean _ _ _ _ P ltac:(assumption)) as [P1 P2] end. eapply said_clean; eauto. apply H. apply clean_cons. split; [discriminate|exact P2].
  - subst s. apply clean_app in H0 as [C1 C2]. split; auto.
  - split; [intros [E|[]]; discriminate E|exact clean_nil].
  - apply markup_clean in m; auto. destruct m as [M1 M2]. apply calls_clean. auto.
  - match goal with P : given_up _ _ _ |- _ => pose proof (given_up_clean _ _ _ P ltac:(assumption)) as [P1 P2] end. eapply said_clean; eauto.
  - match goal with P : given_up _ _ _ |- _ => pose proof (given_up_clean _ _ _ P ltac:(assumption)) as [P1 P2] end. split; auto.
Qed.
Lemma source_clean : forall src evs fail, source src evs fail -> clean src -> Forall clean_op evs.
Proof.
  intros src evs fail H C. destruct H as [evs raw r evs' raw' r' A B|evs e A|evs raw r evs' e A B]; apply (proj1 (reads_clean_both _)) in A; auto; apply calls_clean in A as [A1 A2]; auto;
    apply (proj1 (reads_clean_both _)) in B; auto; apply calls_clean in B as [B1 B2]; apply Forall_app; auto.
Qed.

(** ** The tree *)
Lemma single_clean : forall s b, clean s -> clean (single_blanks b s).
Proof.
  induction s as [|c s IH]; intros b C; cbn [single_blanks]; [exact clean_nil|]. apply clean_cons in C as [N C]. destruct (TextSpec.blank c); [destruct b; auto|]; apply clean_cons; split; auto; discriminate.
Qed.
Lemma run_clean : forall w, clean w -> clean (normal_run w).
Proof. intros w C. unfold normal_run. destruct (existsb _ w); [intros [E|[]]; discriminate E|now apply single_clean]. Qed.
Lemma rev_clean : forall w : str, clean w -> clean (rev w).
Proof. intros w C K. apply in_rev in K. exact (C K). Qed.
Lemma normalise_clean : forall s, clean s -> clean (normalise s).
Proof.
  intros s. unfold normalise. assert (H : forall s w, clean s -> clean w -> clean (normalise_from w s)); [|intros C; apply H; [exact C|exact clean_nil]].
  clear s. induction s as [|c s IH]; intros w C W; cbn [normalise_from]; [now apply run_clean, rev_clean|]. apply clean_cons in C as [N C]. destruct (is_space c).
  - apply IH; [exact C|]. now apply clean_cons.
  - apply clean_app. split; [now apply run_clean, rev_clean|]. apply clean_cons. split; [exact N|]. apply IH; [exact C|exact clean_nil].
Qed.
Lemma clean_tag : forall i t a kids, clean_tree (Tag i t a kids) <-> clean_attrs a /\ Forall clean_tree kids.
Proof.
  intros i t a kids. cbn [clean_tree]. unfold clean_attrs. split; intros [A B]; (split; [exact A|]).
  - induction kids as [|k kids IH]; constructor; [exact (proj1 B)|exact (IH (proj2 B))].
  - induction B; [exact Logic.I|split; auto].
Qed.
Lemma add_clean : forall depth x F, clean_tree x -> Forall clean_tree F -> Forall clean_tree (add_at depth x F).
Proof.
  induction depth as [|k IH]; intros x F X H; cbn [add_at]; [apply Forall_app; auto|]. destruct (rev F) as [|[i t a kids|j s] r] eqn:E; auto.
  apply Forall_rev in H. rewrite E in H. inversion H as [|? ? H1 H2]; subst. apply clean_tag in H1 as [H1 H3]. apply Forall_app. split; [now apply Forall_rev|]. constructor; [|constructor]. apply clean_tag. auto.
Qed.
Lemma tree_clean : forall h, Forall clean_op h -> clean_page (tree_of h).
Proof.
  intros h. unfold tree_of, clean_page. assert (H : forall h before F, Forall clean_op h -> Forall clean_tree F -> Forall clean_tree (read_from before F h)); [|intros K; apply H; auto].
  clear h. induction h as [|o h IH]; intros before F K L; cbn [read_from]; [exact L|]. inversion K as [|? ? K1 K2]; subst. apply IH; [exact K2|]. destruct o; auto.
  - apply add_clean; [|exact L]. apply clean_tag. auto.
  - apply add_clean; [|exact L]. cbn [clean_tree]. destruct (inside_pre before); [exact K1|now apply normalise_clean].
Qed.
Lemma source_page : forall src evs fail, source src evs fail -> clean src -> clean_page (tree_of evs).
Proof. intros src evs fail H C. apply tree_clean. eapply source_clean; eauto. Qed.
(** ** Pieces *)
Lemma on_clean : forall l raw kept evs fail, read_on raw kept l evs fail -> clean kept -> Forall clean l -> Forall clean_op evs.
Proof.
  induction 1 as [raw kept evs raw' r R|raw kept evs e R|raw kept x l evs raw' r evs' fail R K IH|raw kept x l evs e R]; intros C L.
  1,2: apply (proj1 (reads_clean_both _)) in R; auto; now apply calls_clean in R as [R _].
  - inversion L as [|? ? L1 L2]; subst. apply (proj1 (reads_clean_both _)) in R; [|apply clean_app; auto]. apply calls_clean in R as [R1 R2]. apply Forall_app. auto.
  - inversion L as [|? ? L1 L2]; subst. apply (proj1 (reads_clean_both _)) in R; [|apply clean_app; auto]. now apply calls_clean in R as [R1 R2].
Qed.
Lemma pieces_page : forall l evs fail, pieces l evs fail -> Forall clean l -> clean_page (tree_of evs).
Proof. intros l evs fail H C. apply tree_clean. eapply on_clean; [exact H|exact clean_nil|exact C]. Qed.
End S.
