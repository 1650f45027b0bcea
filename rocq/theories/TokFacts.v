(** Facts about the tokenizer: every construct consumes text, so the number of
    rounds is bounded by the length of the text. *)
From Verif Require Import BaseFacts StrFacts Feed.
Open Scope N_scope.

(** ** Suffixes *)
Definition suff (r s : str) : Prop := exists a, s = a ++ r.
Lemma suff_refl : forall s, suff s s.
Proof. intros s. now exists []. Qed.
Lemma suff_cons : forall r s c, suff r s -> suff r (c :: s).
Proof. intros r s c [a ->]. now exists (c :: a). Qed.
Lemma suff_trans : forall a b c, suff a b -> suff b c -> suff a c.
Proof. intros a b c [x ->] [y ->]. exists (y ++ x). now rewrite <- app_assoc. Qed.
Lemma suff_len : forall r s, suff r s -> (length r <= length s)%nat.
Proof. intros r s [a ->]. rewrite app_length. lia. Qed.
Lemma suff_app : forall a r, suff r (a ++ r).
Proof. intros. now exists a. Qed.
Lemma suff_skipn : forall n s, suff (skipn n s) s.
Proof. intros n s. exists (firstn n s). symmetry. apply firstn_skipn. Qed.
Lemma take_drop : forall p s, take_while p s ++ drop_while p s = s.
Proof. induction s as [|c r IH]; simpl; auto. destruct (p c); simpl; auto. now rewrite IH. Qed.
Lemma suff_drop : forall p s, suff (drop_while p s) s.
Proof. intros. exists (take_while p s). symmetry. apply take_drop. Qed.
Lemma suff_misc : forall s p q r, skip_misc p s = (q, r) -> suff r s.
Proof.
  induction s as [|c s IH]; intros p q r H; simpl in H; [injection H as _ <-; apply suff_refl|].
  destruct (is_space c); [apply suff_cons; eapply IH; eauto|]. destruct (c =? 47).
  - destruct s as [|d s']; [apply suff_cons; eapply IH; eauto|]. destruct (d =? 62); [injection H as _ <-; apply suff_refl|apply suff_cons; eapply IH; eauto].
  - injection H as _ <-. apply suff_refl.
Qed.
Lemma suff_value : forall s v p r, attr_value s = Some (v, p, r) -> suff r s.
Proof.
  intros s v p r H. unfold attr_value in H. cbv zeta in H.
  set (s1 := drop_while is_space s) in *. set (s2 := drop_while (N.eqb 61) s1) in *. set (s3 := drop_while is_space s2) in *.
  assert (S1 : suff s1 s) by apply suff_drop. assert (S2 : suff s2 s) by (eapply suff_trans; [apply suff_drop|exact S1]).
  assert (S3 : suff s3 s) by (eapply suff_trans; [apply suff_drop|exact S2]).
  assert (ER : take_while (N.eqb 61) s1 ++ s2 = s1) by apply take_drop.
  assert (EW : take_while is_space s2 ++ s3 = s2) by apply take_drop.
  destruct (take_while (N.eqb 61) s1) as [|e1 es] eqn:EQ; [discriminate|].
  destruct s3 as [|q t].
  - injection H as _ _ <-. cbn. exists s. now rewrite app_nil_r.
  - destruct (is_quote q).
    + destruct (has_char q t).
      * injection H as _ _ <-. eapply suff_trans; [|exact S3]. apply suff_cons. exact (suff_skipn (S (length (take_while (fun c : N => negb (c =? q)) t))) t).
      * destruct (rev (take_while is_space s2)) as [|x l] eqn:RW.
        -- destruct es as [|e2 es']; [discriminate|].
           injection H as _ _ <-. eapply suff_trans; [exact (suff_drop (fun c => negb ((c =? 62) || is_space c)) (61 :: q :: t))|].
           eapply suff_trans; [|exact S1]. rewrite <- ER. assert (W0 : take_while is_space s2 = []) by (rewrite <- (rev_involutive (take_while is_space s2)), RW; reflexivity).
           rewrite W0 in EW. cbn [app] in EW. rewrite <- EW.
           assert (ALL : forall l : str, forallb (N.eqb 61) l = true -> suff (61 :: q :: t) (e1 :: l ++ q :: t) \/ l = []).
           { clear. intros l HL. destruct l as [|x l]; [now right|left]. revert e1 x HL. induction l as [|y l IH]; intros e1 x HL; cbn [forallb] in HL.
             - apply andb_true_iff in HL. destruct HL as [HL _]. apply N.eqb_eq in HL. subst x. cbn [app]. apply suff_cons. apply suff_refl.
             - apply andb_true_iff in HL. destruct HL as [_ HL]. cbn [app]. apply suff_cons. apply (IH x y HL). }
           destruct (ALL (e2 :: es')) as [A|A]; [|exact A|discriminate].
           assert (F : forallb (N.eqb 61) (e1 :: e2 :: es') = true).
           { rewrite <- EQ. clear. induction s1 as [|c r IH]; [reflexivity|]. cbn [take_while]. destruct (61 =? c) eqn:E; [|reflexivity]. cbn [forallb]. now rewrite E. }
           cbn [forallb] in F. apply andb_true_iff in F. exact (proj2 F).
        -- injection H as _ _ <-. eapply suff_trans; [|exact S2]. rewrite <- EW.
           rewrite <- (rev_involutive (take_while is_space s2)), RW. cbn [rev]. rewrite <- app_assoc. cbn [app]. apply suff_app.
    + injection H as _ _ <-. eapply suff_trans; [exact (suff_drop (fun c => negb ((c =? 62) || is_space c)) (q :: t))|exact S3].
Qed.
Lemma suff_attr : forall prev s nm v p r, attr_here prev s = Some (nm, v, p, r) -> exists c s', s = c :: s' /\ suff r s'.
Proof.
  intros prev s nm v p r H. destruct s as [|c s']; [discriminate|]. exists c, s'. split; auto. unfold attr_here in H.
  destruct ((is_quote prev || is_space prev || (prev =? 47)) && negb (is_space c || (c =? 47) || (c =? 62))); [|discriminate].
  cbv zeta in H. set (more := fun c : N => _) in H. destruct (attr_value (drop_while more s')) as [[[v' p'] s2]|] eqn:V.
  - destruct (skip_misc p' s2) as [p2 s3] eqn:K. injection H as _ _ _ <-.
    eapply suff_trans; [eapply suff_misc; eauto|]. eapply suff_trans; [eapply suff_value; eauto|apply suff_drop].
  - destruct (skip_misc _ (drop_while more s')) as [p2 s3] eqn:K. injection H as _ _ _ <-.
    eapply suff_trans; [eapply suff_misc; eauto|apply suff_drop].
Qed.
Lemma suff_attrs : forall f prev s, suff (skip_attrs f prev s) s.
Proof.
  induction f as [|f IH]; intros prev s; cbn [skip_attrs]; [apply suff_refl|].
  destruct (attr_here prev s) as [[[[nm v] p] r]|] eqn:E; [|apply suff_refl]. apply suff_attr in E. destruct E as (c & s' & -> & E).
  eapply suff_trans; [apply IH|]. now apply suff_cons.
Qed.
Lemma suff_whole : forall s r, whole_start_tag s = Some r -> suff r s.
Proof.
  intros s r H. unfold whole_start_tag in H. cbv zeta in H.
  set (j := drop_while is_space _) in H. assert (J : suff j s).
  { unfold j. eapply suff_trans; [apply suff_drop|]. eapply suff_trans; [apply suff_attrs|]. eapply suff_trans; [apply suff_drop|apply suff_drop]. }
  clearbody j. destruct j as [|c t]; [discriminate|]. destruct (c =? 62); [injection H as <-; eapply suff_trans; [|exact J]; apply suff_cons, suff_refl|].
  destruct (c =? 47).
  - destruct t as [|d r']; [discriminate|]. destruct (d =? 62); [|discriminate]. injection H as <-. eapply suff_trans; [|exact J]. apply suff_cons, suff_cons, suff_refl.
  - destruct (is_alpha_ascii c || (c =? 61)); [discriminate|]. now injection H as <-.
Qed.
Lemma suff_after : forall c s r, after_char c s = Some r -> exists d s', s = d :: s' /\ suff r s'.
Proof.
  induction s as [|x s IH]; intros r H; simpl in H; [discriminate|]. exists x, s. split; auto. destruct (x =? c).
  - injection H as <-. apply suff_refl.
  - destruct (IH r H) as (d & s' & -> & S). now apply suff_cons.
Qed.
Lemma suff_after' : forall c s r, after_char c s = Some r -> suff r s.
Proof. intros c s r H. destruct (suff_after c s r H) as (d & s' & -> & S). now apply suff_cons. Qed.
Lemma suff_search : forall p, (forall s r, p s = Some r -> suff r s) -> forall s r, search p s = Some r -> suff r s.
Proof.
  intros p HP. induction s as [|c s IH]; intros r H; cbn [search] in H; [destruct (p []) eqn:E; [injection H as <-; eauto|discriminate]|].
  destruct (p (c :: s)) eqn:E; [injection H as <-; eauto|]. apply suff_cons. auto.
Qed.
Lemma suff_close : forall a b gap s r, close_at a b gap s = Some r -> suff r s.
Proof.
  intros a b gap s r H. unfold close_at in H. destruct s as [|x s]; [discriminate|]. destruct (x =? a); [|discriminate].
  set (t := if gap then drop_while is_space s else s) in H. assert (T : suff t s) by (unfold t; destruct gap; [apply suff_drop|apply suff_refl]).
  clearbody t. destruct t as [|y t]; [discriminate|]. destruct (y =? b); [|discriminate]. pose proof (suff_drop is_space t) as D.
  destruct (drop_while is_space t) as [|g u]; [discriminate|]. destruct (g =? 62); [|discriminate]. injection H as <-.
  apply suff_cons. eapply suff_trans; [|exact T]. apply suff_cons. eapply suff_trans; [|exact D]. apply suff_cons, suff_refl.
Qed.
Lemma suff_ms : forall s r, ms_close s = Some r -> suff r s.
Proof.
  intros s r H. unfold ms_close in H. destruct s as [|x s]; [discriminate|]. destruct (x =? 93); [|discriminate].
  pose proof (suff_drop is_space s) as D. destruct (drop_while is_space s) as [|g u]; [discriminate|]. destruct (g =? 62); [|discriminate]. injection H as <-.
  apply suff_cons. eapply suff_trans; [|exact D]. apply suff_cons, suff_refl.
Qed.

(** ** Every construct consumes text *)
Section T.
Context `{U : Uni}.
Lemma startswith_shape : forall p s, startswith p s = true -> exists r, s = p ++ r.
Proof.
  induction p as [|c p IH]; intros s H; [now exists s|]. destruct s as [|x s]; [discriminate|]. simpl in H. apply andb_true_iff in H. destruct H as [H1 H2].
  apply N.eqb_eq in H1. subst x. destruct (IH s H2) as [r ->]. now exists r.
Qed.
Definition shorter (r s : str) : Prop := exists c s', s = c :: s' /\ suff r s'.
Lemma shorter_len : forall r s, shorter r s -> (length r < length s)%nat.
Proof. intros r s (c & s' & -> & S). apply suff_len in S. simpl. lia. Qed.
Lemma shorter_suff : forall r s, shorter r s -> suff r s.
Proof. intros r s (c & s' & -> & S). now apply suff_cons. Qed.
Lemma skipn_shorter : forall n s r, s <> [] -> suff r (skipn (S n) s) -> shorter r s.
Proof. intros n s r NE H. destruct s as [|c s]; [now elim NE|]. exists c, s. split; auto. eapply suff_trans; [exact H|]. exact (suff_skipn n s). Qed.

Lemma markup_shorter : forall cd s evs cd' r, parse_markup cd s = Some (MGo evs cd' r) -> shorter r s.
Proof.
  intros cd s evs cd' r H. unfold parse_markup in H. destruct s as [|a [|c t]]; try discriminate.
  destruct (is_alpha_ascii c).
  { assert (H' : parse_starttag (a :: c :: t) = MGo evs cd' r) by (injection H as H; exact H). clear H. unfold parse_starttag in H'.
    exists a, (c :: t). split; auto. set (u := c :: t) in *. clearbody u.
    destruct (whole_start_tag u) as [stop|] eqn:W; [|discriminate]. apply suff_whole in W.
    destruct (skip_misc (last_of 0 (take_while name_char u)) (drop_while name_char u)) as [p q].
    destruct (read_attrs (length u) stop p q) as [[attrs k]|]; [|discriminate].
    destruct (seqb (strip (upto k stop)) (lit ">")); [injection H' as _ _ <-; exact W|].
    destruct (seqb (strip (upto k stop)) (lit "/>")); injection H' as _ _ <-; exact W. }
  destruct (c =? 47) eqn:E47.
  { assert (H' : parse_endtag cd t = MGo evs cd' r) by (injection H as H; exact H). clear H. exists a, (c :: t). split; auto. apply suff_cons.
    unfold parse_endtag in H'. destruct (after_char 62 t) as [gt|] eqn:G; [|discriminate]. pose proof (suff_after' _ _ _ G) as SG.
    destruct (end_tag_name t) as [nm|].
    - destruct cd as [e|]; [destruct (seqb (lower nm) e)|]; injection H' as _ _ <-; exact SG.
    - destruct cd as [e|]; [injection H' as _ _ <-; exact SG|]. destruct t as [|x t']; [discriminate|].
      destruct (is_alpha_ascii x); [|injection H' as _ _ <-; exact SG].
      set (u := x :: t') in *. clearbody u. destruct (skip_misc 0 (drop_while name_char u)) as [p q] eqn:K. cbn [snd] in H'.
      assert (Q : suff q u) by (eapply suff_trans; [eapply suff_misc; eauto|apply suff_drop]).
      destruct (after_char 62 q) as [w|] eqn:A; injection H' as _ _ <-; [|exists u; now rewrite app_nil_r].
      eapply suff_trans; [eapply suff_after'; eauto|exact Q]. }
  destruct (startswith (lit "<!--") (a :: c :: t)).
  { destruct (search comment_close (skipn 4 (a :: c :: t))) as [x|] eqn:E; [|discriminate]. injection H as _ _ <-.
    apply (skipn_shorter 3); [discriminate|]. eapply suff_search; [|exact E]. apply suff_close. }
  destruct (c =? 63).
  { destruct (after_char 62 t) as [x|] eqn:E; [|discriminate]. injection H as _ _ <-. exists a, (c :: t). split; auto. apply suff_cons. eapply suff_after'; eauto. }
  destruct (c =? 33).
  { assert (H' : parse_declaration (a :: c :: t) = MGo evs cd' r) by (injection H as H; exact H). clear H. unfold parse_declaration in H'.
    destruct (startswith (lit "<![") (a :: c :: t)).
    - apply (skipn_shorter 2); [discriminate|]. set (u := skipn 3 (a :: c :: t)) in *. clearbody u. unfold parse_marked_section in H'.
      destruct u as [|x u']; [discriminate|]. destruct (is_alpha_ascii x); [|discriminate]. set (v := x :: u') in *. clearbody v.
      destruct (drop_while is_space (drop_while decl_name_char v)); [discriminate|]. cbv zeta in H'.
      destruct (smem _ _).
      + unfold quiet in H'. destruct (search section_close v) eqn:E; [|discriminate]. injection H' as _ _ <-. eapply suff_search; [|exact E]. apply suff_close.
      + destruct (smem _ _); [|discriminate]. unfold quiet in H'. destruct (search ms_close v) eqn:E; [|discriminate]. injection H' as _ _ <-. eapply suff_search; [|exact E]. apply suff_ms.
    - destruct (seqb (lower (firstn 9 (a :: c :: t))) (lit "<!doctype")); unfold quiet in H'.
      + destruct (after_char 62 (skipn 9 (a :: c :: t))) eqn:E; [|discriminate]. injection H' as _ _ <-. apply (skipn_shorter 8); [discriminate|]. eapply suff_after'; eauto.
      + destruct (after_char 62 (skipn 2 (a :: c :: t))) eqn:E; [|discriminate]. injection H' as _ _ <-. apply (skipn_shorter 1); [discriminate|]. eapply suff_after'; eauto. }
  injection H as _ _ <-. exists a, (c :: t). split; auto. apply suff_refl.
Qed.
Lemma unclosed_shorter : forall s a r, s <> [] -> unclosed_piece s = (a, r) -> shorter r s.
Proof.
  intros s a r NE H. unfold unclosed_piece in H. destruct s as [|c t]; [now elim NE|]. exists c, t. split; auto.
  destruct (has_char 62 t || has_char 60 t); [|injection H as _ <-; apply suff_refl]. unfold unclosed in H.
  destruct (after_char 62 t) as [x|] eqn:E; injection H as _ <-; [eapply suff_after'; eauto|apply suff_drop].
Qed.
Lemma cdata_text_split : forall e s a r, cdata_text e s = Some (a, r) -> s = a ++ r.
Proof.
  induction s as [|c s IH]; intros a r H; cbn [cdata_text] in H.
  - destruct (cdata_close e []); [now injection H as <- <-|discriminate].
  - destruct (cdata_close e (c :: s)); [now injection H as <- <-|]. destruct (cdata_text e s) as [[x y]|]; [|discriminate]. injection H as <- <-. simpl. now rewrite <- (IH x y).
Qed.

(** ** One round *)
Definition at_markup (fin : bool) (cd : option str) (s : str) : trace :=
  match s with
  | [] => TStop cd []
  | _ =>
      match parse_markup cd s with
      | None => finish fin cd s
      | Some (MGo evs cd' rest) => emit_all evs (tokens fin cd' rest)
      | Some (MFail e) => TErr e
      | Some MWait =>
          if fin then
            let '(a, r) := unclosed_piece s in
            match cd with
            | None => emit a (tokens fin cd r)
            | Some _ => TEv (OData a) (tokens fin cd r)
            end
          else TStop cd s
      end
  end.
Lemma goahead_fuel : forall f1 f2 fin cd s, (length s < f1)%nat -> (length s < f2)%nat -> goahead f1 fin cd s = goahead f2 fin cd s.
Proof.
  induction f1 as [|f1 IH]; intros f2 fin cd s H1 H2; [lia|]. destruct f2 as [|f2]; [lia|]. cbn [goahead]. cbv zeta.
  assert (G : forall r cd', shorter r s \/ shorter r s -> goahead f1 fin cd' r = goahead f2 fin cd' r).
  { intros r cd' S. assert (S' : shorter r s) by tauto. apply shorter_len in S'. apply IH; lia. }
  assert (M : forall r, suff r s ->
    match r with [] => TStop cd [] | _ :: _ => match parse_markup cd r with
      | None => finish fin cd r | Some (MGo evs cd' rest) => emit_all evs (goahead f1 fin cd' rest) | Some (MFail e) => TErr e
      | Some MWait => if fin then let '(a, r0) := unclosed_piece r in match cd with None => emit a (goahead f1 fin cd r0) | Some _ => TEv (OData a) (goahead f1 fin cd r0) end else TStop cd r end end
    = match r with [] => TStop cd [] | _ :: _ => match parse_markup cd r with
      | None => finish fin cd r | Some (MGo evs cd' rest) => emit_all evs (goahead f2 fin cd' rest) | Some (MFail e) => TErr e
      | Some MWait => if fin then let '(a, r0) := unclosed_piece r in match cd with None => emit a (goahead f2 fin cd r0) | Some _ => TEv (OData a) (goahead f2 fin cd r0) end else TStop cd r end end).
  { intros r S. apply suff_len in S. destruct r as [|c t]; [reflexivity|]. destruct (parse_markup cd (c :: t)) as [m|] eqn:P; [|reflexivity].
    destruct m as [|evs cd' rest|e]; auto.
    - destruct fin; [|reflexivity]. destruct (unclosed_piece (c :: t)) as [a r0] eqn:Q. apply unclosed_shorter in Q; [|discriminate]. apply shorter_len in Q.
      rewrite (IH f2 true cd r0) by lia. reflexivity.
    - apply markup_shorter in P. apply shorter_len in P. now rewrite (IH f2 fin cd' rest) by lia. }
  destruct s as [|c t]; [reflexivity|]. set (s := c :: t) in *. clearbody s. destruct cd as [e|].
  - destruct (cdata_text e s) as [[a r]|] eqn:C; [|reflexivity]. apply cdata_text_split in C. rewrite M by (rewrite C; apply suff_app). reflexivity.
  - rewrite M by apply suff_drop. reflexivity.
Qed.
Lemma tokens_eq : forall fin cd s, tokens fin cd s =
  match s with
  | [] => TStop cd []
  | _ =>
      match cd with
      | None =>
          match drop_while not_lt s with
          | [] => if half_reference s then finish fin cd s else emit (take_while not_lt s) (TStop None [])
          | r => match take_while not_lt s with [] => at_markup fin cd r | a => emit a (at_markup fin cd r) end
          end
      | Some e =>
          match cdata_text e s with
          | None => TStop cd s
          | Some (a, r) => match a with [] => at_markup fin cd r | _ => TEv (OData a) (at_markup fin cd r) end
          end
      end
  end.
Proof.
  intros fin cd s. unfold tokens. cbn [goahead]. cbv zeta.
  assert (M : forall r, suff r s ->
    match r with [] => TStop cd [] | _ :: _ => match parse_markup cd r with
      | None => finish fin cd r | Some (MGo evs cd' rest) => emit_all evs (goahead (length s) fin cd' rest) | Some (MFail e) => TErr e
      | Some MWait => if fin then let '(a, r0) := unclosed_piece r in match cd with None => emit a (goahead (length s) fin cd r0) | Some _ => TEv (OData a) (goahead (length s) fin cd r0) end else TStop cd r end end
    = at_markup fin cd r).
  { intros r SF. apply suff_len in SF. unfold at_markup, tokens. destruct r as [|c t]; [reflexivity|]. destruct (parse_markup cd (c :: t)) as [m|] eqn:P; [|reflexivity].
    destruct m as [|evs cd' rest|e]; auto.
    - destruct fin; [|reflexivity]. destruct (unclosed_piece (c :: t)) as [a r0] eqn:Q. apply unclosed_shorter in Q; [|discriminate]. apply shorter_len in Q.
      rewrite (goahead_fuel (length s) (S (length r0)) true cd r0) by lia. reflexivity.
    - apply markup_shorter in P. apply shorter_len in P. now rewrite (goahead_fuel (length s) (S (length rest)) fin cd' rest) by lia. }
  destruct s as [|c t]; [reflexivity|]. set (s := c :: t) in *. clearbody s. destruct cd as [e|].
  - destruct (cdata_text e s) as [[a r]|] eqn:C; [|reflexivity]. apply cdata_text_split in C. rewrite M by (rewrite C; apply suff_app). reflexivity.
  - rewrite M by apply suff_drop. destruct (drop_while not_lt s); [|destruct (take_while not_lt s)]; reflexivity.
Qed.
End T.
Close Scope N_scope.
