(** Facts about handlers that raise. *)
From Verif Require Import BaseFacts StrFacts TreeFacts HistoryFacts DocFacts DomFacts RenderFacts ElemFacts LinkFacts TokFacts PageBase PageFacts PageText PageElem PageMain PageRead.
From Verif Require Export CrashSpec.

Section X.
Context `{U : Uni}.

Lemma start_fails : forall g s z t a, Inv s z ->
  match start_error g (map f_tag (z_open z)) t a with
  | Some e => handle_starttag g t a s = Err e
  | None => exists s', handle_starttag g t a s = Ok s'
  end.
Proof.
  intros g s z t a I. unfold start_error, handle_starttag. rewrite (inv_top _ _ I).
  unfold tag_attrs. rewrite !dget_dict_of. cbn [dget].
  destruct (dlast (lit "class") a) as [[c|]|]; cbn [bind]; [| reflexivity|].
  all: change (is_a t || is_img t)%bool with (is_link t); destruct (is_link t); cbn [bind]; [|eexists; reflexivity].
  all: unfold make_link; rewrite !attr_str_attr; cbv zeta; change (seqb t (lit "img")) with (is_img t).
  all: replace (if is_img t then attr "src" a else attr "href" a) with (attr (if is_img t then "src" else "href") a) by (destruct (is_img t); reflexivity).
  all: destruct (parse_href _ _ _) as [gl|e]; cbn [bind]; [|reflexivity].
  all: change (placement_of g t) with (placement g t).
  all: destruct (seqb_spec (placement g t) (lit "footer")) as [EF|EF]; [rewrite EF; change (seqb (lit "footer") (lit "after_block")) with false; cbv iota; cbn [bind]; destruct (z_open z); eexists; reflexivity|].
  all: destruct (z_open z) as [|f r]; cbn [map]; destruct (seqb (placement g t) (lit "after_block")); cbn [bind]; try (eexists; reflexivity); reflexivity.
Qed.

(** ** Failed close *)
Lemma assign_error_same : forall g d sg sg' ids e, assign_all g d sg ids = Err e -> assign_all g d sg' ids = Err e.
Proof.
  intros g d sg sg'. assert (O : forall i, match assign_one g d sg i with Ok _ => exists a, assign_one g d sg' i = Ok a | Err e => assign_one g d sg' i = Err e end).
  { intros i. unfold assign_one. destruct (get_renderer g d i); cbn [bind]; [|reflexivity]. destruct (node_at d i) as [n|]; [|reflexivity].
    destruct (n_tag n) as [t|]; [|eauto]. destruct (is_link t); [|eauto]. destruct (get_ext_renderer g d i); cbn [bind]; [eauto|reflexivity]. }
  induction ids as [|i ids IH]; intros e H; cbn [assign_all] in *; [discriminate|]. specialize (O i). destruct (assign_one g d sg i) as [a|x]; cbn [bind] in H.
  - destruct O as (a' & ->). cbn [bind]. destruct (assign_all g d sg ids) as [l|y]; cbn [bind] in H; [discriminate|]. rewrite (IH e); [reflexivity|]. congruence.
  - rewrite O. cbn [bind]. congruence.
Qed.
Lemma close_x_failed : forall g s s' e, close_x g s = (s', Some e) ->
  p_out s' = p_out s /\ p_dom s' = p_dom s /\ p_stack s' = [] /\ p_next s' = p_next s /\ p_footer s' = p_footer s /\ p_in_pre s' = p_in_pre s
  /\ close g s' = Err e.
Proof.
  intros g s s' e H. unfold close_x in H. destruct (close g s) as [x|y] eqn:C; [discriminate|]. injection H as <- ->.
  destruct (assign_all g (p_dom s) (p_asg s) (seq 0 (length (d_nodes (p_dom s))))) as [sg|y] eqn:A.
  - cbn [p_out p_dom p_stack p_next p_footer p_in_pre]. repeat (split; [reflexivity|]). unfold close in C |- *. cbv zeta in *. cbn [p_dom p_asg p_chunks p_footer] in *.
    rewrite A in C. rewrite (assign_again _ _ _ _ _ (seq_NoDup _ _) A). cbn [bind] in *.
    destruct (mapM _ (d_root (p_dom s))) as [body|x]; cbn [bind] in *; [|exact C].
    destruct (if seqb (g_link g) (lit "footer") then _ else _) as [foot|x]; cbn [bind] in *; [discriminate|exact C].
  - cbn [p_out p_dom p_stack p_next p_footer p_in_pre]. repeat (split; [reflexivity|]). unfold close in C |- *. cbv zeta in *. cbn [p_dom p_asg p_chunks p_footer] in *.
    rewrite A in C. cbn [bind] in C. injection C as ->. rewrite (assign_error_same _ _ _ _ _ _ A). reflexivity.
Qed.

(** ** The tree survives *)
Lemma step_x_inv : forall g o s z s' e, Inv s z -> step_x g o s = (s', e) ->
  exists z', Inv s' z' /\ match e with
    | None => step g o s = Ok s' /\ z' = zstep o z
    | Some _ => match o with OStart _ _ => z_open z' = z_open z | _ => True end
    end.
Proof.
  intros g o s z s' e I H. destruct o as [t a|t|x| |]; cbn [step_x] in H.
  - unfold start_x in H. destruct (handle_starttag g t a s) as [y|y] eqn:E; injection H as <- <-.
    + exists (zstep (OStart t a) z). split; [|now split]. eapply step_start; eauto.
    + exists (Zst (z_open z) (z_root z) (z_n z) (if seqb t (lit "pre") then true else z_pre z)). split; [|reflexivity].
      destruct I. constructor; auto. cbn. now rewrite inv_flag.
  - injection H as <- <-. eexists. split; [|split; reflexivity]. now apply step_end.
  - injection H as <- <-. eexists. split; [|split; reflexivity]. now apply step_data.
  - destruct e as [e|].
    + destruct (close_x_failed _ _ _ _ H) as (H1 & H2 & H3 & H4 & H5 & H6 & _). exists (zstep OClose z). split; auto.
      pose proof (inv_frames _ _ I) as F. pose proof (inv_pre _ _ I) as PR.
      destruct (frames_document (p_dom s) (z_open z) [] (z_root z)) as [D1 D2]; auto.
      constructor; cbn; rewrite ?H2, ?H3, ?H6; try apply I; auto.
      * rewrite app_nil_r. auto.
      * rewrite pre_plug. cbn. now rewrite app_nil_r.
    + unfold close_x in H. destruct (close g s) as [y|y] eqn:C; [|discriminate]. injection H as <-. exists (zstep OClose z). split; [|now split]. eapply step_close; eauto.
  - injection H as <- <-. exists (zstep OReset z). split; [|split; reflexivity]. constructor; cbn; auto. apply I.
Qed.
Lemma step_x_ok : forall g o s s', step g o s = Ok s' -> step_x g o s = (s', None).
Proof.
  intros g o s s' H. destruct o; cbn [step step_x] in *; try (injection H as <-; reflexivity).
  - unfold start_x. now rewrite H.
  - unfold close_x. now rewrite H.
Qed.
Lemma step_x_err : forall g o s e, step g o s = Err e -> exists s', step_x g o s = (s', Some e).
Proof.
  intros g o s e H. destruct o; cbn [step step_x] in *; try discriminate.
  - unfold start_x. rewrite H. eauto.
  - unfold close_x. rewrite H. eauto.
Qed.
Lemma step_x_pre : forall g o s s' e, step_x g o s = (s', e) -> p_in_pre s' = pre_step o (p_in_pre s).
Proof.
  intros g o s s' e H. destruct o as [t a|t|x| |]; cbn [step_x pre_step] in *.
  - unfold start_x in H. destruct (handle_starttag g t a s) as [y|y] eqn:E; injection H as <- <-; [|reflexivity].
    unfold handle_starttag in E. inv_bind E. destruct x as [[? ?] ?]. inv_bind E. inv_bind E. destruct x0 as [[? ?] ?]. apply ok_inj in E. subst y. reflexivity.
  - injection H as <- <-. unfold handle_endtag. destruct (is_void t) eqn:V; [destruct (seqb_spec t (lit "pre")); auto; subst; discriminate|].
    destruct (get_top s) as [i|]; [|reflexivity]. destruct (node_at (p_dom s) i) as [n|]; [|reflexivity]. destruct (n_tag n) as [t'|]; [|reflexivity]. destruct (seqb t' t); reflexivity.
  - injection H as <- <-. reflexivity.
  - destruct e as [e|]; [now destruct (close_x_failed _ _ _ _ H) as (_ & _ & _ & _ & _ & H6 & _)|]. unfold close_x in H. destruct (close g s) as [y|y] eqn:C; [|discriminate]. injection H as <-.
    unfold close in C. cbv zeta in C. inv_bind C. inv_bind C. inv_bind C. apply ok_inj in C. now subst y.
  - injection H as <- <-. reflexivity.
Qed.
Lemma run_x_cons : forall g o r s, run_x g (o :: r) s = (fst (run_x g r (fst (step_x g o s))), snd (step_x g o s) :: snd (run_x g r (fst (step_x g o s)))).
Proof. intros. cbn [run_x]. destruct (step_x g o s) as [s1 e]. cbn [fst snd]. now destruct (run_x g r s1). Qed.
Lemma run_x_pre : forall g h s, p_in_pre (fst (run_x g h s)) = fold_left (fun b o => pre_step o b) h (p_in_pre s).
Proof.
  induction h as [|o h IH]; intros s; [reflexivity|]. rewrite run_x_cons. cbn [fst fold_left]. rewrite IH. f_equal.
  apply (step_x_pre g o s _ (snd (step_x g o s))). now destruct (step_x g o s).
Qed.
Lemma run_x_app : forall g a b s, run_x g (a ++ b) s =
  (fst (run_x g b (fst (run_x g a s))), snd (run_x g a s) ++ snd (run_x g b (fst (run_x g a s)))).
Proof.
  induction a as [|o a IH]; intros b s; [cbn; now destruct (run_x g b s)|]. cbn [app]. rewrite !run_x_cons. cbn [fst snd]. rewrite IH. reflexivity.
Qed.

(** Skipping what was rejected. *)
Lemma failed_start_state : forall g t a s s' e, step_x g (OStart t a) s = (s', Some e) -> t <> lit "pre" -> s' = s.
Proof.
  intros g t a s s' e H N. cbn [step_x] in H. unfold start_x in H. destruct (handle_starttag g t a s); [discriminate|]. injection H as <- _.
  destruct (seqb_spec t (lit "pre")); [contradiction|]. apply pstate_eta.
Qed.
Lemma run_accepted : forall g ops s s' es, run_x g ops s = (s', es) ->
  Forall (fun o => match o with OStart t _ => t <> lit "pre" | _ => False end) (rejected ops es) ->
  run g (accepted ops es) s = Ok s'.
Proof.
  induction ops as [|o ops IH]; intros s s' es H F; [injection H as <- <-; reflexivity|]. rewrite run_x_cons in H. injection H as H1 H2. subst es. cbn [accepted rejected] in *.
  destruct (step_x g o s) as [s1 e] eqn:E. cbn [fst snd] in *. destruct e as [e|].
  - apply Forall_cons_iff in F. destruct F as [F0 F]. destruct o as [t a|t|x| |]; try contradiction. rewrite (failed_start_state _ _ _ _ _ _ E F0) in *. apply IH; auto. now destruct (run_x g ops s); cbn in *; subst.
  - cbn [run]. destruct o as [t a|t|x| |]; cbn [step step_x] in *.
    1: unfold start_x in E; destruct (handle_starttag g t a s); [|discriminate]; injection E as ->.
    4: unfold close_x in E; destruct (close g s); [|discriminate]; injection E as ->.
    2-3,5: injection E as ->.
    all: cbn [bind]; apply IH; auto; subst; now destruct (run_x g ops s1).
Qed.

(** ** Reset *)
Lemma reset_fresh : forall s, p_in_pre s = false -> reset s = pstate0.
Proof. intros s H. unfold reset. now rewrite H. Qed.

(** ** Calls *)
Lemma deliver_inv : forall g raw t p z h e, Inv p z -> deliver g raw t p = (h, e) -> exists z', Inv (h_p h) z'.
Proof.
  induction t as [cd r|x|o k IH]; intros p z h e I H; cbn [deliver] in H; try (injection H as <- _; eauto).
  destruct (step_x g o p) as [p' [e'|]] eqn:E; destruct (step_x_inv _ _ _ _ _ _ I E) as (z' & I' & _); [injection H as <- _; eauto|eauto].
Qed.
Lemma call_inv : forall g c h z h' e, Inv (h_p h) z -> do_call g c h = (h', e) -> exists z', Inv (h_p h') z'.
Proof.
  intros g c h z h' e I H. destruct c; cbn [do_call] in H.
  - unfold feed in H. eapply deliver_inv; eauto.
  - unfold finalise in H. destruct (deliver g (h_raw h) _ (h_p h)) as [h1 [e1|]] eqn:D; destruct (deliver_inv _ _ _ _ _ _ _ I D) as (z1 & I1); [injection H as <- _; eauto|].
    destruct (close_x g (h_p h1)) as [p e2] eqn:C. injection H as <- _. cbn [h_p]. destruct (step_x_inv g OClose _ _ _ _ I1 C) as (z2 & I2 & _). eauto.
  - injection H as <- _. cbn [h_p restart]. destruct (step_x_inv g OReset (h_p h) z (reset (h_p h)) None I eq_refl) as (z2 & I2 & _). eauto.
Qed.
Lemma calls_inv : forall g l h z h' es, Inv (h_p h) z -> do_calls g l h = (h', es) -> exists z', Inv (h_p h') z'.
Proof.
  induction l as [|c l IH]; intros h z h' es I H; cbn [do_calls] in H; [injection H as <- _; eauto|].
  destruct (do_call g c h) as [h1 e] eqn:C. destruct (do_calls g l h1) as [h2 es'] eqn:D. injection H as <- _.
  destruct (call_inv _ _ _ _ _ _ I C) as (z1 & I1). eauto.
Qed.
Lemma reachable_inv : forall g h, reachable g h -> exists z, Inv (h_p h) z.
Proof. intros g h (l & es & H). eapply calls_inv; eauto. apply Inv0. Qed.

(** ** The same text again *)
(** [t'] is [t] with anything after where [t] stops. *)
Fixpoint goes_on (t t' : trace) : Prop :=
  match t with
  | TStop _ _ => True
  | TErr e => t' = TErr e
  | TEv o k => exists k', t' = TEv o k' /\ goes_on k k'
  end.
Lemma goes_on_refl : forall t, goes_on t t.
Proof. induction t; cbn; eauto. Qed.
Lemma goes_on_emit : forall a k k', goes_on k k' -> goes_on (emit a k) (emit a k').
Proof. intros a k k' H. unfold emit. destruct (unescape a); cbn; eauto. Qed.
Lemma goes_on_all : forall l k k', goes_on k k' -> goes_on (emit_all l k) (emit_all l k').
Proof. induction l; cbn; eauto. Qed.
Lemma goes_on_finish : forall cd s t, goes_on (finish false cd s) t.
Proof. intros [c|] [|x s] t; cbn; auto. Qed.
Lemma tokens_goes_on : forall n s cd, (length s <= n)%nat -> goes_on (tokens false cd s) (tokens true cd s).
Proof.
  induction n as [|n IH]; intros s cd L.
  - destruct s; [|cbn in L; lia]. rewrite !tokens_eq. cbn. auto.
  - assert (M : forall r, (length r <= length s)%nat -> goes_on (at_markup false cd r) (at_markup true cd r)).
    { intros r LR. unfold at_markup. destruct r as [|c t]; [cbn; auto|]. destruct (parse_markup cd (c :: t)) as [m|] eqn:P; [|apply goes_on_finish].
      destruct m as [|evs cd' rest|e]; [cbn; auto| |apply goes_on_refl]. apply goes_on_all. apply markup_shorter in P. apply shorter_len in P. apply IH. lia. }
    rewrite !tokens_eq. destruct s as [|c t]; [cbn; auto|]. set (s := c :: t) in *. clearbody s. destruct cd as [e|].
    + destruct (cdata_text e s) as [[a r]|] eqn:C; [|apply goes_on_refl]. apply cdata_text_split in C.
      assert (G : goes_on (at_markup false (Some e) r) (at_markup true (Some e) r)) by (apply M; rewrite C, app_length; lia).
      destruct a; [exact G|]. cbn [goes_on]. eauto.
    + pose proof (suff_len _ _ (suff_drop not_lt s)) as LR. specialize (M (drop_while not_lt s) LR). destruct (drop_while not_lt s) as [|x r].
      * destruct (half_reference s); [apply goes_on_finish|apply goes_on_refl].
      * destruct (take_while not_lt s); [exact M|]. now apply goes_on_emit.
Qed.

Lemma zopen_prefix : forall o zA zB r, o <> OReset -> map f_tag (z_open zA) = map f_tag (z_open zB) ++ r ->
  exists r', map f_tag (z_open (zstep o zA)) = map f_tag (z_open (zstep o zB)) ++ r'.
Proof.
  assert (AL : forall t fs root fs' root', add_leaf t fs root = (fs', root') -> map f_tag fs' = map f_tag fs).
  { intros t [|f fs] root fs' root' H; cbn in H; injection H as <- _; reflexivity. }
  intros o zA zB r NR H. destruct o as [t a|t|x| |]; cbn [zstep].
  - destruct (void t).
    + destruct (add_leaf (Tag (z_n zA) t a []) (z_open zA) (z_root zA)) eqn:E1, (add_leaf (Tag (z_n zB) t a []) (z_open zB) (z_root zB)) eqn:E2. cbn.
      rewrite (AL _ _ _ _ _ E1), (AL _ _ _ _ _ E2). eauto.
    + cbn. rewrite H. eauto.
  - destruct (void t); [eauto|]. destruct (z_open zB) as [|fb rb].
    + cbn. exists (map f_tag (z_open (match z_open zA with
      | [] => Zst [] (z_root zA) (z_n zA) (if seqb t (lit "pre") then false else z_pre zA)
      | f :: r0 => if seqb (f_tag f) t then let '(fs, root) := add_leaf (f_close f []) r0 (z_root zA) in Zst fs root (z_n zA) (if seqb t (lit "pre") then false else z_pre zA)
        else Zst (z_open zA) (z_root zA) (z_n zA) (if seqb t (lit "pre") then false else z_pre zA) end))). destruct (z_open zA); reflexivity.
    + destruct (z_open zA) as [|fa ra]; [discriminate|]. cbn in H. injection H as H1 H2. rewrite <- H1. destruct (seqb (f_tag fa) t).
      * destruct (add_leaf (f_close fa []) ra (z_root zA)) eqn:E1, (add_leaf (f_close fb []) rb (z_root zB)) eqn:E2. cbn. rewrite (AL _ _ _ _ _ E1), (AL _ _ _ _ _ E2). eauto.
      * cbn. exists r. now rewrite H1, H2.
  - destruct (add_leaf (Text (z_n zA) _) (z_open zA) (z_root zA)) eqn:E1, (add_leaf (Text (z_n zB) _) (z_open zB) (z_root zB)) eqn:E2. cbn. rewrite (AL _ _ _ _ _ E1), (AL _ _ _ _ _ E2). eauto.
  - cbn. exists []. reflexivity.
  - congruence.
Qed.

(** Events of a trace. *)
Fixpoint only_tags (t : trace) : Prop :=
  match t with
  | TEv o k => match o with OStart _ _ | OEnd _ | OData _ => True | _ => False end /\ only_tags k
  | _ => True
  end.
Lemma only_emit : forall a k, only_tags k -> only_tags (emit a k).
Proof. intros. unfold emit. destruct (unescape a); cbn; auto. Qed.
Lemma markup_events : forall cd s evs cd' r, parse_markup cd s = Some (MGo evs cd' r) ->
  Forall (fun o => match o with OStart _ _ | OEnd _ | OData _ => True | _ => False end) evs.
Proof.
  intros cd s evs cd' r H. unfold parse_markup in H. destruct s as [|a [|c t]]; try discriminate.
  destruct (is_alpha_ascii c).
  { assert (H' : parse_starttag (a :: c :: t) = MGo evs cd' r) by (injection H as H; exact H). clear H. unfold parse_starttag in H'.
    destruct (whole_start_tag (c :: t)) as [stop|] eqn:W; [|discriminate].
    destruct (skip_misc _ _) as [p q]. destruct (read_attrs _ stop p q) as [[attrs k]|]; [|discriminate].
    destruct (seqb _ _); [injection H' as <- _ _; repeat constructor|]. destruct (seqb _ _); injection H' as <- _ _; repeat constructor. }
  destruct (c =? 47)%N.
  { assert (H' : parse_endtag cd t = MGo evs cd' r) by (injection H as H; exact H). clear H. unfold parse_endtag in H'.
    destruct (after_char 62 t) as [gt|] eqn:G; [|discriminate]. destruct (end_tag_name t) as [nm|].
    - destruct cd as [e|]; [destruct (seqb (lower nm) e)|]; injection H' as <- _ _; repeat constructor.
    - destruct cd as [e|]; [injection H' as <- _ _; repeat constructor|]. destruct t as [|x t']; [discriminate|].
      destruct (is_alpha_ascii x); [|injection H' as <- _ _; constructor]. match type of H' with context [match ?X with Some _ => _ | None => _ end] => destruct X end; injection H' as <- _ _; repeat constructor. }
  destruct (startswith (lit "<!--") (a :: c :: t)); [destruct (search _ _); [injection H as <- _ _; constructor|discriminate]|].
  destruct (c =? 63)%N; [destruct (after_char 62 t); [injection H as <- _ _; constructor|discriminate]|].
  destruct (c =? 33)%N; [|injection H as <- _ _; repeat constructor].
  assert (H' : parse_declaration (a :: c :: t) = MGo evs cd' r) by (injection H as H; exact H). clear H. unfold parse_declaration in H'.
  assert (Q : forall o, quiet o = MGo evs cd' r -> Forall (fun o => match o with OStart _ _ | OEnd _ | OData _ => True | _ => False end) evs) by (intros [y|] E; cbn in E; [injection E as <- _ _; constructor|discriminate]).
  destruct (startswith _ _); [|destruct (seqb _ _); eapply Q; eauto]. unfold parse_marked_section in H'.
  destruct (skipn 3 (a :: c :: t)) as [|x u']; [discriminate|]. destruct (is_alpha_ascii x); [|discriminate].
  destruct (drop_while is_space _); [discriminate|]. cbv zeta in H'. destruct (smem _ _); [eapply Q; eauto|]. destruct (smem _ _); [eapply Q; eauto|discriminate].
Qed.
Lemma only_all : forall l k, Forall (fun o => match o with OStart _ _ | OEnd _ | OData _ => True | _ => False end) l -> only_tags k -> only_tags (emit_all l k).
Proof. induction l; cbn; intros k F H; auto. inversion F; subst. split; auto. Qed.
Lemma only_finish : forall f cd s, only_tags (finish f cd s).
Proof. intros f [c|] [|x s]; cbn; auto. destruct f; cbn; auto. now apply only_emit. Qed.
Lemma tokens_only : forall n f s cd, (length s <= n)%nat -> only_tags (tokens f cd s).
Proof.
  induction n as [|n IH]; intros f s cd L.
  - destruct s; [|cbn in L; lia]. rewrite !tokens_eq. cbn. auto.
  - assert (M : forall r, (length r <= length s)%nat -> only_tags (at_markup f cd r)).
    { intros r LR. unfold at_markup. destruct r as [|c t]; [cbn; auto|]. destruct (parse_markup cd (c :: t)) as [m|] eqn:P; [|apply only_finish].
      destruct m as [|evs cd' rest|e]; [|apply only_all; [eapply markup_events; eauto|]; apply markup_shorter in P; apply shorter_len in P; apply IH; lia|exact I].
      destruct f; [|exact I]. destruct (unclosed_piece (c :: t)) as [a r0] eqn:Q. apply unclosed_shorter in Q; [|discriminate]. apply shorter_len in Q.
      destruct cd; [split; [exact I|]|apply only_emit]; apply IH; lia. }
    rewrite !tokens_eq. destruct s as [|c t]; [cbn; auto|]. set (s := c :: t) in *. clearbody s. destruct cd as [e|].
    + destruct (cdata_text e s) as [[a r]|] eqn:C; [|exact I]. apply cdata_text_split in C.
      assert (G : only_tags (at_markup f (Some e) r)) by (apply M; rewrite C, app_length; lia). destruct a; [exact G|]. split; [exact I|exact G].
    + pose proof (suff_len _ _ (suff_drop not_lt s)) as LR. specialize (M (drop_while not_lt s) LR). destruct (drop_while not_lt s) as [|x r].
      * destruct (half_reference s); [apply only_finish|now apply only_emit].
      * destruct (take_while not_lt s); [exact M|]. now apply only_emit.
Qed.

Lemma deliver_again : forall g raw raw' t t' pA zA pB zB h e, goes_on t t' -> only_tags t -> Inv pA zA -> Inv pB zB ->
  deliver g raw t pA = (h, Some e) ->
  (p_stack (h_p h) = [] -> exists r, map f_tag (z_open zA) = map f_tag (z_open zB) ++ r) ->
  exists h' e', deliver g raw' t' pB = (h', Some e').
Proof.
  intros g raw raw'. induction t as [cd r|x|o k IH]; intros t' pA zA pB zB h e G O IA IB D K; cbn [deliver goes_on only_tags] in *; [discriminate|subst t'; cbn [deliver]; eauto|].
  destruct G as (k' & -> & G). destruct O as [O1 O2]. cbn [deliver]. destruct (step_x g o pB) as [qB [eB|]] eqn:SB; [eauto|].
  destruct (step_x_inv _ _ _ _ _ _ IB SB) as (zB' & IB' & _ & ->).
  destruct (step_x g o pA) as [qA [eA|]] eqn:SA; destruct (step_x_inv _ _ _ _ _ _ IA SA) as (zA' & IA' & EA).
  - injection D as <- <-. destruct o as [t a|t|x| |]; try (cbn in SA; discriminate); try contradiction. exfalso. cbn [h_p] in K.
    rewrite (inv_stack _ _ IA'), EA in K. cbn [step_x] in SA, SB. unfold start_x in SA, SB.
    pose proof (start_fails g pA zA t a IA) as FA. pose proof (start_fails g pB zB t a IB) as FB.
    destruct (handle_starttag g t a pA) as [y|y]; [discriminate|]. destruct (handle_starttag g t a pB) as [y'|y'] eqn:HB; [|discriminate].
    destruct (start_error g (map f_tag (z_open zA)) t a) as [ea|] eqn:SE; [|destruct FA; discriminate].
    destruct (start_error g (map f_tag (z_open zB)) t a) as [eb|] eqn:SE'; [discriminate|].
    destruct (z_open zA) as [|f fs] eqn:ZA.
    + destruct (K eq_refl) as (r & R). destruct (z_open zB); [|discriminate]. cbn [map] in SE, SE'. congruence.
    + unfold start_error in SE, SE'. cbn [map] in SE. destruct (dlast (lit "class") a) as [[c|]|]; try congruence;
        (destruct (is_a t || is_img t)%bool; [|congruence]; destruct (parse_href _ _ _); [discriminate|congruence]).
  - destruct EA as [_ ->]. eapply IH; eauto. intros P. destruct (K P) as (r & R). eapply zopen_prefix; [|exact R]. destruct o; try discriminate; contradiction.
Qed.
Lemma failed_feed : forall g data h h' e, reachable g h -> h_cd h = None -> feed g data h = (h', Some e) ->
  exists h2 e2, finalise g h' = (h2, Some e2).
Proof.
  intros g data h h' e R CD F. destruct (reachable_inv _ _ R) as (z & I). unfold feed in F. rewrite CD in F.
  destruct (deliver_inv _ _ _ _ _ _ _ I F) as (z' & I').
  assert (H' : h_raw h' = h_raw h ++ data /\ h_cd h' = None).
  { revert F. generalize (tokens false None (h_raw h ++ data)) (h_p h). clear. induction t as [cd r|x|o k IH]; intros p F; cbn [deliver] in F; [discriminate|injection F as <- _; now split|].
    destruct (step_x g o p) as [p' [e'|]]; [injection F as <- _; now split|eauto]. }
  destruct H' as [H1 H2]. unfold finalise. rewrite H1, H2.
  destruct (deliver_again g (h_raw h ++ data) (h_raw h ++ data) _ (tokens true None (h_raw h ++ data)) _ _ _ _ _ _ (tokens_goes_on _ _ None (le_n _)) (tokens_only _ false _ None (le_n _)) I I' F) as (h2 & e2 & D).
  - intros S0. rewrite (inv_stack _ _ I') in S0. exists (map f_tag (z_open z)). destruct (z_open z'); [reflexivity|discriminate].
  - rewrite D. eauto.
Qed.
End X.

(** ** What feeding can raise *)
Section Raises.
Context `{U : Uni}.
Lemma charref_shorter : forall s v r, charref s = Some (v, r) -> (length r < S (length s))%nat /\ (v = Err EValue \/ exists x, v = Ok x).
Proof.
  intros s v r H. unfold charref in H. cbv zeta in H.
  assert (SM : forall x, (length (snd (semi x)) <= length x)%nat).
  { intros x. unfold semi. destruct x as [|c y]; [cbn; lia|]. destruct c as [|p]; [cbn; lia|]. repeat (destruct p as [p|p|]; try (cbn; lia)). }
  assert (NMD : forall v r, match take_upto 32 ref_char s with [] => None | n :: l => let '(sc, r) := semi (skipn (length (n :: l)) s) in Some (Ok (named_ref ((n :: l) ++ sc)), r) end = Some (v, r) ->
     (length r < S (length s))%nat /\ (v = Err EValue \/ exists x, v = Ok x)).
  { intros v' r' E. destruct (take_upto 32 ref_char s) as [|n l]; [discriminate|]. pose proof (SM (skipn (length (n :: l)) s)) as S1. pose proof (suff_len _ _ (suff_skipn (length (n :: l)) s)) as S2.
    destruct (semi (skipn (length (n :: l)) s)) as [sc r0]. cbn [snd] in S1. injection E as <- <-. split; [lia|eauto]. }
  assert (DEC : forall t v r, match take_while is_digit_ascii t with [] => match t with [] => None | x :: r' => if ((x =? 120) || (x =? 88))%N then match take_while is_hex r' with [] => None | ds => Some (Ok (charref_num (num_of 16 hex_digit ds)), snd (semi (drop_while is_hex r'))) end else None end
     | ds => Some (if (max_digits <? len ds)%Z then Err EValue else Ok (charref_num (num_of 10 dec_digit ds)), snd (semi (drop_while is_digit_ascii t))) end = Some (v, r) ->
     (length r <= length t)%nat /\ (v = Err EValue \/ exists x, v = Ok x)).
  { intros t v' r' E. destruct (take_while is_digit_ascii t) as [|d ds].
    - destruct t as [|x t']; [discriminate|]. destruct ((x =? 120) || (x =? 88))%N; [|discriminate]. destruct (take_while is_hex t'); [discriminate|].
      pose proof (SM (drop_while is_hex t')) as S1. pose proof (suff_len _ _ (suff_drop is_hex t')) as S2. injection E as <- <-. cbn [length]. split; [lia|eauto].
    - pose proof (SM (drop_while is_digit_ascii t)) as S1. pose proof (suff_len _ _ (suff_drop is_digit_ascii t)) as S2. 
      assert (E1 : (if (max_digits <? len (d :: ds))%Z then Err EValue else Ok (charref_num (num_of 10 dec_digit (d :: ds)))) = v') by congruence.
      assert (E2 : snd (semi (drop_while is_digit_ascii t)) = r') by congruence. subst v' r'. split; [lia|]. destruct (max_digits <? len (d :: ds))%Z; eauto. }
  destruct s as [|c t]; [apply (NMD _ _ H)|]. destruct c as [|p]; [apply (NMD _ _ H)|].
  repeat (destruct p as [p|p|]; try apply (NMD _ _ H)). destruct (DEC _ _ _ H) as [L V]. cbn [length]. split; [lia|exact V].
Qed.
Lemma unescape_go_raises : forall f s, (length s < f)%nat -> match unescape_go f s with Ok _ => True | Err e => e = EValue end.
Proof.
  induction f as [|f IH]; intros s L; [lia|]. destruct s as [|c r]; [exact I|]. cbn [length] in L. cbn [unescape_go].
  assert (R : match (let* y := unescape_go f r in Ok (c :: y)) with Ok _ => True | Err e => e = EValue end).
  { specialize (IH r ltac:(lia)). destruct (unescape_go f r); cbn [bind]; auto. }
  destruct (c =? 38)%N; [|exact R]. destruct (charref r) as [[v r']|] eqn:C; [|exact R]. apply charref_shorter in C. destruct C as [L' [->|(x & ->)]]; cbn [bind]; [reflexivity|].
  specialize (IH r' ltac:(lia)). destruct (unescape_go f r'); cbn [bind]; auto.
Qed.
Lemma unescape_raises : forall s, match unescape s with Ok _ => True | Err e => e = EValue end.
Proof. intros. apply unescape_go_raises. lia. Qed.
(** What the tokenizer raises: a reference of more than 4300 digits, or a marked
    section it does not know. *)
Fixpoint trace_raises (P : exn -> Prop) (t : trace) : Prop :=
  match t with TStop _ _ => True | TErr e => P e | TEv _ k => trace_raises P k end.
Definition tok_exn (e : exn) : Prop := e = EValue \/ e = EAssert.
Lemma raises_emit : forall a k, trace_raises tok_exn k -> trace_raises tok_exn (emit a k).
Proof. intros a k H. unfold emit. pose proof (unescape_raises a). destruct (unescape a); cbn; [auto|]. now left. Qed.
Lemma raises_all : forall l k, trace_raises tok_exn k -> trace_raises tok_exn (emit_all l k).
Proof. induction l; cbn; auto. Qed.
Lemma raises_finish : forall f cd s, trace_raises tok_exn (finish f cd s).
Proof. intros f [c|] [|x s]; cbn; auto. destruct f; cbn; auto. now apply raises_emit. Qed.
Lemma attr_val_raises : forall v, match attr_val v with Ok _ => True | Err e => e = EValue end.
Proof.
  intros [v|]; [|exact I]. unfold attr_val. cbv zeta.
  set (w := match v with [] => [] | q :: r => if (is_quote q && (last v 0 =? q))%N%bool then removelast r else v end). change (match v with [] => [] | q :: r => if (is_quote q && (last v 0 =? q)%N)%bool then removelast r else v end) with w. clearbody w. destruct w as [|x w']; [exact I|].
  pose proof (unescape_raises (x :: w')) as K. destruct (unescape (x :: w')); cbn [bind]; auto.
Qed.
Lemma read_attrs_raises : forall f stop p s, match read_attrs f stop p s with Ok _ => True | Err e => e = EValue end.
Proof.
  induction f as [|f IH]; intros stop p s; cbn [read_attrs]; auto. destruct (len s >? len stop)%Z; auto. destruct (attr_here p s) as [[[[nm v] p'] r]|]; auto.
  pose proof (attr_val_raises v) as K. destruct (attr_val v); cbn [bind]; auto. specialize (IH stop p' r). destruct (read_attrs f stop p' r) as [[l k]|]; cbn [bind]; auto.
Qed.
Lemma markup_raises : forall cd s e, parse_markup cd s = Some (MFail e) -> tok_exn e.
Proof.
  intros cd s e H. unfold parse_markup in H. destruct s as [|a [|c t]]; try discriminate.
  destruct (is_alpha_ascii c).
  { assert (H' : parse_starttag (a :: c :: t) = MFail e) by (injection H as H; exact H). clear H. unfold parse_starttag in H'.
    destruct (whole_start_tag (c :: t)) as [stop|]; [|discriminate]. destruct (skip_misc _ _) as [p q]. pose proof (read_attrs_raises (length (c :: t)) stop p q) as K.
    destruct (read_attrs _ stop p q) as [[attrs k]|x]; [|injection H' as <-; now left]. destruct (seqb _ _); [discriminate|]. destruct (seqb _ _); discriminate. }
  destruct (c =? 47)%N.
  { assert (H' : parse_endtag cd t = MFail e) by (injection H as H; exact H). clear H. unfold parse_endtag in H'.
    destruct (after_char 62 t) as [gt|] eqn:G; [|discriminate]. destruct (end_tag_name t) as [nm|].
    - destruct cd as [x|]; [destruct (seqb (lower nm) x)|]; discriminate.
    - destruct cd as [x|]; [discriminate|]. destruct t as [|x t']; [discriminate|].
      destruct (is_alpha_ascii x); [|discriminate]. match type of H' with context [match ?X with Some _ => _ | None => _ end] => destruct X end; discriminate. }
  destruct (startswith (lit "<!--") (a :: c :: t)); [destruct (search _ _); discriminate|].
  destruct (c =? 63)%N; [destruct (after_char 62 t); discriminate|].
  destruct (c =? 33)%N; [|discriminate].
  assert (H' : parse_declaration (a :: c :: t) = MFail e) by (injection H as H; exact H). clear H. unfold parse_declaration in H'.
  assert (Q : forall o, quiet o <> MFail e) by (intros [y|]; discriminate).
  destruct (startswith _ _); [|destruct (seqb _ _); elim (Q _ H')]. unfold parse_marked_section in H'.
  destruct (skipn 3 (a :: c :: t)) as [|x u']; [discriminate|]. destruct (is_alpha_ascii x); [|injection H' as <-; now right].
  destruct (drop_while is_space _); [discriminate|]. cbv zeta in H'. destruct (smem _ _); [elim (Q _ H')|]. destruct (smem _ _); [elim (Q _ H')|]. injection H' as <-. now right.
Qed.
Lemma tokens_raise : forall n f s cd, (length s <= n)%nat -> trace_raises tok_exn (tokens f cd s).
Proof.
  induction n as [|n IH]; intros f s cd L.
  - destruct s; [|cbn in L; lia]. rewrite !tokens_eq. cbn. auto.
  - assert (M : forall r, (length r <= length s)%nat -> trace_raises tok_exn (at_markup f cd r)).
    { intros r LR. unfold at_markup. destruct r as [|c t]; [cbn; auto|]. destruct (parse_markup cd (c :: t)) as [m|] eqn:P; [|apply raises_finish].
      destruct m as [|evs cd' rest|e]; [|apply raises_all; apply markup_shorter in P; apply shorter_len in P; apply IH; lia|exact (markup_raises _ _ _ P)].
      destruct f; [|exact I]. destruct (unclosed_piece (c :: t)) as [a r0] eqn:Q. apply unclosed_shorter in Q; [|discriminate]. apply shorter_len in Q.
      destruct cd; [|apply raises_emit]; cbn [trace_raises]; apply IH; lia. }
    rewrite !tokens_eq. destruct s as [|c t]; [cbn; auto|]. set (s := c :: t) in *. clearbody s. destruct cd as [e|].
    + destruct (cdata_text e s) as [[a r]|] eqn:C; [|exact I]. apply cdata_text_split in C.
      assert (G : trace_raises tok_exn (at_markup f (Some e) r)) by (apply M; rewrite C, app_length; lia). destruct a; exact G.
    + pose proof (suff_len _ _ (suff_drop not_lt s)) as LR. specialize (M (drop_while not_lt s) LR). destruct (drop_while not_lt s) as [|x r].
      * destruct (half_reference s); [apply raises_finish|now apply raises_emit].
      * destruct (take_while not_lt s); [exact M|]. now apply raises_emit.
Qed.
Lemma parse_href_raises : forall h a b, match parse_href h a b with Ok _ => True | Err e => e = EValue end.
Proof.
  intros [h|] a b; cbn [parse_href]; auto.
  assert (K : match urlparse h with Ok _ => True | Err e => e = EValue end).
  { unfold urlparse. cbv zeta. destruct (split_scheme _) as [sc u]. match goal with |- context [let '(_, _) := ?X in _] => destruct X as [[nl u'] hn] end.
    destruct (xorb _ _); auto. destruct (_ && _)%bool; auto. destruct (_ && _)%bool; auto. }
  destruct (urlparse h) as [p|e]; cbn [bind]; auto. destruct (_ || _)%bool; auto. destruct (seqb _ _).
  - assert (K' : match port (pu_netloc p) with Ok _ => True | Err e => e = EValue end).
    { unfold port. destruct (snd (hostinfo (pu_netloc p))) as [q|]; auto. destruct (digits_val 10 0 dec_digit q); auto. destruct (n <=? 65535)%N; auto. }
    destruct (port (pu_netloc p)); cbn [bind]; auto.
  - destruct (seqb _ _); auto.
Qed.
Lemma feed_raises : forall g data h h' e, reachable g h -> feed g data h = (h', Some e) -> e = EAttr \/ e = EValue \/ e = EAssert.
Proof.
  intros g data h h' e R F. destruct (reachable_inv _ _ R) as (z & I). unfold feed in F.
  pose proof (tokens_raise _ false (h_raw h ++ data) (h_cd h) (le_n _)) as T. pose proof (tokens_only _ false (h_raw h ++ data) (h_cd h) (le_n _)) as O.
  revert z I F T O. generalize (tokens false (h_cd h) (h_raw h ++ data)) (h_p h). induction t as [cd r|x|o k IH]; intros p z I F T O; cbn [deliver trace_raises only_tags] in *; [discriminate|injection F as _ ->; destruct T; auto|].
  destruct O as [O1 O2]. destruct (step_x g o p) as [p' [e'|]] eqn:S0; destruct (step_x_inv _ _ _ _ _ _ I S0) as (z' & I' & _); [|eauto].
  injection F as _ ->. destruct o as [t a|t|x| |]; try (cbn in S0; discriminate); try contradiction. cbn [step_x] in S0. unfold start_x in S0.
  pose proof (start_fails g p z t a I) as FA. destruct (handle_starttag g t a p) as [y|y]; [discriminate|]. injection S0 as _ ->.
  destruct (start_error g (map f_tag (z_open z)) t a) as [ea|] eqn:SE; [|destruct FA; discriminate]. assert (ea = e) by congruence. subst ea. unfold start_error in SE.
  destruct (dlast (lit "class") a) as [[c|]|]; [|injection SE as <-; auto|].
  all: destruct (is_a t || is_img t)%bool; [|discriminate]; pose proof (parse_href_raises (attr (if is_img t then "src" else "href") a) (g_host g) (g_port g)) as K; destruct (parse_href _ _ _); [|injection SE as <-; auto].
  all: destruct (map f_tag (z_open z)); [|discriminate]; destruct (seqb _ _); [injection SE as <-; auto|discriminate].
Qed.
End Raises.
