(** Reading events, errors while feeding, and the whole program. *)
From Verif Require Import WrapFacts WrapLoop WrapWidth.
From Verif Require Import BaseFacts StrFacts SelFacts TreeFacts HistoryFacts DomFacts LineFacts BoxFacts AnsiStyle CollapseFacts RenderFacts ElemFacts ElemText LinkFacts DocFacts.
From Verif Require Export PageMain.
Open Scope Z_scope.

Section R.
Context `{U : Uni}.

(** ** The tree *)
Lemma add_at_app : forall k x hole root, k = 0%nat \/ hole <> [] -> add_at k x (root ++ hole) = root ++ add_at k x hole.
Proof.
  intros [|k] x hole root H; cbn [add_at]; [now rewrite app_assoc|]. destruct H as [H|H]; [discriminate|].
  rewrite rev_app_distr. destruct (rev hole) as [|y r] eqn:E.
  - elim H. rewrite <- (rev_involutive hole), E. reflexivity.
  - cbn [app]. destruct y as [i t a kids|i s]; [|reflexivity]. rewrite rev_app_distr, rev_involutive, <- app_assoc. reflexivity.
Qed.
Lemma add_at_plug : forall fs k x hole root, k = 0%nat \/ hole <> [] ->
  add_at (length fs + k) x (plug fs hole root) = plug fs (add_at k x hole) root.
Proof.
  induction fs as [|f fs IH]; intros k x hole root H; cbn [length plug Nat.add]; [now apply add_at_app|].
  rewrite <- Nat.add_succ_r, IH by (right; discriminate). f_equal. unfold f_close. cbn [add_at rev app]. now rewrite (add_at_app k x hole (f_kids f) H).
Qed.
Lemma add_here : forall fs x root, add_at (length fs) x (plug fs [] root) = plug fs [x] root.
Proof. intros fs x root. rewrite <- (Nat.add_0_r (length fs)), add_at_plug by auto. reflexivity. Qed.
Lemma zstep_forest : forall o before,
  forest (zstep o (zrun before z0)) =
  match o with
  | OStart t a => add_at (length (open_after before)) (Tag (length (items before)) t a []) (forest (zrun before z0))
  | OData s => add_at (length (open_after before)) (Text (length (items before)) (if inside_pre before then s else normalise s)) (forest (zrun before z0))
  | OEnd _ | OClose => forest (zrun before z0)
  | OReset => []
  end.
Proof.
  intros o before. rewrite open_after_z, map_length.
  assert (CN : length (items before) = z_n (zrun before z0)) by now apply items_count.
  assert (PR : inside_pre before = z_pre (zrun before z0)) by now rewrite pre_zrun.
  rewrite CN, PR. set (z := zrun before z0). clearbody z. unfold forest. destruct o as [t a|t|x| |]; cbn [zstep].
  - destruct (void t).
    + destruct (add_leaf (Tag (z_n z) t a []) (z_open z) (z_root z)) as [fs root] eqn:E. cbn [z_open z_root].
      rewrite (plug_add_leaf _ _ _ _ _ E). symmetry. apply add_here.
    + cbn [z_open z_root plug]. unfold f_close. cbn [f_id f_tag f_attrs f_kids app]. symmetry. apply add_here.
  - destruct (void t); [reflexivity|]. destruct (z_open z) as [|f r] eqn:EO; [reflexivity|].
    destruct (seqb (f_tag f) t).
    + destruct (add_leaf (f_close f []) r (z_root z)) as [fs root] eqn:E. cbn [z_open z_root].
      rewrite (plug_add_leaf _ _ _ _ _ E). reflexivity.
    + cbn [z_open z_root]. reflexivity.
  - destruct (add_leaf (Text (z_n z) (data_text (z_pre z) x)) (z_open z) (z_root z)) as [fs root] eqn:E. cbn [z_open z_root].
    rewrite (plug_add_leaf _ _ _ _ _ E). unfold data_text. rewrite collapse_nrm. symmetry. apply add_here.
  - cbn [z_open z_root plug]. apply app_nil_r.
  - reflexivity.
Qed.
Lemma zrun_snoc : forall h o z, zrun (h ++ [o]) z = zstep o (zrun h z).
Proof. intros. unfold zrun. now rewrite fold_left_app. Qed.
Lemma read_forest : forall h before, read_from before (forest (zrun before z0)) h = forest (zrun (before ++ h) z0).
Proof.
  induction h as [|o h IH]; intros before; cbn [read_from]; [now rewrite app_nil_r|]. cbv zeta.
  rewrite <- zstep_forest, <- zrun_snoc, IH, <- app_assoc. reflexivity.
Qed.
Lemma tree_of_forest : forall h, tree_of h = forest (zrun h z0).
Proof. intros h. exact (read_forest h []). Qed.
Lemma tree_of_document : forall g h s, run g h pstate0 = Ok s ->
  document (p_dom s) (tree_of h) /\ flat_map preorder (tree_of h) = seq 0 (length (d_nodes (p_dom s))).
Proof. intros g h s H. rewrite tree_of_forest. apply Inv_document. eapply reach; eauto. Qed.

(** ** Errors while feeding *)
Lemma start_outcome : forall g before s t a, run g before pstate0 = Ok s ->
  match start_error g (open_after before) t a with
  | Some e => handle_starttag g t a s = Err e
  | None => exists s', handle_starttag g t a s = Ok s'
  end.
Proof.
  intros g before s t a H. unfold start_error, handle_starttag. rewrite (reach_top _ _ _ H), open_after_opens.
  unfold tag_attrs. rewrite !dget_dict_of. cbn [dget].
  destruct (dlast (lit "class") a) as [[c|]|]; cbn [bind]; [| reflexivity|].
  all: change (is_a t || is_img t)%bool with (is_link t); destruct (is_link t); cbn [bind]; [|eexists; reflexivity].
  all: unfold make_link; rewrite !attr_str_attr; cbv zeta; change (seqb t (lit "img")) with (is_img t).
  all: replace (if is_img t then attr "src" a else attr "href" a) with (attr (if is_img t then "src" else "href") a) by (destruct (is_img t); reflexivity).
  all: destruct (parse_href _ _ _) as [gl|e]; cbn [bind]; [|reflexivity].
  all: change (placement_of g t) with (placement g t).
  all: destruct (seqb_spec (placement g t) (lit "footer")) as [EF|EF]; [rewrite EF; change (seqb (lit "footer") (lit "after_block")) with false; cbv iota; cbn [bind]; destruct (map snd (opens before)); eexists; reflexivity|].
  all: destruct (opens before) as [|[j x] r]; cbn [map]; destruct (seqb (placement g t) (lit "after_block")); cbn [bind]; try (eexists; reflexivity); reflexivity.
Qed.
Lemma feed_outcome : forall g h before s, run g before pstate0 = Ok s -> ~ In OClose h ->
  match feed_error_from g before h with
  | Some e => run g h s = Err e
  | None => exists s', run g h s = Ok s'
  end.
Proof.
  intros g. induction h as [|o h IH]; intros before s H NC; cbn [feed_error_from run]; [eauto|].
  assert (NC' : ~ In OClose h) by (intros I; apply NC; now right).
  assert (G : forall s1, step g o s = Ok s1 ->
     match feed_error_from g (before ++ [o]) h with Some e => bind (step g o s) (run g h) = Err e | None => exists s', bind (step g o s) (run g h) = Ok s' end).
  { intros s1 E. rewrite E. cbn [bind]. apply IH; auto. rewrite run_app, H. cbn [bind run]. rewrite E. reflexivity. }
  destruct o as [t a|t|x| |]; cbn [step] in *.
  - pose proof (start_outcome g before s t a H) as X. destruct (start_error g (open_after before) t a) as [e|].
    + rewrite X. reflexivity.
    + destruct X as (s1 & X). apply (G s1 X).
  - apply (G _ eq_refl).
  - apply (G _ eq_refl).
  - elim NC. now left.
  - apply (G _ eq_refl).
Qed.

(** ** The whole program *)
Lemma whole : forall o g h, o_renderers o = [] -> o_ext o = [] -> construct o = Ok g -> ~ In OClose h ->
  render_doc o h = match feed_error g h with Some e => Err e | None => page g (tree_of h) end.
Proof.
  intros o g h O1 O2 CN NC. unfold render_doc. rewrite CN. cbn [bind]. rewrite run_app.
  pose proof (feed_outcome g h [] pstate0 eq_refl NC) as X. fold (feed_error g h) in X.
  destruct (feed_error g h) as [e|]; [rewrite X; reflexivity|]. destruct X as (s & X). rewrite X. cbn [bind run step].
  destruct (tree_of_document _ _ _ X) as [D P]. rewrite <- (close_page o g h s _ O1 O2 CN X NC D P). destruct (close g s); reflexivity.
Qed.

(** ** Well-formed documents *)
Lemma html_ind3 (P : html -> Prop) :
  (forall t a kids, Forall P kids -> P (HTag t a kids)) -> (forall s, P (HText s)) -> forall h, P h.
Proof.
  intros HT HX. fix IH 1. intros [t a kids|x]; [|apply HX]. apply HT. induction kids; constructor; auto.
Qed.
Lemma seq_prefix : forall a b n m, a ++ b = seq n m -> a = seq n (length a) /\ b = seq (n + length a) (length b).
Proof.
  induction a as [|x a IH]; intros b n m H; cbn [app length] in *.
  - rewrite Nat.add_0_r. split; [reflexivity|]. rewrite H. now rewrite seq_length.
  - destruct m as [|m]; [discriminate|]. cbn [seq] in *. injection H as -> H. apply IH in H as [H1 H2]. split; [now f_equal|].
    rewrite H2 at 1. f_equal. lia.
Qed.
Lemma plant_Tag : forall b n t a kids, plant b n (HTag t a kids)
  = let '(ts, m) := plant_all (b || seqb t (lit "pre")) (S n) kids in (Tag n t a ts, m).
Proof.
  intros. cbn [plant]. 
  assert (E : forall l n0, (fix go (n : nat) (l : list html) {struct l} : list tree * nat :=
        match l with
        | [] => ([], n)
        | k :: r => let '(x, n1) := plant (b || seqb t (lit "pre")) n k in
                    let '(xs, n2) := go n1 r in (x :: xs, n2)
        end) n0 l = plant_all (b || seqb t (lit "pre")) n0 l).
  { induction l as [|k l IH]; intros n0; [reflexivity|]. cbn [plant_all]. destruct (plant _ n0 k) as [x n1]. rewrite IH. reflexivity. }
  rewrite E. reflexivity.
Qed.
Lemma plant_denotes : forall h b t n, denotes b h t -> preorder t = seq n (length (preorder t)) ->
  plant b n h = (t, (n + length (preorder t))%nat).
Proof.
  induction h as [tg a kids IH|x] using html_ind3; intros b t n D P; inversion D; subst.
  - rewrite plant_Tag. cbn [preorder length seq] in P. injection P as -> P. cbn [preorder length].
    match goal with X : Forall2 _ kids ?l |- _ => rename l into ts; rename X into K end.
    assert (G : forall m, flat_map preorder ts = seq m (length (flat_map preorder ts)) ->
      plant_all (b || seqb tg (lit "pre")) m kids = (ts, (m + length (flat_map preorder ts))%nat)).
    { clear D P. revert ts K. induction IH as [|k kids E _ IH2]; intros ts K m P; inversion K; subst; cbn [plant_all flat_map length].
      - now rewrite Nat.add_0_r.
      - cbn [flat_map] in P. apply seq_prefix in P as [P1 P2]. rewrite (E _ _ _ H1 P1), (IH2 _ H3 _ P2), app_length, Nat.add_assoc. reflexivity. }
    rewrite G by exact P. f_equal. lia.
  - cbn [preorder length seq] in P. injection P as ->. cbn [plant preorder length]. f_equal. lia.
Qed.
Lemma plant_all_denotes : forall doc F b n, Forall2 (denotes b) doc F -> flat_map preorder F = seq n (length (flat_map preorder F)) ->
  fst (plant_all b n doc) = F.
Proof.
  intros doc F b n K. revert n. induction K as [|k t doc F D K IH]; intros n P; [reflexivity|]. cbn [flat_map] in P. apply seq_prefix in P as [P1 P2].
  cbn [plant_all]. rewrite (plant_denotes _ _ _ _ D P1). specialize (IH _ P2). destruct (plant_all b (n + length (preorder t)) doc) as [xs n2]. cbn [fst] in *. now rewrite IH.
Qed.
Lemma events_no_close : forall doc, ~ In OClose (flat_map events doc).
Proof.
  assert (G : forall h, ~ In OClose (events h)).
  { induction h as [t a kids IH|x] using html_ind3; cbn [events].
    - intros [I|I]; [discriminate|]. apply in_app_or in I as [I|I]; [|destruct (void t); cbn in I; intuition discriminate].
      apply in_flat_map in I as (k & I1 & I2). eapply Forall_forall in IH; [|exact I1]. exact (IH I2).
    - intros [I|[]]. discriminate. }
  intros doc I. apply in_flat_map in I as (k & _ & I). exact (G k I).
Qed.
Lemma zpre : forall h, pre_fs (z_open (zrun h z0)) (z_root (zrun h z0)) = seq 0 (z_n (zrun h z0)).
Proof.
  induction h as [|o h IH] using rev_ind; [reflexivity|]. rewrite zrun_snoc. set (z := zrun h z0) in *. clearbody z.
  destruct o as [t a|t|x| |]; cbn [zstep].
  - destruct (void t).
    + destruct (add_leaf (Tag (z_n z) t a []) (z_open z) (z_root z)) as [fs root] eqn:E. cbn [z_open z_root z_n].
      rewrite (pre_add_leaf _ _ _ _ _ E), IH. cbn [preorder flat_map]. now rewrite <- seq_snoc.
    + cbn [z_open z_root z_n pre_fs f_id f_kids flat_map]. rewrite IH. now rewrite <- seq_snoc.
  - destruct (void t); [exact IH|]. destruct (z_open z) as [|f r] eqn:EO; [exact IH|].
    destruct (seqb (f_tag f) t); [|exact IH].
    destruct (add_leaf (f_close f []) r (z_root z)) as [fs root] eqn:E. cbn [z_open z_root z_n].
    rewrite (pre_add_leaf _ _ _ _ _ E), <- IH. unfold f_close. cbn [pre_fs preorder]. now rewrite app_nil_r.
  - destruct (add_leaf (Text (z_n z) (data_text (z_pre z) x)) (z_open z) (z_root z)) as [fs root] eqn:E. cbn [z_open z_root z_n].
    rewrite (pre_add_leaf _ _ _ _ _ E), IH. cbn [preorder]. now rewrite <- seq_snoc.
  - cbn [z_open z_root z_n pre_fs]. rewrite pre_plug, IH. apply app_nil_r.
  - reflexivity.
Qed.
Lemma forest_of_tree : forall doc, Forall (wf_html false) doc -> tree_of (flat_map events doc) = forest_of doc.
Proof.
  intros doc W. rewrite tree_of_forest. pose proof (zpre (flat_map events doc)) as P.
  destruct (events_list false doc) with (z := z0) as (ts & k & D & E); auto.
  { apply Forall_forall. intros h _ z. apply events_one. }
  rewrite E in *. unfold add_trees, forest, forest_of in *. cbn [z_open z_root z_n z0 plug app pre_fs Nat.add] in *. rewrite app_nil_r.
  symmetry. apply plant_all_denotes; auto. rewrite P at 1. now rewrite P, seq_length.
Qed.
End R.
Close Scope Z_scope.
