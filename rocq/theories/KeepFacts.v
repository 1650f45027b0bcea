(** Proofs that no text is lost. *)
From Verif Require Import WrapFacts WrapLoop WrapWidth WrapProps.
From Verif Require Import BaseFacts StrFacts SelFacts TreeFacts HistoryFacts DomFacts LineFacts BoxFacts AnsiStyle CollapseFacts RenderFacts ElemFacts ElemText LinkFacts DocFacts.
From Verif Require Export KeepSpec PageRead PageRoom.
Open Scope Z_scope.

Section R.
Context `{U : Uni}.
Lemma scattered_refl : forall {A} (a : list A), scattered a a.
Proof. induction a; constructor; auto. Qed.
Lemma scattered_nil_l : forall {A} (b : list A), scattered [] b.
Proof. induction b; constructor; auto. Qed.
Lemma scattered_trans : forall {A} (b c : list A), scattered b c -> forall a, scattered a b -> scattered a c.
Proof.
  intros A b c H. induction H as [|x b c H IH|x b c H IH]; intros a W.
  - exact W.
  - inversion W; subst; [constructor|apply scattered_skip]; auto.
  - apply scattered_skip; auto.
Qed.
Lemma scattered_app : forall {A} (a b c d : list A), scattered a c -> scattered b d -> scattered (a ++ b) (c ++ d).
Proof. intros A a b c d H. induction H; intros W; cbn [app]; try constructor; auto. Qed.
(** [kept a b]: the visible characters of [a] are in [b]. *)
Definition kept (a b : str) : Prop := scattered (nonspace a) (nonspace b).
Lemma kept_refl : forall a, kept a a.
Proof. intros. apply scattered_refl. Qed.
Lemma kept_eq : forall a b, nonspace a = nonspace b -> kept a b.
Proof. intros a b E. unfold kept. rewrite E. apply scattered_refl. Qed.
Lemma kept_trans : forall a b c, kept a b -> kept b c -> kept a c.
Proof. unfold kept. intros a b c H1 H2. eapply scattered_trans; eauto. Qed.
Lemma kept_nil : forall a, kept [] a.
Proof. intros. apply scattered_nil_l. Qed.
Lemma kept_app : forall a b c d, kept a c -> kept b d -> kept (a ++ b) (c ++ d).
Proof. unfold kept. intros. rewrite !nonspace_app. now apply scattered_app. Qed.
Lemma kept_l : forall a b x, kept a b -> kept a (x ++ b).
Proof. intros. apply (kept_app [] a x b); auto. apply kept_nil. Qed.
Lemma kept_r : forall a b x, kept a b -> kept a (b ++ x).
Proof. intros. rewrite <- (app_nil_r a). apply kept_app; auto. apply kept_nil. Qed.
Lemma kept_scattered : forall a b, kept a b -> scattered (nonspace a) b.
Proof.
  intros a b H. eapply scattered_trans; [|exact H]. clear. induction b as [|c b IH]; [constructor|].
  destruct (is_space c) eqn:E; [rewrite nonspace_cons_space by auto|rewrite nonspace_cons_other by auto]; constructor; auto.
Qed.
Lemma nonspace_all_space : forall s, all_space s = true -> nonspace s = [].
Proof.
  induction s as [|c s IH]; [reflexivity|]. unfold all_space. cbn [forallb]. intros H. apply andb_prop in H as [H1 H2]. rewrite nonspace_cons_space by auto. now apply IH.
Qed.
Lemma nonspace_newlines : forall n, nonspace (newlines n) = [].
Proof.
  intros. apply nonspace_all_space. unfold newlines, all_space. apply forallb_forall. intros c I. apply repeat_spec in I. subst. reflexivity.
Qed.
Lemma nonspace_concat : forall l, nonspace (concat l) = concat (map nonspace l).
Proof. induction l as [|x l IH]; [reflexivity|]. cbn [concat map]. now rewrite nonspace_app, IH. Qed.
Lemma kept_join : forall ls, kept (concat ls) (join nl ls).
Proof.
  induction ls as [|x ls IH]; [apply kept_refl|]. destruct ls as [|y r]; [cbn [concat]; rewrite app_nil_r; apply kept_refl|].
  change (join nl (x :: y :: r)) with (x ++ nl ++ join nl (y :: r)). cbn [concat] in *. apply kept_app; [apply kept_refl|]. now apply kept_l.
Qed.
Lemma kept_concat : forall (f : str -> str), (forall x, kept x (f x)) -> forall ls, kept (concat ls) (concat (map f ls)).
Proof. intros f H ls. induction ls; cbn [concat map]; [apply kept_refl|]. now apply kept_app. Qed.
Lemma kept_rows : forall n ls, kept (concat ls) (rows n ls).
Proof.
  intros. unfold rows. eapply kept_trans; [|apply kept_join]. apply kept_concat. intros x. unfold pad. apply kept_r, kept_refl.
Qed.
Lemma kept_split : forall s, kept s (concat (split_on 10%N s)).
Proof.
  intros s. apply kept_eq. induction s as [|c s IH]; [reflexivity|]. cbn [split_on]. destruct (N.eqb_spec c 10) as [->|NE].
  - rewrite nonspace_cons_space by reflexivity. cbn [concat app]. exact IH.
  - destruct (split_on 10%N s) as [|x r] eqn:ES; [now elim (split_on_not_nil 10%N s)|]. cbn [concat] in *.
    change ((c :: x) ++ concat r) with ([c] ++ (x ++ concat r)). change (c :: s) with ([c] ++ s). rewrite (nonspace_app [c] s), (nonspace_app [c]), IH. reflexivity.
Qed.
Lemma linebreak_space : forall c, is_linebreak c = true -> is_space c = true.
Proof. intros c. unfold is_linebreak, is_space. rewrite !orb_true_iff, !andb_true_iff, !N.leb_le, !N.eqb_eq. lia. Qed.
Lemma nonspace_splitlines : forall b s, nonspace (concat (splitlines b s)) = nonspace s.
Proof.
  intros b. assert (G : forall n s, (length s <= n)%nat -> nonspace (concat (splitlines b s)) = nonspace s).
  { induction n as [|n IH]; intros s L; [destruct s; [reflexivity|cbn in L; lia]|].
    destruct s as [|c r]; [reflexivity|]. cbn [length] in L.
    assert (KC : forall c : N, is_linebreak c = true -> nonspace (if b then [c] else []) = []).
    { intros x E. destruct b; [|reflexivity]. rewrite nonspace_cons_space by now apply linebreak_space. reflexivity. }
    cbn [splitlines]. destruct r as [|d r'].
    - destruct (is_linebreak c) eqn:E.
      + cbn [concat]. rewrite app_nil_r, KC by auto. rewrite nonspace_cons_space by now apply linebreak_space. reflexivity.
      + reflexivity.
    - destruct ((c =? 13)%N && (d =? 10)%N)%bool eqn:E1.
      + apply andb_prop in E1 as [E1 E2]. apply N.eqb_eq in E1, E2. subst. cbn [concat]. rewrite nonspace_app, IH by (cbn [length] in L; lia).
        rewrite (nonspace_cons_space 13), (nonspace_cons_space 10) by reflexivity. destruct b; reflexivity.
      + destruct (is_linebreak c) eqn:E.
        * cbn [concat]. rewrite nonspace_app, IH, KC by (auto; lia). rewrite (nonspace_cons_space c) by now apply linebreak_space. reflexivity.
        * specialize (IH (d :: r') ltac:(lia)). destruct (splitlines b (d :: r')) as [|l ls]; cbn [concat] in *.
          -- rewrite app_nil_r. change (c :: d :: r') with ([c] ++ d :: r'). rewrite nonspace_app, <- IH. cbn. now rewrite app_nil_r.
          -- change ((c :: l) ++ concat ls) with ([c] ++ (l ++ concat ls)). rewrite nonspace_app, IH. symmetry. apply (nonspace_app [c] (d :: r')). }
  intros s. exact (G (length s) s (Nat.le_refl _)).
Qed.
Lemma kept_splitlines : forall b s, kept s (concat (splitlines b s)).
Proof. intros. apply kept_eq. now rewrite nonspace_splitlines. Qed.
Lemma kept_stack : forall w a ls b, kept (concat ls) (stack w a ls b).
Proof. intros. unfold stack. apply kept_l, kept_r, kept_rows. Qed.
Lemma kept_some_line : forall ls, kept (concat ls) (concat (some_line ls)).
Proof. intros [|x r]; apply kept_refl. Qed.
Lemma wrap_kept : forall n s ls, wrap_to n s = Ok ls -> kept s (concat ls).
Proof.
  intros n s ls H. apply kept_eq. symmetry. unfold wrap_to in H. eapply C22_lossless; [| | |exact H]; reflexivity.
Qed.
Lemma strip_kept : forall s, kept s (strip s).
Proof. intros. apply kept_eq. unfold strip. now rewrite nonspace_rstrip, nonspace_lstrip. Qed.
Lemma paragraph_kept : forall w c ls, paragraph w c = Ok ls -> kept c (concat ls).
Proof.
  intros w c ls H. unfold paragraph in H. inv_bind H. apply ok_inj in H. subst ls.
  eapply kept_trans; [apply kept_split|]. revert x E. generalize (split_on 10%N c). induction l as [|y l IH]; intros x E; cbn [mapM] in E.
  - apply ok_inj in E. subst. apply kept_refl.
  - inv_bind E. inv_bind E. apply ok_inj in E. subst. cbn [map concat]. rewrite concat_app. apply kept_app; [|eauto].
    eapply kept_trans; [apply strip_kept|]. eapply kept_trans; [eapply wrap_kept; eassumption|]. apply kept_some_line.
Qed.
Lemma labelled_kept : forall label ls, kept (concat ls) (concat (labelled label ls)).
Proof.
  intros label [|l r]; cbn [labelled concat]; [apply kept_nil|]. rewrite <- app_assoc. apply kept_l. apply kept_app; [apply kept_refl|].
  apply kept_concat. intros x. apply kept_l, kept_refl.
Qed.
(** The text of a tree. *)
Fixpoint text_of (t : tree) : str :=
  match t with
  | Text _ s => s
  | Tag _ _ _ kids => flat_map text_of kids
  end.
Variables (g : cfg) (number : nat -> Z).
Lemma texts_kept : forall (P : tree -> Prop) kids, Forall P kids ->
  (forall t, P t -> forall p w x, show g number false t p w = Ok x -> kept (text_of t) x) ->
  forall ps w x, length ps = length kids -> in_order (at_positions (map (show g number false) kids) ps w) = Ok x -> kept (flat_map text_of kids) x.
Proof.
  intros P kids H HP. induction H as [|t kids H _ IH]; intros [|p ps] w x L E; cbn in L; try discriminate; cbn [map at_positions in_order flat_map] in *.
  - apply ok_inj in E. subst. apply kept_refl.
  - inv_bind E. inv_bind E. apply ok_inj in E. subst. apply kept_app; eauto.
Qed.
Lemma show_kept : forall t, leafy t -> forall p w x, show g number false t p w = Ok x -> kept (text_of t) x.
Proof.
  induction t as [i tg a kids IH|i y] using tree_ind2; intros LF p w x H; [|cbn [show] in H; apply ok_inj in H; subst; apply kept_refl].
  apply leafy_Tag in LF as [LV LK]. cbn [show] in H. cbn [text_of].
  set (ps := positions (tg :: ps_up p) kids) in *. assert (LP : length ps = length kids) by apply positions_length. clearbody ps.
  assert (TX : forall w x, in_order (at_positions (map (show g number false) kids) ps w) = Ok x -> kept (flat_map text_of kids) x).
  { clear H x w. intros w x E. eapply (texts_kept (fun t => leafy t /\ (leafy t -> forall p w x, show g number false t p w = Ok x -> kept (text_of t) x))); [| |exact LP|exact E].
    - apply Forall_forall. intros k I. split; [eapply Forall_forall in LK; eauto|eapply Forall_forall in IH; eauto].
    - intros t [T1 T2]. exact (T2 T1). }
  set (texts := fun w => in_order (at_positions (map (show g number false) kids) ps w)) in *.
  set (content := fun w => let* x := texts w in
    let* y := in_order (at_positions (map (fun k => if put g "after_block" k then show g number true k else fun _ _ => Ok []) kids) ps w) in
    Ok (x ++ (if existsb (put g "after_block") kids then nl else []) ++ y)) in *.
  assert (CT : forall w x, content w = Ok x -> kept (flat_map text_of kids) x).
  { clear H x w. intros w x E. unfold content in E. inv_bind E. inv_bind E. apply ok_inj in E. subst x. apply kept_r. eapply TX. eassumption. }
  change (forall w x, texts w = Ok x -> kept (flat_map text_of kids) x) in TX. 
  change (show_element g number i tg a kids p w texts content = Ok x) in H. clearbody content texts.
  unfold show_element in H.
  destruct (lookup tg markers) as [m|] eqn:E1; [inv_bind H; apply ok_inj in H; subst x; apply kept_l, kept_r; eauto|].
  destruct (lookup tg headings) as [k|] eqn:E2.
  { inv_bind H. apply ok_inj in H. subst x. eapply kept_trans; [|apply kept_stack]. eapply kept_trans; [|apply kept_split]. apply kept_l, kept_l, kept_r. eauto. }
  destruct (lookup tg plain_blocks) as [m|] eqn:E3.
  { inv_bind H. apply ok_inj in H. subst x. eapply kept_trans; [|apply kept_stack]. eapply kept_trans; [|apply kept_split]. eauto. }
  destruct (seqb tg (lit "p")) eqn:E4.
  { inv_bind H. inv_bind H. apply ok_inj in H. subst x. eapply kept_trans; [|apply kept_stack]. eapply kept_trans; [eapply CT; eassumption|].
    destruct (only_code kids); [|eapply paragraph_kept; eassumption].
    match goal with X : Ok _ = Ok _ |- _ => apply ok_inj in X; subst end. apply kept_split. }
  destruct (seqb tg (lit "blockquote")) eqn:E5.
  { inv_bind H. apply ok_inj in H. subst x. eapply kept_trans; [|apply kept_stack]. eapply kept_trans; [|apply kept_some_line].
    eapply kept_trans; [|apply kept_concat; intros; apply kept_l, kept_refl]. eapply kept_trans; [|apply kept_splitlines]. eauto. }
  destruct (seqb tg (lit "pre")) eqn:E6.
  { inv_bind H. apply ok_inj in H. subst x. eapply kept_trans; [|apply kept_stack]. eapply kept_trans; [|apply kept_some_line].
    eapply kept_trans; [|apply kept_concat; intros; apply kept_l, kept_refl]. eapply kept_trans; [|apply kept_splitlines]. eauto. }
  destruct (seqb tg (lit "li")) eqn:E7.
  { inv_bind H. inv_bind H. apply ok_inj in H. subst x. eapply kept_trans; [|apply kept_stack]. eapply kept_trans; [|apply labelled_kept].
    eapply kept_trans; [eapply CT; eassumption|]. eapply wrap_kept; eassumption. }
  destruct (seqb tg (lit "dd")) eqn:E8.
  { inv_bind H. inv_bind H. apply ok_inj in H. subst x. eapply kept_trans; [|apply kept_stack]. eapply kept_trans; [|apply labelled_kept].
    eapply kept_trans; [eapply CT; eassumption|]. eapply wrap_kept; eassumption. }
  destruct (seqb tg (lit "dt")).
  { inv_bind H. apply ok_inj in H. subst x. eapply kept_trans; [|apply kept_stack]. eapply kept_trans; [|apply kept_split]. eauto. }
  destruct (seqb_spec tg (lit "br")) as [->|]; [rewrite LV by reflexivity; apply kept_nil|].
  destruct (seqb tg (lit "code")).
  { inv_bind H. apply ok_inj in H. subst x. unfold code_text. destruct (inside "pre" p); [eauto|]. destruct (has_char _ _); [apply kept_l, kept_l, kept_r|apply kept_l, kept_r]; eauto. }
  destruct (is_img tg) eqn:EI.
  { unfold is_img in EI. destruct (seqb_spec tg (lit "img")) as [->|]; [|discriminate]. rewrite LV by reflexivity. apply kept_nil. }
  destruct (is_a tg); [|eauto].
  destruct (seqb (g_link g) (lit "inline")); inv_bind H; apply ok_inj in H; subst x; unfold target_text, reference_text; apply kept_l, kept_r; eauto.
Qed.
Lemma body_kept : forall F x, Forall leafy F -> body g number F = Ok x -> kept (flat_map text_of F) x.
Proof.
  intros F x LF H. unfold body in H. eapply (texts_kept leafy); [exact LF| |apply positions_length|exact H].
  intros t L. now apply show_kept.
Qed.
Lemma finished_kept : forall s, kept s (finished g s).
Proof.
  intros s. unfold finished. cbv zeta.
  set (t := newlines _ ++ _ ++ _). assert (K : kept s t).
  { unfold t. apply kept_l, kept_r. eapply kept_trans; [|apply kept_concat; intros; apply kept_l, kept_refl]. apply kept_splitlines. }
  clearbody t. destruct (g_optimise g); [|exact K]. eapply kept_trans; [exact K|]. eapply kept_trans; [apply kept_split|].
  eapply kept_trans; [|apply kept_join]. apply kept_concat. intros x. apply kept_eq. now rewrite nonspace_rstrip.
Qed.
End R.

Section P.
Context `{U : Uni}.
Lemma page_kept : forall g F out, Forall leafy F -> page g F = Ok out -> kept (flat_map text_of F) out.
Proof.
  intros g F out LF H. unfold page in H. cbv zeta in H. inv_bind H. inv_bind H. apply ok_inj in H. subst out.
  eapply kept_trans; [|apply finished_kept]. apply kept_r. eapply body_kept; eauto.
Qed.
(** The text of the tree is the text fed. *)
Fixpoint text_fs (fs : list frame) (root : list tree) : str :=
  match fs with
  | [] => flat_map text_of root
  | f :: r => text_fs r root ++ flat_map text_of (f_kids f)
  end.
Lemma text_plug : forall fs hole root, flat_map text_of (plug fs hole root) = text_fs fs root ++ flat_map text_of hole.
Proof.
  induction fs as [|f fs IH]; intros hole root; cbn [plug text_fs]; [apply flat_map_app|]. rewrite IH. cbn [flat_map f_close text_of].
  now rewrite app_nil_r, flat_map_app, <- app_assoc.
Qed.
Lemma text_add_leaf : forall t fs root fs' root', add_leaf t fs root = (fs', root') -> text_fs fs' root' = text_fs fs root ++ text_of t.
Proof.
  intros t [|f r] root fs' root' H; cbn [add_leaf] in H; injection H as <- <-; cbn [text_fs f_kids].
  - rewrite flat_map_app. cbn [flat_map]. now rewrite app_nil_r.
  - rewrite flat_map_app, app_assoc. cbn [flat_map]. now rewrite app_nil_r.
Qed.
Lemma fed_snoc : forall h o b, fed_from b (h ++ [o]) = match o with OData s => fed_from b h ++ s | OReset => [] | _ => fed_from b h end.
Proof. induction h as [|x h IH]; intros o b; cbn [app fed_from]; [destruct o; reflexivity|]. destruct x; apply IH. Qed.
Lemma zrun_text : forall h, nonspace (text_fs (z_open (zrun h z0)) (z_root (zrun h z0))) = nonspace (fed_text h).
Proof.
  induction h as [|o h IH] using rev_ind; [reflexivity|]. rewrite zrun_snoc. unfold fed_text in *. rewrite fed_snoc. set (z := zrun h z0) in *. clearbody z.
  destruct o as [t a|t|x| |]; cbn [zstep].
  - destruct (void t).
    + destruct (add_leaf (Tag (z_n z) t a []) (z_open z) (z_root z)) as [fs root] eqn:E. cbn [z_open z_root].
      rewrite (text_add_leaf _ _ _ _ _ E). cbn [text_of flat_map]. now rewrite app_nil_r.
    + cbn [z_open z_root text_fs f_kids flat_map]. now rewrite app_nil_r.
  - destruct (void t); [exact IH|]. destruct (z_open z) as [|f r] eqn:EO; [rewrite ?EO; exact IH|].
    destruct (seqb (f_tag f) t); [|rewrite ?EO; exact IH].
    destruct (add_leaf (f_close f []) r (z_root z)) as [fs root] eqn:E. cbn [z_open z_root].
    rewrite (text_add_leaf _ _ _ _ _ E), <- IH. unfold f_close. cbn [text_fs text_of]. now rewrite app_nil_r.
  - destruct (add_leaf (Text (z_n z) (data_text (z_pre z) x)) (z_open z) (z_root z)) as [fs root] eqn:E. cbn [z_open z_root].
    rewrite (text_add_leaf _ _ _ _ _ E), !nonspace_app, IH. cbn [text_of]. now rewrite data_text_nonspace.
  - cbn [z_open z_root text_fs]. rewrite text_plug, <- IH. cbn [flat_map]. now rewrite app_nil_r.
  - reflexivity.
Qed.
Lemma tree_text : forall h, nonspace (flat_map text_of (tree_of h)) = nonspace (fed_text h).
Proof.
  intros h. rewrite tree_of_forest. unfold forest. rewrite text_plug. cbn [flat_map]. rewrite app_nil_r. apply zrun_text.
Qed.
End P.
Close Scope Z_scope.
