(** Facts for RunProps: the exceptions of reading, of start tags, and plain text. *)
From Verif Require Import BaseFacts StrFacts CrashFacts SourceFacts HrefFacts MarkupFacts MarkupMain Themes.
From Verif Require Export RunSpec Cli.
Open Scope Z_scope.

Section F.
Context `{U : Uni}.
Fixpoint ends_so (t : trace) : Prop := match t with TStop _ _ => True | TErr e => e = EValue \/ e = EAssert | TEv _ k => ends_so k end.
Lemma ends_calls : forall l k, ends_so (fold_right TEv k l) <-> ends_so k.
Proof. induction l as [|o l IH]; intros k; [reflexivity|exact (IH k)]. Qed.
Lemma ends_said : forall a k t, said a k t -> ends_so k -> ends_so t.
Proof. intros a k t H K. destruct H; [exact K|left; reflexivity]. Qed.
Lemma markup_fails : forall raw b s e, markup raw b s (MFail e) -> e = EValue \/ e = EAssert.
Proof.
  intros raw b s e M. inversion M; subst;
  match goal with
  | H : start_tag _ _ _ |- _ => inversion H; subst; auto
  | H : end_tag _ _ _ _ |- _ => inversion H; subst; auto
  | H : up_to_match _ _ _ _ _ |- _ => inversion H; subst; auto
  | H : up_to_gt _ _ _ |- _ => inversion H; subst; auto
  | H : marked_section _ _ _ |- _ => inversion H; subst; auto; match goal with H : up_to_match _ _ _ _ _ |- _ => inversion H end
  end.
Qed.
Lemma reads_ends : forall fin raw s t, reads fin raw s t -> ends_so t.
Proof.
  intros fin. apply (reads_ind' _ fin (fun _ _ t _ => ends_so t) (fun _ _ _ t _ => ends_so t)); intros; try exact Logic.I; try (eapply ends_said; [eassumption|]); auto; try exact Logic.I.
  - apply ends_calls; assumption.
  - eapply markup_fails; eassumption.
Qed.
Lemma source_fails : forall src evs e, source src evs (Some e) -> e = EValue \/ e = EAssert.
Proof. intros src evs e H. inversion H as [|? ? R|? ? ? ? ? R1 R2]; subst; [apply reads_ends in R; now apply ends_calls in R|apply reads_ends in R2; now apply ends_calls in R2]. Qed.
(** ** Start tags *)
Definition tool_cfg (g : cfg) : Prop := g_host g = lit "my.gopher.com" /\ g_port g = 70 /\ g_link g = lit "footer" /\ g_image g = lit "inline".
Lemma tool_is : exists g, construct cli_options = Ok g /\ tool_cfg g /\ wrap_width (g_box g) = 67.
Proof. eexists. split; [reflexivity|]. split; [repeat split|reflexivity]. Qed.
Lemma tag_error : forall g opened t a e, tool_cfg g -> start_error g opened t a = Some e <-> bad_tag (OStart t a) e.
Proof.
  intros g opened t a e (H1 & H2 & H3 & H4). unfold start_error, bad_tag. rewrite H1, H2. unfold is_a, is_img.
  assert (NB : forall x, seqb (placement g x) (lit "after_block") = false) by (intros x; unfold placement; rewrite ?H3, ?H4; repeat match goal with |- context [if ?b then _ else _] => destruct b end; reflexivity).
  assert (LX : forall h, parse_href h (lit "my.gopher.com") 70 = Err e <-> leads h (lit "my.gopher.com") 70 (Err e)) by (intros h; symmetry; apply leads_iff).
  destruct (dlast (lit "class") a) as [[c|]|].
  2:{ split; [intros E; injection E as <-; left; auto|]. intros [[_ ->]|[(N0 & _)|(N0 & _)]]; [reflexivity|congruence|congruence]. }
  all: destruct (seqb_spec t (lit "img")) as [->|NI]; [cbn [orb]; replace (seqb (lit "img") (lit "a") || true)%bool with true by reflexivity|destruct (seqb_spec t (lit "a")) as [->|NA]; cbn [orb]];
    [| |split; [discriminate|intros [[E _]|[(_ & E & _)|(_ & E & _)]]; try discriminate; contradiction]].
  all: match goal with |- context [parse_href ?h _ _] => rewrite <- (LX h); destruct (parse_href h (lit "my.gopher.com") 70) as [l|x] end.
  all: rewrite ?NB.
  all: split; [intros E|intros [[E _]|[(_ & E & F)|(_ & E & F)]]].
  all: try (destruct opened; discriminate E); try discriminate; try (vm_compute in E; discriminate).
  all: try (injection E as ->; right; first [left; repeat split; discriminate|right; repeat split; discriminate]).
  all: try (injection F as ->; reflexivity).
Qed.
Lemma feed_from : forall g evs before e, tool_cfg g -> feed_error_from g before evs = Some e <-> first_bad evs e.
Proof.
  intros g evs. induction evs as [|o evs IH]; intros before e T; cbn [feed_error_from].
  - split; [discriminate|]. intros (b & o & a & E & _). destruct b; discriminate.
  - assert (OB : (match o with OStart t a => start_error g (open_after before) t a | _ => None end = Some e) <-> bad_tag o e) by (destruct o; try (split; [discriminate|intros []]); now apply tag_error).
    assert (ON : match o with OStart t a => start_error g (open_after before) t a | _ => None end = None -> forall e', ~ bad_tag o e') by (intros N0 e' B; destruct o; try contradiction B; apply (tag_error g (open_after before)) in B; [congruence|exact T]).
    destruct (match o with OStart t a => start_error g (open_after before) t a | _ => None end) as [x|] eqn:EX.
    + split.
      * intros E. exists [], o, evs. split; [reflexivity|]. split; [intros ? ? []|now apply OB].
      * intros (b & o' & a & E & NB & B). destruct b as [|y b]; cbn [app] in E; injection E as E1 E2; [subst o'; now apply OB|]. subst y. exfalso. assert (BX : bad_tag o x) by (destruct o; try discriminate EX; now apply (tag_error g (open_after before))). now apply (NB o x (or_introl eq_refl)).
    + rewrite (IH (before ++ [o]) e T). split.
      * intros (b & o' & a & -> & NB & B). exists (o :: b), o', a. split; [reflexivity|]. split; [|exact B]. intros y e' [<-|I0]; [now apply ON|now apply NB].
      * intros (b & o' & a & E & NB & B). destruct b as [|y b]; cbn [app] in E; injection E as E1 E2; [subst o'; now apply ON in B|]. exists b, o', a. split; [exact E2|]. split; [|exact B]. intros z e' I0. apply NB. now right.
Qed.
Lemma feed_is : forall g evs e, tool_cfg g -> feed_error g evs = Some e <-> first_bad evs e.
Proof. intros. now apply feed_from. Qed.
Lemma bad_raises : forall o e, bad_tag o e -> e = EAttr \/ e = EValue.
Proof.
  intros [t a|t|s| |] e B; try contradiction B. destruct B as [[_ ->]|B]; [now left|].
  right. destruct B as [(_ & _ & L)|(_ & _ & L)]; apply leads_iff in L; match type of L with parse_href ?h ?a ?b = _ => pose proof (parse_href_raises h a b) as K; rewrite L in K; exact K end.
Qed.
(** ** Plain text *)
Lemma plain_unescape : forall s, ~ In 38%N s -> unescape s = Ok s.
Proof.
  induction s as [|c s IH]; intros N0; [reflexivity|]. rewrite unescape_cons. assert (NC : c <> 38%N) by (intros ->; apply N0; now left). rewrite IH by (intros I0; apply N0; now right).
  destruct (N.eqb_spec c 38) as [|_]; [contradiction|]. reflexivity.
Qed.
Lemma plain_source : forall s, s <> [] -> ~ In 60%N s -> ~ In 38%N s -> source s [OData s] None.
Proof.
  intros s NE N1 N2. apply (so_read s [OData s] None [] [] None []); [|apply rd_nothing]. apply rd_text; [exact NE|exact N1| |].
  - intros (p & q & -> & _). apply N2. apply in_or_app. right. now left.
  - pose proof (said_sound s (TStop None [])) as SS. unfold emit in SS. rewrite plain_unescape in SS by exact N2. exact SS.
Qed.
Lemma nothing_source : source [] [] None.
Proof. apply (so_read [] [] None [] [] None []); apply rd_nothing. Qed.
End F.
Close Scope Z_scope.
