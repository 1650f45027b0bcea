(** C94: a gophermap page with its links at the foot is the text and a menu with one
    record for each link of the document, in order. *)
From Verif Require Import WrapFacts WrapLoop WrapWidth.
From Verif Require Import BaseFacts StrFacts SelFacts TreeFacts HistoryFacts DomFacts LineFacts BoxFacts LinkTree LinkRecord LinkProps.
From Verif Require Import HrefFacts PageRead PageProps MarkupFacts MarkupMain MarkupProps CrashFacts MenuFacts Fixture.
From Verif Require Export MenuSpec MarkupSpec.
Open Scope Z_scope.

(** The pages meant: gophermap, links at the foot, images in the text, no margin on the left. *)
Definition menu_page (o : options) (g : cfg) : Prop :=
  o_renderers o = [] /\ o_ext o = [] /\ construct o = Ok g /\ g_format g = lit "gophermap" /\ g_link g = lit "footer" /\ g_image g = lit "inline"
  /\ sd_left (b_margin (g_box g)) = 0 /\ one_field (g_host g).

Theorem C94_menu : forall `{U : Uni} o g h out, menu_page o g -> ~ In OClose h -> Forall (neat g) (links_of (tree_of h)) ->
  render_doc o h = Ok out -> with_menu g (tree_of h) out.
Proof.
  intros U o g h out (O1 & O2 & CN & GM & LF & II & ML & HH) NC NT R. pose proof (feed_outcome g h [] pstate0 eq_refl NC) as X. fold (feed_error g h) in X.
  rewrite (C60_events o g h O1 O2 CN NC) in R. destruct (feed_error g h); [discriminate R|]. destruct X as (s & X). destruct (tree_of_document _ _ _ X) as [[_ DS] P].
  set (F := tree_of h) in *. assert (ND : NoDup (map tid (links_of F))) by (unfold links_of; apply filter_ids; rewrite parts_ids, P; apply seq_NoDup).
  assert (PA : forall t, In t (links_of F) -> exists to, parse_href (href_of t) (g_host g) (g_port g) = Ok to).
  { intros t J. unfold links_of in J. apply filter_In in J as [J IL]. apply in_flat_map in J as (r & JR & J). rewrite parts_subtrees in J. rewrite Forall_forall in DS.
    destruct (stores_sub_any _ _ _ _ (DS r JR) J) as (q & ST). destruct t as [i tg a kids|]; [|discriminate IL]. cbn [is_link_to] in IL. destruct (seqb_spec tg (lit "a")) as [->|]; [|discriminate IL].
    apply stores_Tag in ST as [(n & N1 & N2 & _ & _ & _ & _ & LD) _]. unfold link_data in LD. change (seqb (lit "a") (lit "a")) with true in LD. cbv iota in LD. destruct LD as (lk & K1 & K2 & _).
    pose proof (lo_info _ _ (reach_links g h s X) i n N1) as Y. unfold link_info in Y. rewrite N2 in Y. change (is_link (lit "a")) with true in Y. cbv iota in Y. destruct Y as (lk' & ref & Y1 & _ & Y2).
    rewrite K1 in Y1. injection Y1 as <-. cbn [href_of]. rewrite <- K2. eauto. }
  unfold page in R. cbv zeta in R. rewrite (links_ids g LF II F) in R. set (number := fun i => rank i (map tid (links_of F))) in *.
  destruct (body g number F) as [x|] eqn:EB; cbn [bind] in R; [|discriminate R]. destruct (footer g number F) as [y|] eqn:EF; cbn [bind] in R; [|discriminate R]. injection R as <-.
  assert (Y : exists lines, length lines = length (links_of F) /\ y = (match links_of F with [] => [] | _ => nl ++ block lines end)
    /\ (forall k t line, nth_error (links_of F) k = Some t -> nth_error lines k = Some line -> record_of g (Z.of_nat k + 1) t line) /\ Forall (fun l => ~ In 10%N l /\ rstrip l = l) lines).
  { unfold footer in EF. rewrite LF in EF. change (seqb (lit "footer") (lit "footer")) with true in EF. cbv iota zeta in EF.
    set (l := filter (fun x => put g "footer" (fst x)) (located_all F (positions [] F))) in *.
    assert (ML0 : map fst l = links_of F).
    { unfold l, links_of. rewrite filter_fst, located_all_parts by (unfold positions; now rewrite map_length, seq_length). apply filter_ext. apply (put_is g LF II). }
    destruct (in_order _) as [z|] eqn:EO; cbn [bind] in EF; [|discriminate EF]. injection EF as <-. apply in_order_parts in EO as (ps & F2 & ->).
    assert (G : forall (m : list (tree * pos)) ps k0, Forall2 (fun x o => x = Ok o) (map (fun x => show g number true (fst x) (snd x) (page_place g)) m) ps ->
      (forall k t, nth_error (map fst m) k = Some t -> nth_error (links_of F) (k0 + k) = Some t) ->
      exists lines, length lines = length m /\ concat ps = block lines
        /\ (forall k t line, nth_error (map fst m) k = Some t -> nth_error lines k = Some line -> record_of g (Z.of_nat (k0 + k) + 1) t line) /\ Forall (fun l => ~ In 10%N l /\ rstrip l = l) lines).
    { clear -ND PA NT GM HH. induction m as [|[t p] m IH]; intros ps k0 F2 AT; inversion F2 as [|? o ? ps' E F2']; subst; clear F2.
      - exists []. split; [reflexivity|]. split; [reflexivity|]. split; [|constructor]. intros [|k] t line J; discriminate J.
      - cbn [map fst snd] in *. pose proof (AT 0%nat t eq_refl) as A0. rewrite Nat.add_0_r in A0. pose proof (nth_error_In _ _ A0) as JT.
        assert (IL : is_link_to t = true) by (unfold links_of in JT; apply filter_In in JT; tauto).
        rewrite Forall_forall in NT. destruct (entry_record g number t p (page_place g) o GM IL HH (NT t JT) (PA t JT) E) as (line & -> & RC & RS).
        assert (NU : number (tid t) = Z.of_nat k0 + 1) by (apply rank_nth; [exact ND|]; rewrite nth_error_map, A0; reflexivity). rewrite NU in RC.
        destruct (IH ps' (S k0) F2') as (lines & L1 & L2 & L3 & L4). { intros k t' J. rewrite <- (AT (S k) t' J). f_equal. lia. }
        exists (line :: lines). split; [cbn [length]; now rewrite L1|]. split; [unfold block; cbn [map concat]; fold (block lines); now rewrite L2|]. split; [|constructor; [|exact L4]; split; [exact (proj1 RC)|exact RS]].
        intros [|k] t' line' J1 J2; cbn [nth_error] in J1, J2.
        + injection J1 as <-. injection J2 as <-. rewrite Nat.add_0_r. exact RC.
        + replace (k0 + S k)%nat with (S k0 + k)%nat by lia. eapply L3; eauto. }
    destruct (G l ps 0%nat F2) as (lines & L1 & L2 & L3 & L4). { intros k t J. rewrite <- ML0. exact J. }
    exists lines. rewrite <- ML0, map_length. split; [exact L1|]. split; [|split; [exact L3|exact L4]]. rewrite L2. destruct l as [|u l']; [|reflexivity]. destruct lines; [reflexivity|discriminate L1]. }
  destruct Y as (lines & L1 & -> & L3 & L4). unfold with_menu. unfold finished. rewrite ML. change (spaces 0) with (@nil N).
  change (fun l : str => [] ++ l) with (fun l : str => l). rewrite map_id, splitlines_concat. cbv zeta.
  eexists _, lines. split; [exists x, (newlines (sd_top (b_margin (g_box g))) ++ x); split; [exact EB|]; split; reflexivity|]. split; [|split; [exact L1|exact L3]].
  fold (block lines). destruct (g_optimise g); [|now rewrite <- !app_assoc]. rewrite (app_assoc (newlines (sd_top _))), strip_newlines, (app_assoc (join _ _)). f_equal.
  destruct (links_of F); [now rewrite !app_nil_r|]. rewrite app_assoc. apply strip_block. exact L4.
Qed.
(** The same for any source text. *)
Theorem C94_source : forall `{U : Uni} o g src evs out, menu_page o g -> MarkupSpec.source src evs None -> Forall (neat g) (links_of (tree_of evs)) ->
  render_text o src = Ok out -> with_menu g (tree_of evs) out.
Proof.
  intros U o g src evs out MP SO NT R. pose proof MP as (_ & _ & CN & _). pose proof (source_quiet _ _ _ SO) as NC. apply (C94_menu o g evs out MP NC NT).
  rewrite (C74_render _ _ _ _ _ CN SO) in R. destruct (feed_error g evs); [discriminate R|]. exact R.
Qed.
(** Read line by line: the lines of the text, then the records, and nothing after them but the margin. *)
Theorem C94_lines : forall `{U : Uni} g F page, links_of F <> [] -> with_menu g F page ->
  exists text lines, text_above g F text /\ split_on 10%N page = split_on 10%N text ++ lines ++ repeat [] (S (Z.to_nat (sd_bottom (b_margin (g_box g))))) /\ length lines = length (links_of F)
    /\ forall k t line, nth_error (links_of F) k = Some t -> nth_error lines k = Some line -> record_of g (Z.of_nat k + 1) t line.
Proof.
  intros U g F page NE (text & lines & TA & -> & L1 & L3). exists text, lines. split; [exact TA|]. split; [|now split]. destruct (links_of F) as [|t0 ts] eqn:E; [congruence|]. rewrite <- E in *.
  assert (FL : Forall (fun l : str => ~ In 10%N l) lines).
  2:{ fold (block lines). assert (EN : forall n, repeat 10%N n = block (repeat [] n)) by (induction n as [|n IH]; [reflexivity|]; cbn [repeat]; rewrite IH; reflexivity). unfold newlines. rewrite EN.
    assert (EB : block lines ++ block (repeat [] (Z.to_nat (sd_bottom (b_margin (g_box g))))) = block (lines ++ repeat [] (Z.to_nat (sd_bottom (b_margin (g_box g)))))) by (unfold block; now rewrite map_app, concat_app).
    rewrite <- (app_assoc nl), EB, split_more, split_lines.
    - rewrite <- app_assoc. f_equal. f_equal. clear. induction (Z.to_nat (sd_bottom (b_margin (g_box g)))) as [|n IH]; [reflexivity|]. cbn [repeat app] in *. now rewrite IH.
    - apply Forall_app. split; [exact FL|]. apply Forall_forall. intros l J. apply repeat_spec in J. subst l. intros []. }
  apply Forall_forall. intros l J. apply In_nth_error in J as (k & J).
  destruct (nth_error (links_of F) k) as [t|] eqn:T; [exact (proj1 (L3 k t l T J))|]. exfalso. apply nth_error_None in T. assert (K : nth_error lines k <> None) by (intros Z0; assert (Q : Some l = None) by (transitivity (nth_error lines k); [symmetry; exact J|exact Z0]); discriminate Q). apply nth_error_Some in K. lia.
Qed.

(** ** Pages of text: the list of references *)
Definition reference_page (o : options) (g : cfg) : Prop :=
  o_renderers o = [] /\ o_ext o = [] /\ construct o = Ok g /\ g_format g = lit "text" /\ g_link g = lit "footer" /\ g_image g = lit "inline"
  /\ sd_left (b_margin (g_box g)) = 0 /\ g_optimise g = true.
Theorem C94_references : forall `{U : Uni} o g h out, reference_page o g -> ~ In OClose h -> Forall one_line_link (links_of (tree_of h)) ->
  render_doc o h = Ok out -> with_references g (tree_of h) out.
Proof.
  intros U o g h out (O1 & O2 & CN & GM & LF & II & ML & OP) NC NT R. pose proof (feed_outcome g h [] pstate0 eq_refl NC) as X. fold (feed_error g h) in X.
  rewrite (C60_events o g h O1 O2 CN NC) in R. destruct (feed_error g h); [discriminate R|]. destruct X as (s & X). destruct (tree_of_document _ _ _ X) as [_ P].
  set (F := tree_of h) in *. assert (ND : NoDup (map tid (links_of F))) by (unfold links_of; apply filter_ids; rewrite parts_ids, P; apply seq_NoDup).
  unfold page in R. cbv zeta in R. rewrite (links_ids g LF II F) in R. set (number := fun i => rank i (map tid (links_of F))) in *.
  destruct (body g number F) as [x|] eqn:EB; cbn [bind] in R; [|discriminate R]. destruct (footer g number F) as [y|] eqn:EF; cbn [bind] in R; [|discriminate R]. injection R as <-.
  destruct (foot_parts g LF II F y ND EF) as (outs & -> & LO & SH). fold number in SH.
  assert (Y : exists es, outs = map (fun e => rows (pl_line (page_place g)) [[]; e]) es /\ Forall (fun e : str => ~ In 10%N e) es
    /\ forall k t e, nth_error (links_of F) k = Some t -> nth_error es k = Some e -> reference_of_link (Z.of_nat k + 1) t (rstrip e)).
  { assert (G : forall outs ts k0, length outs = length ts -> (forall t, In t ts -> is_link_to t = true /\ one_line_link t) ->
      (forall k t o, nth_error ts k = Some t -> nth_error outs k = Some o -> exists p, show g number true t p (page_place g) = Ok o /\ rank (tid t) (map tid (links_of F)) = Z.of_nat (k0 + k) + 1) ->
      exists es, outs = map (fun e => rows (pl_line (page_place g)) [[]; e]) es /\ Forall (fun e : str => ~ In 10%N e) es
        /\ forall k t e, nth_error ts k = Some t -> nth_error es k = Some e -> reference_of_link (Z.of_nat (k0 + k) + 1) t (rstrip e)).
    { clear - GM. induction outs as [|o outs IH]; intros [|t ts] k0 L T SH; try discriminate L.
      - exists []. split; [reflexivity|]. split; [constructor|]. intros [|k] t e J; discriminate J.
      - destruct (SH 0%nat t o eq_refl eq_refl) as (p & S1 & S2). destruct (T t (or_introl eq_refl)) as [IL OL]. destruct (entry_reference g number t p (page_place g) o GM IL OL S1) as (e & -> & NE & RE).
        destruct (IH ts (S k0)) as (es & -> & FE & RS). { now injection L. } { intros t' J. apply T. now right. }
        { intros k t' o' J1 J2. destruct (SH (S k) t' o' J1 J2) as (p' & S3 & S4). exists p'. split; [exact S3|]. rewrite S4. f_equal. f_equal. lia. }
        exists (e :: es). split; [reflexivity|]. split; [now constructor|]. intros [|k] t' e' J1 J2; cbn [nth_error] in J1, J2.
        + injection J1 as <-. injection J2 as <-. rewrite <- S2. exact RE.
        + replace (k0 + S k)%nat with (S k0 + k)%nat by lia. eapply RS; eauto. }
    apply (G outs (links_of F) 0%nat LO); [|exact SH]. intros t J. split; [unfold links_of in J; apply filter_In in J; tauto|]. rewrite Forall_forall in NT. now apply NT. }
  destruct Y as (es & -> & FE & RE). rewrite map_length in LO. unfold with_references, finished. rewrite ML, OP. change (spaces 0) with (@nil N).
  change (fun l : str => [] ++ l) with (fun l : str => l). rewrite map_id, splitlines_concat. cbv zeta.
  eexists _, (map rstrip es). split; [exists x, (newlines (sd_top (b_margin (g_box g))) ++ x); split; [exact EB|]; split; [reflexivity|]; rewrite OP; reflexivity|]. split; [|split; [now rewrite map_length|]].
  - rewrite (app_assoc (newlines (sd_top _))), strip_newlines, (app_assoc (join _ _)). f_equal.
    destruct (links_of F) as [|t0 ts] eqn:EL; [destruct es; [cbn [map concat app]; now rewrite !app_nil_r|discriminate LO]|]. destruct es as [|e es]; [discriminate LO|]. rewrite app_assoc.
    rewrite split_more, map_app. pose proof (strip_rows (pl_line (page_place g)) [] (e :: es) (fun J => J) FE) as SR. cbn [app] in SR. match type of SR with ?A = ?B => match goal with |- join nl (?L ++ ?M) = _ => change M with A end end. rewrite SR. rewrite join_more; [|destruct (split_on_cons 10%N (newlines (sd_top (b_margin (g_box g))) ++ x)) as (u & v & ->); discriminate|discriminate].
    f_equal.
  - intros k t line J1 J2. destruct (nth_map_some es k line J2) as (e & E & ->). exact (RE k t e J1 E).
Qed.
Theorem C94_source_references : forall `{U : Uni} o g src evs out, reference_page o g -> MarkupSpec.source src evs None -> Forall one_line_link (links_of (tree_of evs)) ->
  render_text o src = Ok out -> with_references g (tree_of evs) out.
Proof.
  intros U o g src evs out MP SO NT R. pose proof MP as (_ & _ & CN & _). pose proof (source_quiet _ _ _ SO) as NC. apply (C94_references o g evs out MP NC NT).
  rewrite (C74_render _ _ _ _ _ CN SO) in R. destruct (feed_error g evs); [discriminate R|]. exact R.
Qed.

(** ** A case that meets the hypotheses: three links, one with a title, one to another host *)
Section Case.
Local Existing Instance U0.
Definition menu_options : options := Options 40 None [] [] (lit "gophermap") (lit "footer") (lit "inline") (lit "here.org") 70 true.
Definition menu_calls : list op :=
  [start "p"; txt "See "; starta "a" [("href", "/docs/a.txt")]%string; txt "the documents"; stop "a"; txt " and ";
   starta "a" [("href", "gopher://other.org:7070/y.png"); ("title", "A picture")]%string; starta "em" []; txt "it"; stop "em"; stop "a"; stop "p";
   start "p"; starta "a" [("href", "https://x.org/")]%string; txt "web"; stop "a"; stop "p"].
Example C94_case : exists g out, menu_page menu_options g /\ ~ In OClose menu_calls /\ render_doc menu_options menu_calls = Ok out
  /\ length (links_of (tree_of menu_calls)) = 3%nat /\ Forall (neat g) (links_of (tree_of menu_calls)).
Proof.
  destruct (construct menu_options) as [g|] eqn:CN; [|vm_compute in CN; discriminate CN]. destruct (render_doc menu_options menu_calls) as [out|] eqn:R; [|vm_compute in R; discriminate R].
  exists g, out. assert (X : construct menu_options = Ok g) by exact CN. vm_compute in CN. injection CN as CN. split.
  { unfold menu_page. split; [reflexivity|]. split; [reflexivity|]. split; [exact X|]. rewrite <- CN. repeat (split; [reflexivity|]). split; vm_compute; intuition discriminate. }
  split; [cbn; intuition discriminate|]. split; [reflexivity|]. split; [vm_compute; reflexivity|].
  assert (Q : forall l hr, Forall (fun c => (c < 128)%N) l -> Some l = Some hr -> one_field l -> one_field hr /\ (Forall (fun c => (c < 128)%N) hr \/ forall to, leads (Some hr) (g_host g) (g_port g) (Ok to) -> gl_host to = Some (g_host g))) by (intros l hr A E B; injection E as <-; auto).
  repeat apply Forall_cons; try apply Forall_nil; (split; [|intros hr E; refine (Q _ hr _ E _); [repeat constructor|split; vm_compute; intuition discriminate]]).
  - eexists. split; [eexists _, _, _, _; split; [reflexivity|]; eexists; split; [repeat constructor|reflexivity]|]. split; vm_compute; intuition discriminate.
  - eexists. split; [eexists _, _, _, _; split; [reflexivity|]; reflexivity|]. split; vm_compute; intuition discriminate.
  - eexists. split; [eexists _, _, _, _; split; [reflexivity|]; eexists; split; [repeat constructor|reflexivity]|]. split; vm_compute; intuition discriminate.
Qed.
Definition text_options : options := Options 40 None [] [] (lit "text") (lit "footer") (lit "inline") [] 70 true.
Definition reference_calls : list op :=
  [start "p"; txt "See "; starta "a" [("href", "/a")]%string; txt "the documents"; stop "a"; stop "p"; start "p"; starta "a" [("title", "T")]%string; start "b"; txt "web"; stop "b"; txt " site"; stop "a"; stop "p"].
Example C94_reference_case : exists g out, reference_page text_options g /\ ~ In OClose reference_calls /\ render_doc text_options reference_calls = Ok out
  /\ length (links_of (tree_of reference_calls)) = 2%nat /\ Forall one_line_link (links_of (tree_of reference_calls)).
Proof.
  destruct (construct text_options) as [g|] eqn:CN; [|vm_compute in CN; discriminate CN]. destruct (render_doc text_options reference_calls) as [out|] eqn:R; [|vm_compute in R; discriminate R].
  exists g, out. assert (X : construct text_options = Ok g) by exact CN. vm_compute in CN. injection CN as CN. split.
  { unfold reference_page. split; [reflexivity|]. split; [reflexivity|]. split; [exact X|]. rewrite <- CN. repeat split. }
  split; [cbn; intuition discriminate|]. split; [reflexivity|]. split; [vm_compute; reflexivity|].
  repeat apply Forall_cons; try apply Forall_nil; (eexists _, _, _, _, _; split; [reflexivity|]; split; [repeat constructor|]; split; [vm_compute; intuition discriminate|]; split; intros y E; vm_compute in E; try discriminate E; injection E as <-; vm_compute; intuition discriminate).
Qed.
End Case.
Close Scope Z_scope.
Print Assumptions C94_menu.
Print Assumptions C94_source.
Print Assumptions C94_lines.
Print Assumptions C94_references.
Print Assumptions C94_source_references.
