(** The links of a tree, their numbers and their records. *)
From Verif Require Import BaseFacts StrFacts SelFacts TreeFacts HistoryFacts DomFacts LineFacts BoxFacts LinkRecord.
From Verif Require Import HrefFacts PageRead PageProps StrSpec StrProps ProseFacts.
From Verif Require Export MenuSpec.
Open Scope Z_scope.

Section M.
Context `{U : Uni}.
Lemma parts_subtrees : forall t, parts_of t = subtrees t.
Proof. reflexivity. Qed.
Lemma parts_ids : forall F, map tid (flat_map parts_of F) = flat_map preorder F.
Proof. induction F as [|t F IH]; [reflexivity|]. cbn [flat_map]. rewrite map_app, IH, parts_subtrees, subtrees_ids. reflexivity. Qed.
Lemma located_parts : forall t p, map fst (located t p) = parts_of t.
Proof.
  induction t as [i tg a kids IH|i s] using tree_ind2; intros p; [|reflexivity]. cbn [located parts_of map fst]. f_equal.
  assert (L : length (positions (tg :: ps_up p) kids) = length kids) by (unfold positions; now rewrite map_length, seq_length).
  revert L. generalize (positions (tg :: ps_up p) kids). induction IH as [|k kids E _ IH2]; intros [|q ps] L; try discriminate L; [reflexivity|]. cbn [flat_map]. rewrite map_app, E, IH2; auto.
Qed.
Lemma located_all_parts : forall F ps, length ps = length F -> map fst (located_all F ps) = flat_map parts_of F.
Proof.
  unfold located_all. induction F as [|t F IH]; intros [|p ps] L; try discriminate L; [reflexivity|]. cbn [combine flat_map fst snd]. rewrite map_app, located_parts, IH; auto.
Qed.
Lemma filter_fst : forall {A B} (f : A -> bool) (l : list (A * B)), map fst (filter (fun x => f (fst x)) l) = filter f (map fst l).
Proof. induction l as [|[a b] l IH]; [reflexivity|]. cbn [filter map fst]. destruct (f a); cbn [map fst]; now rewrite IH. Qed.

Variable g : cfg.
Hypothesis LF : g_link g = lit "footer".
Hypothesis II : g_image g = lit "inline".
Lemma put_is : forall t, put g "footer" t = is_link_to t.
Proof.
  intros [i tg a kids|i s]; [|reflexivity]. cbn [put is_link_to]. unfold placement, is_a, is_img. rewrite LF, II. destruct (seqb_spec tg (lit "img")) as [->|]; [reflexivity|]. rewrite orb_false_r. destruct (seqb tg (lit "a")); reflexivity.
Qed.
Lemma numbered_is : forall tg, numbered g tg = seqb tg (lit "a").
Proof.
  intros tg. unfold numbered, placement. rewrite LF, II. destruct (seqb_spec tg (lit "img")) as [->|]; [reflexivity|]. rewrite orb_false_r. destruct (seqb tg (lit "a")); reflexivity.
Qed.
Lemma links_tree : forall t, numbered_ids g t = map tid (filter is_link_to (parts_of t)).
Proof.
  induction t as [i tg a kids IH|i s] using tree_ind2; [|reflexivity]. cbn [numbered_ids parts_of filter is_link_to]. rewrite numbered_is.
  assert (E : flat_map (numbered_ids g) kids = map tid (filter is_link_to (flat_map parts_of kids))).
  { induction IH as [|k kids E _ IH2]; [reflexivity|]. cbn [flat_map]. rewrite filter_app, map_app, <- E, IH2. reflexivity. }
  rewrite E. destruct (seqb tg (lit "a")); reflexivity.
Qed.
Lemma links_ids : forall F, flat_map (numbered_ids g) F = map tid (links_of F).
Proof. unfold links_of. induction F as [|t F IH]; [reflexivity|]. cbn [flat_map]. rewrite filter_app, map_app, links_tree, IH. reflexivity. Qed.
Lemma filter_ids : forall (f : tree -> bool) l, NoDup (map tid l) -> NoDup (map tid (filter f l)).
Proof.
  induction l as [|t l IH]; intros H; [constructor|]. cbn [map] in H. inversion H as [|? ? A B]; subst. cbn [filter]. destruct (f t); auto. cbn [map]. constructor; auto.
  intros J. apply A. apply in_map_iff in J as (x & E & J). apply filter_In in J as [J _]. rewrite <- E. now apply in_map.
Qed.
Lemma rank_nth : forall l k i, NoDup l -> nth_error l k = Some i -> rank i l = Z.of_nat k + 1.
Proof.
  induction l as [|x l IH]; intros [|k] i H E; try discriminate E; cbn [nth_error] in E; inversion H as [|? ? A B]; subst; cbn [rank].
  - injection E as ->. rewrite Nat.eqb_refl. reflexivity.
  - destruct (Nat.eqb_spec i x) as [->|N]; [exfalso; apply A; eapply nth_error_In; eauto|]. rewrite (IH k i B E). lia.
Qed.
Lemma in_order_parts : forall l y, in_order l = Ok y -> exists ps, Forall2 (fun x o => x = Ok o) l ps /\ y = concat ps.
Proof.
  induction l as [|x l IH]; intros y H; cbn [in_order] in H; [injection H as <-; exists []; split; [constructor|reflexivity]|].
  destruct x as [a|]; cbn [bind] in H; [|discriminate H]. destruct (in_order l) as [b|]; cbn [bind] in H; [|discriminate H]. injection H as <-.
  destruct (IH b eq_refl) as (ps & F & ->). exists (a :: ps). split; [now constructor|reflexivity].
Qed.
(** The text of a link with nothing but text and emphasis. *)
Lemma marker_no_link : forall i tg a kids m where_, lookup tg markers = Some m -> put g where_ (Tag i tg a kids) = false.
Proof.
  intros i tg a kids m where_ H. cbn [put]. unfold is_a, is_img. destruct (seqb_spec tg (lit "a")) as [->|]; [vm_compute in H; discriminate H|]. destruct (seqb_spec tg (lit "img")) as [->|]; [vm_compute in H; discriminate H|]. reflexivity.
Qed.
Lemma wording_quiet : forall kids c, wording kids c -> Forall (fun k => put g "after_block" k = false) kids.
Proof. intros kids c H. induction H as [|i s kids c H IH|i tg a m inner b kids c LK H1 _ H2 IH]; constructor; auto. eapply marker_no_link; eauto. Qed.
Lemma quiet_after : forall number kids ps w, Forall (fun k => put g "after_block" k = false) kids ->
  existsb (put g "after_block") kids = false /\ in_order (at_positions (map (fun k => if put g "after_block" k then show g number true k else fun _ _ => Ok []) kids) ps w) = Ok [].
Proof.
  intros number kids ps w H. revert ps. induction H as [|k kids E _ IH]; intros ps; [split; reflexivity|]. cbn [existsb map]. rewrite E. split; [apply (IH [])|]. destruct ps as [|p ps]; [reflexivity|]. cbn [at_positions in_order bind]. destruct (IH ps) as [_ ->]. reflexivity.
Qed.
Lemma wording_shown : forall number kids c ps w x, wording kids c -> length ps = length kids -> in_order (at_positions (map (show g number false) kids) ps w) = Ok x -> x = c.
Proof.
  intros number kids c ps w x H. revert ps x. induction H as [|i s kids c H IH|i tg a m inner b kids c LK H1 IH1 H2 IH2]; intros [|p ps] x L E; try discriminate L; cbn [map at_positions in_order] in E.
  - now injection E as <-.
  - cbn [show bind] in E. destruct (in_order _) as [y|] eqn:B; cbn [bind] in E; [|discriminate E]. injection E as <-. f_equal. eapply IH; [|exact B]. now injection L.
  - destruct (show g number false (Tag i tg a inner) p w) as [z|] eqn:Z0; cbn [bind] in E; [|discriminate E]. destruct (in_order _) as [y|] eqn:B in E; cbn [bind] in E; [|discriminate E]. injection E as <-.
    rewrite (IH2 ps y ltac:(now injection L) B). cbn [show] in Z0. unfold show_element in Z0. rewrite LK in Z0.
    destruct (quiet_after number inner (positions (tg :: ps_up p) inner) w (wording_quiet _ _ H1)) as [Q1 Q2]. rewrite Q1, Q2 in Z0.
    destruct (in_order _) as [u|] eqn:EU in Z0; cbn [bind] in Z0; [|discriminate Z0]. injection Z0 as <-. apply IH1 in EU; [subst u|unfold positions; now rewrite map_length, seq_length]. cbn [app]. rewrite app_nil_r, <- !app_assoc. reflexivity.
Qed.
Lemma port_end : forall p, exists a c, shown_port p = a ++ [c] /\ is_space c = false.
Proof.
  assert (D : forall n s, digits_of n s -> exists a c, s = a ++ [c] /\ is_space c = false).
  { intros n s (N0 & DC & _). destruct (exists_last N0) as (a & c & ->). exists a, c. split; [reflexivity|]. assert (J : In c digit_chars) by (apply DC, in_or_app; right; now left).
    assert (A : forallb (fun c => negb (is_space c)) digit_chars = true) by (vm_compute; reflexivity). rewrite forallb_forall in A. specialize (A c J). now apply negb_true_iff in A. }
  intros [z|]; cbn [shown_port]; [|exists (lit "Non"), 101%N; split; vm_compute; reflexivity].
  pose proof (proj1 (C87_number z _) eq_refl) as W. unfold written_number in W. destruct (z <? 0); [|eapply D; eauto].
  destruct W as (r & E & W). destruct (D _ _ W) as (a & c & -> & S0). rewrite E. exists (lit "-" ++ a), c. split; [now rewrite app_assoc|exact S0].
Qed.
(** What stripping does to text that ends in whole lines without blanks at the end. *)
Definition block (lines : list str) : str := concat (map (fun l => l ++ nl) lines).
Lemma join_more : forall l m, l <> [] -> m <> [] -> join nl (l ++ m) = join nl l ++ nl ++ join nl m.
Proof.
  induction l as [|x [|y l] IH]; intros m N0 N1; [congruence| |].
  - cbn [app]. destruct m as [|z m]; [congruence|]. now rewrite join_cons2.
  - cbn [app]. rewrite !join_cons2. change (y :: l ++ m) with ((y :: l) ++ m). rewrite IH by (auto; discriminate). now rewrite <- !app_assoc.
Qed.
Lemma split_lines : forall lines, Forall (fun l : str => ~ In 10%N l) lines -> split_on 10%N (block lines) = lines ++ [[]].
Proof.
  induction lines as [|l lines IH]; intros H; [reflexivity|]. inversion H as [|? ? A B]; subst. unfold block. cbn [map concat]. rewrite <- app_assoc. change (nl ++ concat (map (fun l0 => l0 ++ nl) lines)) with (10%N :: block lines).
  rewrite split_on_app_sep by exact A. rewrite IH by exact B. reflexivity.
Qed.
Lemma split_more : forall a b, split_on 10%N (a ++ nl ++ b) = split_on 10%N a ++ split_on 10%N b.
Proof.
  intros a b. destruct (proj1 (C87_split 10%N a _) eq_refl) as (N1 & J1 & F1). destruct (proj1 (C87_split 10%N b _) eq_refl) as (N2 & J2 & F2). apply C87_join in J1, J2.
  rewrite <- J1 at 1. rewrite <- J2 at 1. change [10%N] with nl. rewrite <- join_more by assumption. apply split_on_join; [destruct (split_on 10%N a); [congruence|discriminate]|]. apply Forall_app. now split.
Qed.
Lemma join_block : forall lines, join nl (lines ++ [[]]) = block lines.
Proof.
  induction lines as [|l lines IH]; [reflexivity|]. change ((l :: lines) ++ [[]]) with ([l] ++ (lines ++ [[]])). rewrite join_more by (discriminate || destruct lines; discriminate). rewrite IH. unfold block. cbn [map concat]. rewrite <- app_assoc. reflexivity.
Qed.
Lemma strip_block : forall text lines, Forall (fun l : str => ~ In 10%N l /\ rstrip l = l) lines ->
  join nl (map rstrip (split_on 10%N (text ++ nl ++ block lines))) = join nl (map rstrip (split_on 10%N text)) ++ nl ++ block lines.
Proof.
  intros text lines H. rewrite split_more, map_app, split_lines by (eapply Forall_impl; [|exact H]; now intros ? []). rewrite map_app. cbn [map].
  assert (E : map rstrip lines = lines) by (induction H as [|l lines [_ E] _ IH]; [reflexivity|]; cbn [map]; now rewrite E, IH).
  rewrite E. change (rstrip []) with (@nil N). rewrite join_more; [now rewrite join_block| |destruct lines; discriminate].
  destruct (split_on_cons 10%N text) as (x & y & ->). discriminate.
Qed.
Lemma strip_newlines : forall n text, join nl (map rstrip (split_on 10%N (text ++ newlines n))) = join nl (map rstrip (split_on 10%N text)) ++ newlines n.
Proof.
  intros n. unfold newlines. induction (Z.to_nat n) as [|k IH]; intros text; cbn [repeat]; [now rewrite !app_nil_r|].
  replace (text ++ 10%N :: repeat 10%N k) with ((text ++ nl) ++ repeat 10%N k) by (rewrite <- app_assoc; reflexivity). rewrite IH.
  pose proof (strip_block text [] (Forall_nil _)) as E. change (block []) with (@nil N) in E. rewrite app_nil_r in E. rewrite E, <- app_assoc. reflexivity.
Qed.
(** One record. *)
Lemma entry_record : forall number t p w out, g_format g = lit "gophermap" -> is_link_to t = true -> one_field (g_host g) -> neat g t ->
  (exists to, parse_href (href_of t) (g_host g) (g_port g) = Ok to) -> show g number true t p w = Ok out ->
  exists line, out = line ++ nl /\ record_of g (number (tid t)) t line /\ rstrip line = line.
Proof.
  intros number [i tg a kids|] p w out GM IL HH [(desc & SD & FD) HN] (to & PH) E; [|discriminate IL]. cbn [is_link_to] in IL. destruct (seqb_spec tg (lit "a")) as [->|]; [clear IL|discriminate IL].
  cbn [show] in E. unfold show_listing in E. cbn [href_of] in *. destruct (in_order _) as [c|] eqn:EC; cbn [bind] in E; [|discriminate E]. change (is_img (lit "a")) with false in E. cbv iota in E. unfold link_listing, menu in E. rewrite GM in E. change (seqb (lit "gophermap") (lit "gophermap")) with true in E. cbv iota in E. injection E as <-.
  assert (ED : match attr "title" a with Some t => t | None => shortened c end = desc).
  { destruct SD as (i' & tg' & a' & kids' & X & SD). injection X as <- <- <- <-. destruct (attr "title" a) as [x|]; [now subst|]. destruct SD as (c' & W & ->).
    apply (wording_shown number kids c') in EC; [subst c'|exact W|unfold positions; now rewrite map_length, seq_length]. unfold shortened. now rewrite Z.gtb_ltb. }
  rewrite ED. unfold target. rewrite PH. eexists. split; [reflexivity|]. destruct (type_field _ _ _ _ PH) as [TF _].
  assert (SF := selector_field _ _ _ _ PH (fun x E => proj1 (HN x E))).
  assert (HF : one_field (shown (gl_host to))).
  { apply (host_field _ _ _ _ PH HH). intros x E. destruct (proj2 (HN x E)) as [A|A]; [now left|right]. apply A. apply leads_iff. rewrite <- E. exact PH. }
  destruct (record_split (number i) desc to TF FD SF HF) as [R1 R2]. split.
  - split; [exact R2|]. exists desc, to. split; [exact SD|]. split; [apply leads_iff; exact PH|]. exact R1.
  - unfold record_text. destruct (port_end (gl_port to)) as (x & y & -> & NS). rewrite !app_assoc. now apply rstrip_app_nonspace.
Qed.

(** The foot of a page: what is listed for each link, with its number. *)
Lemma foot_parts : forall F y, NoDup (map tid (links_of F)) -> footer g (fun i => rank i (map tid (links_of F))) F = Ok y ->
  exists outs, y = (match links_of F with [] => [] | _ => nl end) ++ concat outs /\ length outs = length (links_of F)
    /\ forall k t o, nth_error (links_of F) k = Some t -> nth_error outs k = Some o ->
         exists p, show g (fun i => rank i (map tid (links_of F))) true t p (page_place g) = Ok o /\ rank (tid t) (map tid (links_of F)) = Z.of_nat k + 1.
Proof.
  intros F y ND EF. set (number := fun i => rank i (map tid (links_of F))) in *. unfold footer in EF. rewrite LF in EF. change (seqb (lit "footer") (lit "footer")) with true in EF. cbv iota zeta in EF.
  set (l := filter (fun x => put g "footer" (fst x)) (located_all F (positions [] F))) in *.
  assert (ML0 : map fst l = links_of F).
  { unfold l, links_of. rewrite filter_fst, located_all_parts by (unfold positions; now rewrite map_length, seq_length). apply filter_ext. apply put_is. }
  destruct (in_order _) as [z|] eqn:EO; cbn [bind] in EF; [|discriminate EF]. injection EF as <-. apply in_order_parts in EO as (ps & F2 & ->).
  exists ps. split; [rewrite <- ML0; destruct l; reflexivity|]. split; [assert (LL : forall (A : list (res str)) B, Forall2 (fun x o => x = Ok o) A B -> length B = length A) by (intros A B H; induction H; cbn [length]; congruence); etransitivity; [exact (LL _ _ F2)|]; rewrite <- ML0, !map_length; reflexivity|].
  intros k t o T O. assert (A : exists p, nth_error l k = Some (t, p)).
  { rewrite <- ML0, nth_error_map in T. destruct (nth_error l k) as [[t' p]|]; [|discriminate T]. cbn in T. injection T as ->. eauto. }
  destruct A as (p & A). exists p. split; [|apply rank_nth; [exact ND|]; rewrite nth_error_map, T; reflexivity].
  clear - F2 A O. revert k A ps F2 O. induction l as [|[t' p'] l IH]; intros [|k] A ps F2 O; try discriminate A; inversion F2 as [|? o' ? ps' E F2']; subst; cbn [nth_error] in A, O.
  - injection A as -> ->. injection O as <-. exact E.
  - eapply IH; eauto.
Qed.
Lemma nth_map_some : forall (es : list str) k line, nth_error (map rstrip es) k = Some line -> exists e, nth_error es k = Some e /\ line = rstrip e.
Proof. induction es as [|x es IH]; intros [|k] line H; try discriminate H; cbn [map nth_error] in *; [injection H as <-; eauto|]. exact (IH k line H). Qed.
Lemma strip_rows : forall W x es, ~ In 10%N x -> Forall (fun e : str => ~ In 10%N e) es ->
  map rstrip (split_on 10%N (x ++ concat (map (fun e => rows W [[]; e]) es))) = rstrip x :: map rstrip es.
Proof.
  intros W x es. revert x. induction es as [|e es IH]; intros x NX NE; cbn [map concat].
  - rewrite app_nil_r, split_on_none by exact NX. reflexivity.
  - inversion NE as [|? ? A B]; subst. assert (SP : forall n, ~ In 10%N (spaces n)) by (intros n J; unfold spaces in J; apply repeat_spec in J; discriminate J).
    unfold rows at 1. cbn [map]. rewrite join_cons2. change (join nl [pad W e]) with (pad W e). unfold pad. cbn [app].
    replace (x ++ (spaces (W - len []) ++ nl ++ e ++ spaces (W - len e)) ++ concat (map (fun e0 => rows W [[]; e0]) es)) with ((x ++ spaces (W - len [])) ++ 10%N :: ((e ++ spaces (W - len e)) ++ concat (map (fun e0 => rows W [[]; e0]) es))) by (unfold nl; rewrite <- !app_assoc; reflexivity).
    rewrite split_on_app_sep by (intros J; apply in_app_or in J as [J|J]; [now apply NX|now apply (SP _ J)]). cbn [map]. rewrite IH; [|intros J; apply in_app_or in J as [J|J]; [now apply A|now apply (SP _ J)]|exact B].
    rewrite !rstrip_app_all by apply spaces_blank. reflexivity.
Qed.
Lemma entry_reference : forall number t p w out, g_format g = lit "text" -> is_link_to t = true -> one_line_link t ->
  show g number true t p w = Ok out -> exists e, out = rows (pl_line w) [[]; e] /\ ~ In 10%N e /\ reference_of_link (number (tid t)) t (rstrip e).
Proof.
  intros number t p w out GM IL (i & tg & a & kids & c & -> & WO & NC & NH & NT) E. cbn [is_link_to] in IL. destruct (seqb_spec tg (lit "a")) as [->|]; [clear IL|discriminate IL].
  cbn [show] in E. unfold show_listing in E. destruct (in_order _) as [c'|] eqn:EC; cbn [bind] in E; [|discriminate E]. change (is_img (lit "a")) with false in E. cbv iota in E. unfold link_listing, menu in E. rewrite GM in E. change (seqb (lit "text") (lit "gophermap")) with false in E. cbv iota in E. injection E as <-.
  apply (wording_shown number kids c) in EC; [subst c'|exact WO|unfold positions; now rewrite map_length, seq_length].
  exists (entry_text (number i) (shortened c) (attr "href" a) (attr "title" a)).
  assert (NL : ~ In 10%N (entry_text (number i) (shortened c) (attr "href" a) (attr "title" a))).
  { unfold entry_text. rewrite !in_app_iff. intros [J|[J|[J|[J|[J|[J|J]]]]]].
    - vm_compute in J. intuition discriminate.
    - exact (proj2 (port_field (Some (number i))) J).
    - vm_compute in J. intuition discriminate.
    - unfold shortened in J. apply in_app_or in J as [J|J]; [|destruct (len c >? 10); vm_compute in J; intuition discriminate].
      apply NC. assert (J' : In 10%N (strip c)) by (rewrite <- (firstn_skipn 10 (strip c)); apply in_or_app; now left). unfold strip in J'. apply rstrip_In in J'.
      destruct (lstrip_spec c) as (b & E1 & _). rewrite E1. apply in_or_app. now right.
    - vm_compute in J. intuition discriminate.
    - destruct (attr "href" a) as [x|]; [exact (NH x eq_refl J)|vm_compute in J; intuition discriminate].
    - destruct (attr "title" a) as [[|x t]|]; cbn [titled] in J; [destruct J| |destruct J]. unfold quoted in J. rewrite !in_app_iff in J. destruct J as [J|[J|[J|J]]]; [vm_compute in J; intuition discriminate|vm_compute in J; intuition discriminate|exact (NT _ eq_refl J)|vm_compute in J; intuition discriminate]. }
  split; [|split; [exact NL|]].
  - f_equal. set (e := entry_text (number i) (shortened c) (attr "href" a) (attr "title" a)) in *. transitivity (split_on 10%N ([] ++ 10%N :: e)); [reflexivity|]. rewrite split_on_app_sep by (intros []). now rewrite split_on_none.
  - exists i, (lit "a"), a, kids, c. split; [reflexivity|]. split; [exact WO|]. unfold entry_text, shortened. cbn [tid]. rewrite Z.gtb_ltb. unfold shown, titled, quoted. f_equal. do 5 f_equal. destruct (attr "title" a) as [[|x t]|]; reflexivity.
Qed.
End M.
Close Scope Z_scope.
