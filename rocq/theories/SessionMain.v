(** One parser under any calls: handlers, closing, feeding. *)
From Verif Require Import WrapFacts WrapLoop WrapWidth.
From Verif Require Import BaseFacts StrFacts SelFacts CssFacts TreeFacts HistoryFacts DomFacts LineFacts BoxFacts CollapseFacts RenderFacts DocFacts CrashFacts LinkTree.
From Verif Require Import PageSpec PageRead StyleMain JudgeMain JudgeProps ShapeMain TripMain TripFacts GoodFacts.
From Verif Require MarkupFacts MarkupMain.
From Verif Require Export SessionFacts.

Section M.
Context `{U : Uni}.
Variables (o : options) (g : cfg).
Hypothesis CN : construct o = Ok g.
Hypothesis T1 : table_ok (o_renderers o).
Hypothesis T2 : table_ok (o_ext o).
Hypothesis SHT : shaped_tables g.
Hypothesis LAST : lasting g.

Definition matches (s : pstate) (k : desk) : Prop := exists z, Inv s z /\ forest z = dk_tree k /\ map f_tag (z_open z) = dk_open k
  /\ p_in_pre s = dk_pre k /\ concat (p_chunks s) = dk_text k /\ p_out s = dk_parsed k /\ good g s /\ stale g (dk_tree k) (p_asg s).
Lemma matches0 : matches pstate0 desk0.
Proof.
  exists z0. split; [apply Inv0|]. do 5 (split; [reflexivity|]). split; [|apply stale_none].
  eapply good_inv; [apply Inv0|apply start_links|apply start_numbers].
Qed.
Lemma empty_built : built (Dom [] []) g.
Proof.
  apply (construct_built (Dom [] []) [] o g); auto.
  - apply (document_wf (Dom [] []) []); [split; constructor|reflexivity].
  - split; constructor.
  - intros ru x z e _ _ [].
  - intros ru x z e _ _ [[] _].
Qed.
Lemma ok_main : rules_ok (g_rules g).
Proof. exact (bu_rules_ok _ _ empty_built). Qed.
Lemma ok_ext : rules_ok (g_ext_rules g).
Proof. exact (bu_ext_ok _ _ empty_built). Qed.

(** ** Tags and texts *)
Definition plain_op (x : op) : Prop := match x with OStart _ _ | OEnd _ | OData _ => True | _ => False end.
Lemma hear_step : forall x s k s' e, matches s k -> plain_op x -> step_x g x s = (s', e) -> exists k', hear g x k = (k', e) /\ matches s' k'.
Proof.
  intros x s k s' e (z & I & E1 & E2 & E3 & E4 & E5 & GO & ST) PO H. pose proof (inv_count _ _ I) as CO. rewrite E1 in CO.
  assert (LEN : length (dk_open k) = length (z_open z)) by (rewrite <- E2; apply map_length).
  destruct x as [t a|t|y| |]; try contradiction; cbn [step_x] in H; cbn [hear].
  - pose proof (start_fails g s z t a I) as SF. rewrite E2 in SF. unfold start_x in H. destruct (start_error g (dk_open k) t a) as [e1|].
    + rewrite SF in H. injection H as <- <-. eexists. split; [reflexivity|]. exists (Zst (z_open z) (z_root z) (z_n z) (if seqb t (lit "pre") then true else p_in_pre s)).
      split; [constructor; try apply I; reflexivity|]. split; [exact E1|]. split; [exact E2|]. cbn [p_in_pre p_chunks p_out p_asg dk_pre dk_text dk_parsed dk_tree]. rewrite E3. do 3 (split; auto). split; auto. eapply good_same; [..|exact GO]; reflexivity.
    + destruct SF as (s1 & SF). rewrite SF in H. injection H as <- <-. eexists. split; [reflexivity|]. exists (zstep (OStart t a) z). destruct (start_keeps _ _ _ _ _ SF) as (K1 & K2 & K3).
      pose proof (step_start _ _ _ _ _ _ I SF) as I'. split; [exact I'|]. cbn [dk_tree dk_open dk_pre dk_text dk_parsed].
      assert (TR : forest (zstep (OStart t a) z) = add_at (length (dk_open k)) (Tag (count_nodes (dk_tree k)) t a []) (dk_tree k)) by (rewrite zstep_grows, LEN, CO, E1; reflexivity).
      split; [exact TR|]. split; [rewrite zstep_open, E2; reflexivity|].
      split; [rewrite (inv_flag _ _ I'), <- E3, (inv_flag _ _ I); cbn [zstep]; destruct (void t); [destruct (add_leaf _ _ _)|]; reflexivity|].
      rewrite K1, K2, K3. do 2 (split; auto). split; [exact (good_step g (OStart t a) s z s1 I GO SF)|]. eapply stale_grown; [|exact ST]. constructor; [constructor|reflexivity].
  - injection H as <- <-. destruct (end_keeps t s) as (K1 & K2 & K3). pose proof (step_end t _ _ I) as I'.
    assert (TR : forest (zstep (OEnd t) z) = dk_tree k) by (rewrite zstep_grows, E1; reflexivity).
    assert (GO' : good g (handle_endtag t s)) by exact (good_step g (OEnd t) s z _ I GO eq_refl).
    pose proof (zstep_open (OEnd t) z) as OP. cbv beta iota in OP. rewrite E2 in OP.
    assert (FL : p_in_pre (handle_endtag t s) = if void t then dk_pre k else if seqb t (lit "pre") then false else dk_pre k).
    { rewrite (inv_flag _ _ I'), <- E3, (inv_flag _ _ I). cbn [zstep]. destruct (void t); [reflexivity|]. destruct (z_open z) as [|f r]; [reflexivity|]. destruct (seqb (f_tag f) t); [|reflexivity]. destruct (add_leaf _ _ _). reflexivity. }
    destruct (void t); (eexists; split; [reflexivity|]); exists (zstep (OEnd t) z); (split; [exact I'|]); cbn [dk_tree dk_open dk_pre dk_text dk_parsed]; rewrite K1, K2, K3; auto 10.
  - injection H as <- <-. eexists. split; [reflexivity|]. exists (zstep (OData y) z). pose proof (step_data y _ _ I) as I'. split; [exact I'|]. cbn [dk_tree dk_open dk_pre dk_text dk_parsed].
    split; [rewrite zstep_grows, LEN, CO, E1, <- E3, (inv_flag _ _ I); reflexivity|]. split; [rewrite zstep_open; exact E2|]. do 3 (split; [assumption|]).
    split; [exact (good_step g (OData y) s z _ I GO eq_refl)|]. eapply stale_grown; [|exact ST]. constructor; [constructor|reflexivity].
Qed.

(** ** Closing *)
Lemma before_all : forall A B (f : A -> res B) l outs, mapM f l = Ok outs -> before_error f l = outs.
Proof.
  intros A B f. induction l as [|x l IH]; intros outs H; cbn [mapM before_error] in *; [now injection H as <-|]. destruct (f x) as [y|]; [|discriminate]. cbn [bind] in H.
  destruct (mapM f l) as [ys|]; [|discriminate]. injection H as <-. now rewrite (IH ys).
Qed.
Lemma before_some : forall A B (f : A -> res B) l x r outs e, mapM f l = Ok outs -> f x = Err e -> before_error f (l ++ x :: r) = outs.
Proof.
  intros A B f l x r. induction l as [|y l IH]; intros outs e H E; cbn [mapM before_error app] in *; [rewrite E; now injection H as <-|]. destruct (f y) as [w|]; [|discriminate]. cbn [bind] in H.
  destruct (mapM f l) as [ys|]; [|discriminate]. injection H as <-. now rewrite (IH ys e).
Qed.
Lemma trouble_one : forall s F, wf_dom (p_dom s) -> document (p_dom s) F -> forall e e', trouble g F e -> trouble g F e' -> e = e'.
Proof.
  intros s F WF D e e' (l & x & z & r & E & J & K) (l' & x' & z' & r' & E' & J' & K').
  assert (LE : forall (l l' : list (sel * site)) p p' r r', l ++ p :: r = l' ++ p' :: r' -> l = l' /\ p = p' \/ In p l' \/ In p' l).
  { clear. induction l as [|x l IH]; intros [|x' l'] p p' r r' H; cbn [app] in H; injection H as -> H; cbn [In]; auto. apply IH in H as [[-> ->]|[H|H]]; auto. }
  rewrite E in E'. apply LE in E' as [[_ E']|[E'|E']].
  - injection E' as <- <-. assert (Z : In z (all_places [] [] F)).
    { assert (A : In (x, z) (asked g F)) by (rewrite E; apply in_or_app; right; now left). apply in_flat_map in A as (y & Y & A). apply in_map_iff in A as (? & A & _). now injection A as _ <-. }
    pose proof (judge (p_dom s) F WF x z (proj1 (Forall_forall _ _) (forest_at _ _ D) z Z)) as T. apply T in J. apply T in J'. congruence.
  - elim (K' _ _ e E' J).
  - elim (K _ _ e' E' J').
Qed.
Lemma not_both : forall F e, untroubled g F -> trouble g F e -> False.
Proof. intros F e UT (l & s0 & z & r & E1 & E2 & _). eapply (UT s0 z e); [|exact E2]. rewrite E1. apply in_or_app. right. now left. Qed.

Section C.
Variables (s : pstate) (F : list tree).
Hypothesis GO : good g s.
Hypothesis DOC : document (p_dom s) F.
Hypothesis PRE : flat_map preorder F = seq 0 (length (d_nodes (p_dom s))).
Hypothesis ST : stale g F (p_asg s).
Local Notation d := (p_dom s).
Let s0 : pstate := PState d (p_stack s) (p_next s) (p_footer s) (p_in_pre s) (p_chunks s) (p_out s) [].
Let GO0 : good g s0.
Proof. eapply good_same; [..|exact GO]; reflexivity. Qed.
Let WF : wf_dom d := go_wf _ _ GO.

Lemma laid_some : exists x e, laid g F x e.
Proof.
  destruct (assign_trouble g s F WF (ext_a_some _ _ CN) DOC PRE (p_asg s)) as [(UT & sg & AS)|(e1 & TR & AS)]; [|do 2 eexists; eapply la_trouble; eauto].
  pose proof (proj1 (untroubled_iff _ _) UT) as [C1 C2]. pose proof (construct_built _ _ _ _ WF DOC PRE CN C1 C2 T1 T2) as BU.
  destruct (page_or g s F GO DOC BU (tables_page g F SHT)) as [(out & parts & entries & P1 & P2 & _)|(ex & [(ys & y & rest & parts & E & Q & B)|(ys & y & rest & parts & entries & GL & Q & E & Q2 & B)])].
  - do 2 eexists. apply la_page; eauto.
  - do 2 eexists. eapply la_body; eauto.
  - do 2 eexists. eapply la_foot; eauto.
Qed.
(** What closing does when the page is laid out. *)
Definition closed (x : str) (e : option exn) : Prop := exists s', close_x g s = (s', e) /\ concat (p_chunks s') = concat (p_chunks s) ++ x
  /\ p_out s' = match e with None => finished g (concat (p_chunks s) ++ x) | Some _ => p_out s end
  /\ p_dom s' = d /\ p_stack s' = [] /\ p_next s' = p_next s /\ p_footer s' = p_footer s /\ p_in_pre s' = p_in_pre s /\ stale g F (p_asg s').
Lemma laid_closed : forall x e, laid g F x e -> closed x e.
Proof.
  intros x e LA. destruct (assign_trouble g s F WF (ext_a_some _ _ CN) DOC PRE (p_asg s)) as [(UT & sg & AS)|(e1 & TR & AS)].
  2:{ assert (UTF : ~ untroubled g F) by (intros UT; exact (not_both _ _ UT TR)). destruct LA as [? ? ? UT|e TR'|? ? ? ? ? UT|? ? ? ? ? ? UT]; try (elim (UTF UT)).
      assert (e1 = e) by (eapply trouble_one; eauto). subst e1. assert (Q : close g s = Err e) by (unfold close; cbv zeta; now rewrite AS).
      eexists. split; [unfold close_x; rewrite Q; reflexivity|]. rewrite AS. cbn [p_chunks p_out p_dom p_stack p_next p_footer p_in_pre p_asg]. rewrite app_nil_r. do 7 (split; [reflexivity|]).
      apply assigned_stale; auto using ok_main, ok_ext. }
  assert (NT : forall e', ~ trouble g F e') by (intros e' TR; exact (not_both _ _ UT TR)).
  pose proof (proj1 (untroubled_iff _ _) UT) as [C1 C2]. pose proof (construct_built _ _ _ _ WF DOC PRE CN C1 C2 T1 T2) as BU.
  assert (STG : stale g F sg) by (eapply assign_stale; eauto using ok_main, ok_ext).
  destruct (assign_total g s0 BU) as (sg0 & AS0). cbn [s0 p_dom p_asg] in AS0.
  pose proof (same_drawn g s F GO DOC PRE ok_main ok_ext LAST ST BU sg sg0 AS AS0) as SD.
  pose proof (roots_at s F DOC) as RA.
  assert (RN : forall z, In z (spots [] [] F) -> z <> []) by (intros z J; apply spots_in in J as (b & t & c & -> & _); discriminate).
  assert (RI : d_root d = map here_id (spots [] [] F)) by (rewrite (proj1 DOC); symmetry; apply (spots_ids [] F [])).
  set (L := filter (listed_at g "footer") (all_places [] [] F)) in *.
  pose proof (all_places_at d F F [] [] RA) as PA.
  assert (LL : Forall (at_site d F) L) by (apply Forall_forall; intros z J; apply filter_In in J as [J _]; eapply Forall_forall in PA; [exact PA|exact J]).
  assert (LN : forall z, In z L -> z <> []) by (intros z J; apply filter_In in J as [J _]; eapply all_places_some; eauto).
  assert (FT : p_footer s = map here_id L).
  { rewrite (lo_footer _ _ (go_links _ _ GO)), <- PRE, <- (all_places_ids F [] []). apply filter_ids. intros z J. apply (placed_listed g s F).
    - eapply Forall_forall in PA; eauto.
    - eapply all_places_some; eauto. }
  set (draw := fun listing i => render_node (render_fuel d) d sg listing i (g_box g)).
  assert (DR : forall listing K outs, Forall (at_site d F) K -> (forall z, In z K -> z <> []) -> Forall2 (fun y q => shows g F listing y (g_box g) q) K outs ->
     mapM (draw listing) (map here_id K) = Ok outs).
  { intros listing K outs H1 H2 H3. etransitivity; [apply mapM_ext; intros j _; apply SD|]. exact (sites_drawn g s0 F sg0 GO0 DOC PRE BU AS0 eq_refl listing (g_box g) K outs H1 H2 H3). }
  assert (BR : forall listing z ex, at_site d F z -> breaks g F listing z (g_box g) ex -> draw listing (here_id z) = Err ex).
  { intros listing z ex AT B. unfold draw. rewrite SD. exact (broke_all g s0 F sg0 GO0 DOC PRE BU AS0 eq_refl listing z (g_box g) ex B AT). }
  assert (CX : close g s = let* body := mapM (draw false) (d_root d) in
    let* foot := if seqb (g_link g) (lit "footer") then match p_footer s with [] => Ok [] | l => let* links := mapM (draw true) l in Ok (nl :: links) end else Ok [] in
    Ok (PState d [] (p_next s) (p_footer s) (p_in_pre s) (p_chunks s ++ body ++ foot) (finished g (concat (p_chunks s ++ body ++ foot))) sg)).
  { unfold close. cbv zeta. rewrite AS. cbn [bind]. unfold draw. destruct (mapM _ (d_root d)); cbn [bind]; [|reflexivity].
    match goal with |- bind ?A _ = bind ?B _ => change B with A; destruct A; cbn [bind]; [|reflexivity] end. reflexivity. }
  destruct LA as [parts entries foot UT' P1 P2|e TR|ys y rest parts e UT' E P B|ys y rest parts entries e UT' GL P1 E P2 B].
  - assert (CL : close g s = Ok (PState d [] (p_next s) (p_footer s) (p_in_pre s) (p_chunks s ++ parts ++ match foot with [] => [] | _ => nl :: entries end)
        (finished g (concat (p_chunks s ++ parts ++ match foot with [] => [] | _ => nl :: entries end))) sg)).
    { rewrite CX, RI, (DR false _ parts RA RN P1). cbn [bind]. unfold foot in *. destruct (seqb (g_link g) (lit "footer")); [|cbn [bind]; reflexivity]. fold L in P2 |- *.
      rewrite FT. pose proof (DR true L entries LL LN P2) as DE. destruct L as [|z0 L0]; [reflexivity|]. cbn [map] in DE |- *. rewrite DE. reflexivity. }
    assert (X : concat (p_chunks s ++ parts ++ match foot with [] => [] | _ => nl :: entries end) = concat (p_chunks s) ++ concat parts ++ match foot with [] => [] | _ => nl end ++ concat entries).
    { rewrite !concat_app. do 2 f_equal. destruct foot; [inversion P2; reflexivity|reflexivity]. }
    eexists. split; [unfold close_x; rewrite CL; reflexivity|]. cbn [p_chunks p_out p_dom p_stack p_next p_footer p_in_pre p_asg]. rewrite X. auto 10.
  - elim (NT _ TR).
  - assert (AY : at_site d F y) by (eapply Forall_forall in RA; [exact RA|rewrite E; apply in_or_app; right; now left]).
    assert (DB : mapM (draw false) (map here_id ys) = Ok parts).
    { apply DR; auto; [rewrite E in RA; apply Forall_app in RA; apply RA|]. intros z J. apply RN. rewrite E. apply in_or_app. now left. }
    pose proof (BR false y e AY B) as BY. assert (MB : mapM (draw false) (d_root d) = Err e) by (rewrite RI, E, map_app; cbn [map]; eapply mapM_stops; eauto).
    assert (BE : before_error (draw false) (d_root d) = parts) by (rewrite RI, E, map_app; cbn [map]; eapply before_some; eauto).
    assert (CL : close g s = Err e) by (rewrite CX, MB; reflexivity).
    eexists. split; [unfold close_x; rewrite CL; reflexivity|]. rewrite AS. fold (draw false). rewrite MB. change (fun i => draw false i) with (draw false). rewrite BE.
    cbn [p_chunks p_out p_dom p_stack p_next p_footer p_in_pre p_asg]. rewrite app_nil_r, concat_app. auto 10.
  - fold L in E. assert (AY : at_site d F y) by (eapply Forall_forall in LL; [exact LL|rewrite E; apply in_or_app; right; now left]).
    pose proof (DR false _ parts RA RN P1) as DB. rewrite <- RI in DB.
    assert (DE : mapM (draw true) (map here_id ys) = Ok entries).
    { apply DR; auto; [rewrite E in LL; apply Forall_app in LL; apply LL|]. intros z J. apply LN. rewrite E. apply in_or_app. now left. }
    pose proof (BR true y e AY B) as BY. assert (MB : mapM (draw true) (p_footer s) = Err e) by (rewrite FT, E, map_app; cbn [map]; eapply mapM_stops; eauto).
    assert (BE : before_error (draw true) (p_footer s) = entries) by (rewrite FT, E, map_app; cbn [map]; eapply before_some; eauto).
    assert (CL : close g s = Err e).
    { rewrite CX, DB. cbn [bind]. rewrite GL, seqb_refl. destruct (p_footer s) as [|j l] eqn:EF; [discriminate MB|]. rewrite MB. reflexivity. }
    eexists. split; [unfold close_x; rewrite CL; reflexivity|]. rewrite AS. fold (draw false). fold (draw true). rewrite DB. change (fun i => draw true i) with (draw true). change (fun i => draw false i) with (draw false). rewrite BE, (before_all _ _ _ _ _ DB).
    cbn [p_chunks p_out p_dom p_stack p_next p_footer p_in_pre p_asg]. rewrite !concat_app. cbn [concat]. auto 10.
Qed.
Lemma laid_one : forall x e x' e', laid g F x e -> laid g F x' e' -> x = x' /\ e = e'.
Proof.
  intros x e x' e' H H'. apply laid_closed in H as (s1 & C1 & X1 & _). apply laid_closed in H' as (s2 & C2 & X2 & _). rewrite C1 in C2. injection C2 as <- <-. split; auto.
  rewrite X1 in X2. now apply app_inv_head in X2.
Qed.
End C.
Lemma finishes_close : forall s k s' e, matches s k -> close_x g s = (s', e) -> exists k', finishes g k k' e /\ matches s' k'.
Proof.
  intros s k s' e (z & I & E1 & E2 & E3 & E4 & E5 & GO & ST) H. destruct (Inv_document _ _ I) as [DOC PRE]. rewrite E1 in DOC, PRE.
  destruct (laid_some s (dk_tree k) GO DOC PRE) as (x & e' & LA). destruct (laid_closed s (dk_tree k) GO DOC PRE ST x e' LA) as (s1 & C1 & X1 & X2 & X3 & X4 & X5 & X6 & X7 & X8).
  rewrite C1 in H. injection H as -> ->. rewrite E4 in X1, X2.
  assert (MA : forall y, p_out s' = y -> matches s' (Desk (dk_tree k) [] (dk_pre k) (dk_text k ++ x) y)).
  { intros y Y. exists (zstep OClose z). split.
    { pose proof (inv_frames _ _ I) as FR. pose proof (inv_pre _ _ I) as PR. destruct (frames_document (p_dom s) (z_open z) [] (z_root z)) as [D1 D2]; auto.
      constructor; cbn [zstep z_open z_root z_n z_pre]; rewrite ?X3, ?X4, ?X7; try apply I; [|reflexivity|].
      - cbn. rewrite app_nil_r. auto.
      - cbn. rewrite pre_plug. cbn. now rewrite app_nil_r. }
    split; [rewrite zstep_grows; exact E1|]. cbn [dk_tree dk_open dk_pre dk_text dk_parsed]. split; [reflexivity|]. split; [congruence|]. split; [exact X1|]. split; [exact Y|]. split; [|exact X8].
    eapply good_same; [exact X3|exact X6|exact X5|exact GO]. }
  destruct e as [e|]; eexists; (split; [constructor; exact LA|]); apply MA; [congruence|exact X2].
Qed.
Lemma finishes_one : forall s k, matches s k -> forall k1 e1 k2 e2, finishes g k k1 e1 -> finishes g k k2 e2 -> k1 = k2 /\ e1 = e2.
Proof.
  intros s k (z & I & E1 & E2 & E3 & E4 & E5 & GO & ST) k1 e1 k2 e2 H1 H2. destruct (Inv_document _ _ I) as [DOC PRE]. rewrite E1 in DOC, PRE.
  destruct H1 as [x1 L1|x1 e1 L1], H2 as [x2 L2|x2 e2 L2]; destruct (laid_one s (dk_tree k) GO DOC PRE ST _ _ _ _ L1 L2) as [<- Q]; try discriminate Q; try injection Q as <-; auto.
Qed.

(** ** Reading *)
Lemma takes_deliver : forall whole t s k h e, only_tags t -> matches s k -> deliver g whole t s = (h, e) ->
  exists z, takes g whole t k z e /\ ss_kept z = h_raw h /\ ss_raw z = h_cd h /\ matches (h_p h) (ss_desk z).
Proof.
  intros whole. induction t as [raw r|x|x t IH]; intros s k h e OT M H; cbn [deliver] in H.
  - injection H as <- <-. eexists. split; [constructor|]. auto.
  - injection H as <- <-. eexists. split; [constructor|]. auto.
  - destruct OT as [PO OT]. destruct (step_x g x s) as [s1 e1] eqn:E. destruct (hear_step x s k s1 e1 M PO E) as (k1 & HK & M1). destruct e1 as [e1|].
    + injection H as <- <-. eexists. split; [eapply tk_raise; eauto|]. auto.
    + destruct (IH s1 k1 h e OT M1 H) as (z & Z & Q). exists z. split; [eapply tk_go; eauto|exact Q].
Qed.
Lemma takes_one : forall whole t k z e, takes g whole t k z e -> forall z' e', takes g whole t k z' e' -> z = z' /\ e = e'.
Proof.
  intros whole t k z e H. induction H as [raw r k|e k|x t k k1 z e H1 H2 IH|x t k k1 e H1]; intros z' e' H'; inversion H' as [| |? ? ? k2 ? ? Q1 Q2|? ? ? k2 ? Q1]; subst; auto; rewrite H1 in Q1; try discriminate Q1; injection Q1 as Q1; subst; auto.
Qed.

(** ** Calls *)
Definition follows (h : parser) (z : session) : Prop := ss_kept z = h_raw h /\ ss_raw z = h_cd h /\ MarkupFacts.raw_ok (h_cd h) /\ matches (h_p h) (ss_desk z).
Lemma reset_matches : forall s k, matches s k -> matches (reset s) (Desk [] [] (dk_pre k) [] []).
Proof.
  intros s k (z & I & E1 & E2 & E3 & _ & _ & GO & _). exists (zstep OReset z). pose proof (step_inv g OReset s (reset s) z I eq_refl) as I'. split; [exact I'|]. do 2 (split; [reflexivity|]).
  split; [exact E3|]. do 2 (split; [reflexivity|]). split; [exact (good_step g OReset s z _ I GO eq_refl)|apply stale_none].
Qed.
Lemma call_does : forall c h z h' e, follows h z -> do_call g c h = (h', e) ->
  exists z', does g z c z' e /\ follows h' z' /\ forall z2 e2, does g z c z2 e2 -> z2 = z' /\ e2 = e.
Proof.
  intros c h z h' e (E1 & E2 & RO & M) H. pose proof (MarkupMain.call_raw _ _ _ _ _ RO H) as RO'.
  assert (RE : forall fin x, MarkupSpec.reads fin (ss_raw z) x (tokens fin (h_cd h) x)) by (intros fin x; rewrite E2; apply MarkupFacts.tokens_reads; auto).
  assert (ON : forall fin x t, MarkupSpec.reads fin (ss_raw z) x t -> t = tokens fin (h_cd h) x) by (intros fin x t R; exact (proj1 (MarkupFacts.reads_one_both fin) _ _ _ R _ (RE fin x))).
  destruct c as [x| |]; cbn [do_call] in H.
  - unfold feed in H. destruct (takes_deliver _ _ _ _ _ _ (tokens_only (length (h_raw h ++ x)) false (h_raw h ++ x) (h_cd h) (le_n _)) M H) as (z' & K1 & K2 & K3 & K4).
    exists z'. split; [eapply do_feed; [apply RE|]; rewrite E1; exact K1|]. split; [repeat (split; auto)|]. intros z2 e2 D. inversion D as [? t ? ? R T| | |]; subst. apply ON in R. subst t. rewrite E1 in T.
    destruct (takes_one _ _ _ _ _ K1 _ _ T) as [-> ->]. auto.
  - unfold finalise in H. destruct (deliver g (h_raw h) (tokens true (h_cd h) (h_raw h)) (h_p h)) as [h1 e1] eqn:DE.
    destruct (takes_deliver _ _ _ _ _ _ (tokens_only (length (h_raw h)) true (h_raw h) (h_cd h) (le_n _)) M DE) as (z1 & K1 & K2 & K3 & K4). destruct e1 as [e1|].
    + injection H as <- <-. exists z1. split; [eapply do_close_unread; [apply RE|]; rewrite E1; exact K1|]. split; [repeat (split; auto)|]. intros z2 e2 D. inversion D as [|t ? ? R T|t z3 k ? R T FI|]; subst; apply ON in R; subst t; rewrite E1 in T;
      destruct (takes_one _ _ _ _ _ K1 _ _ T) as [-> Q]; [auto|discriminate Q].
    + destruct (close_x g (h_p h1)) as [p e2] eqn:CX. injection H as <- <-. destruct (finishes_close _ _ _ _ K4 CX) as (k & FI & M').
      exists (Session (ss_kept z1) (ss_raw z1) k). split; [eapply do_close; [apply RE| |exact FI]; rewrite E1; exact K1|]. split; [repeat (split; auto)|].
      intros z2 e3 D. inversion D as [|t ? ? R T|t z3 k3 ? R T FI'|]; subst; apply ON in R; subst t; rewrite E1 in T; destruct (takes_one _ _ _ _ _ K1 _ _ T) as [<- Q]; [discriminate Q|].
      destruct (finishes_one _ _ K4 _ _ _ _ FI FI') as [<- <-]. auto.
  - injection H as <- <-. eexists. split; [constructor|]. split; [repeat (split; auto); now apply reset_matches|]. intros z2 e2 D. inversion D; subst. auto.
Qed.
Lemma calls_do : forall l h z h' es, follows h z -> do_calls g l h = (h', es) ->
  exists z', does_all g z l z' es /\ follows h' z' /\ forall z2 es2, does_all g z l z2 es2 -> z2 = z' /\ es2 = es.
Proof.
  induction l as [|c l IH]; intros h z h' es FO H; cbn [do_calls] in H.
  - injection H as <- <-. exists z. split; [constructor|]. split; auto. intros z2 es2 D. inversion D; subst. auto.
  - destruct (do_call g c h) as [h1 e] eqn:C. destruct (do_calls g l h1) as [h2 es2] eqn:CS. injection H as <- <-.
    destruct (call_does c h z h1 e FO C) as (z1 & D1 & F1 & O1). destruct (IH h1 z1 h2 es2 F1 CS) as (z2 & D2 & F2 & O2). exists z2. split; [econstructor; eauto|]. split; auto.
    intros z3 es3 D. inversion D as [|? ? z4 e4 ? ? es4 Q1 Q2]; subst. destruct (O1 _ _ Q1) as [-> ->]. destruct (O2 _ _ Q2) as [-> ->]. auto.
Qed.
Lemma follows0 : follows parser0 session0.
Proof. split; [reflexivity|]. split; [reflexivity|]. split; [now left|apply matches0]. Qed.
End M.
