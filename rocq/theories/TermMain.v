(** A page whose elements pass styling on leaves none behind. *)
From Verif Require SetSpec SgrSpec.
From Verif Require Import WrapFacts WrapLoop WrapWidth BaseFacts StrFacts LineFacts ElemFacts.
From Verif Require Export TermClean TermSpan.
Open Scope Z_scope.

Section M.
Context `{U : Uni}.
Definition well (out : str) : Prop := exists m, reads out m /\ tidy m.
Lemma well_clean : forall x, clean x -> well x.
Proof. intros x C. exists []. split; [now apply reads_clean|apply tidy_nil]. Qed.
Lemma well_app : forall x y, well x -> well y -> well (x ++ y).
Proof. intros x y (l & R & T) (m & Q & V). exists (l ++ m). split; [now apply reads_app|now apply tidy_app]. Qed.
Lemma well_concat : forall xs, Forall well xs -> well (concat xs).
Proof. intros xs H. induction H; [apply well_clean, clean_nil|]. now apply well_app. Qed.

(** ** Elements *)
Lemma around_reads : forall t x out l, around t -> fills t x out -> reads x l -> reads out l.
Proof. intros t x out l A F R. destruct (A _ _ F) as (a & b & CA & CB & ->). now apply reads_around. Qed.
Lemma around_clean : forall t x out, around t -> fills t x out -> clean x -> clean out.
Proof. intros t x out A F C. apply reads_nil. eapply around_reads; eauto. now apply reads_clean. Qed.
Lemma all_change_in : forall (R : str -> str -> Prop) xs ys l, (forall x y m, In x xs -> R x y -> reads x m -> reads y m) -> Forall2 R xs ys -> all_read xs l -> all_read ys l.
Proof.
  intros R xs ys l H F. revert l H. induction F; intros m H0 A; [exact A|]. apply all_uncons in A as (a & b & A & B & ->). apply all_cons; [eapply H0; eauto; now left|]. apply IHF; auto. intros; eapply H0; eauto. now right.
Qed.
Lemma words_reads : forall s page x t cfg j text y l, wears s x -> template_set s "line_template" t -> wrapper_set s cfg -> justification_set s j ->
  words_fit s page text -> SetSpec.set_text cfg (text_room page x (label_columns t)) text (lit j) y -> reads text l -> reads y l.
Proof.
  intros s page x t cfg j text y l WE TS WS [JS _] WF ST R. destruct (wrapper_plain _ _ WS) as (M & CI & CS). refine (set_reads _ _ _ _ _ _ M CI CS _ ST R). destruct WF as [E|WF].
  - left. unfold str_set in *. rewrite JS in E. now injection E.
  - right. intros qs TP. destruct (WF x t cfg qs WE TS WS) as [B|B]; [now left|right]. exact (B TP).
Qed.
Lemma switched_fun : forall s k a b, switched s k a -> switched s k b -> a = b.
Proof. intros s k a b (v & D & T) (w & D' & T'). congruence. Qed.
Theorem picture_passes : forall tg a kids pre s page l e content k out, picture tg a kids pre s page l e content k out ->
  passes k s page content -> well content -> well out.
Proof.
  intros tg a kids pre s page l e content k out H P (m & R & T).
  assert (W : forall out, reads out m -> well out) by (intros o RO; exists m; auto).
  destruct H; cbn [passes] in P; try contradiction.
  - exists m. auto.
  - apply well_clean, clean_nil.
  - destruct P as [A C]. apply W. rewrite (switched_fun _ _ _ _ C H0) in *. eapply around_reads; [eauto|eassumption|]. rewrite <- (switched_fun _ _ _ _ C H0). exact R.
  - destruct P as (A & C & FG & BG). assert (caps = false) as -> by (eapply switched_fun; eauto). eapply span_reads; [exact FG|exact BG|eassumption| |exact T]. eapply around_reads; [eauto|eassumption|exact R].
  - exists m. auto.
  - destruct P as [A B]. apply W. eapply around_reads; [|eassumption|exact R]. destruct (has_char 10%N content); eauto.
  - apply well_clean. eapply around_clean; [eauto|eassumption|]. eapply around_clean; [eauto|eassumption|clean_lit].
  - apply W. eapply dressed_reads; [eapply frame_borders; eauto|eassumption|now apply split_all].
  - destruct H as [->| ->]; contradiction.
  - destruct P as (A & B & C & D). assert (caps = false) as -> by (eapply switched_fun; eauto). apply W. eapply dressed_reads; [eapply frame_borders; eauto|eassumption|].
    apply rows_all. match goal with X : laid_out _ _ _ _ _ |- _ => destruct X as (parts & FA & ->) end. match goal with X : Forall2 (fills t) _ _ |- _ => eapply (all_change _ _ _ _ (fun x y m => around_reads t x y m (B _ ltac:(eassumption))) X) end.
    apply rows_all. eapply (all_change_in _ _ _ _ _ FA). now apply split_all. Unshelve. cbv beta. intros x0 y0 m0 I0 ST R0. eapply words_reads; eauto. now apply strip_reads.
  - destruct P as (A & _). apply W. eapply dressed_reads; [eapply frame_borders; eauto|eassumption|now apply split_all].
  - destruct P as [A B]. apply W. eapply dressed_reads; [eapply frame_borders; eauto|eassumption|]. apply rows_all.
    match goal with X : Forall2 _ (splitlines false content) _ |- _ => eapply (all_change _ _ _ _ _ X) end. now apply splitlines_all. Unshelve.
    cbv beta. intros x0 y0 m0 (y & F0 & ->) R0. rewrite <- (app_nil_r y). apply reads_around; [apply spaces_clean|exact clean_nil|]. eapply around_reads; [eauto|exact F0|exact R0].
  - destruct P as [A B]. apply W. eapply dressed_reads; [eapply frame_borders; eauto|eassumption|]. apply rows_all.
    match goal with X : Forall2 _ (splitlines false content) _ |- _ => eapply (all_change _ _ _ _ _ X) end. now apply splitlines_all. Unshelve.
    intros x0 y0 m0 F0 R0. eapply around_reads; [eauto|exact F0|exact R0].
  - assert (P' : clean_frame s /\ (forall t, template_set s "line_template" t -> around t) /\ switched s "capitalized" false /\ words_fit s page content) by (destruct H as [->|[->| ->]]; exact P). clear P. destruct P' as (A & B & C & D).
    assert (caps = false) as -> by (eapply switched_fun; eauto). apply W. eapply dressed_reads; [eapply frame_borders; eauto|eassumption|]. apply rows_all.
    assert (RY : reads y m) by (eapply words_reads; eauto). apply split_all in RY. match goal with X : split_on 10%N y = _ |- _ => rewrite X in RY end. apply all_uncons in RY as (u & v & R1 & R2 & ->). apply all_cons; [eapply around_reads; eauto|].
    apply all_map; [|exact R2]. intros z n RZ. rewrite <- (app_nil_r z). apply reads_around; auto using spaces_clean, clean_nil.
Qed.

(** ** Places *)
Variables (g : cfg) (F : list tree).
Lemma shows_nested : forall (P : bool -> site -> box -> str -> Prop),
  (forall before i s after up page, P false (Spot before (Text i s) after :: up) page s) ->
  (forall before i t a kids after up page cl over s inner parts entries out,
    let z := Spot before (Tag i t a kids) after :: up in let links := filter (listed_at g "after_block") (inner_spots z) in
    shown_inline g t = false -> styled (g_rules g) (g_default g) z cl over -> settled cl t (length before) over s -> room_in (rc_kind cl) s page inner ->
    Forall2 (fun y o => shows g F false y inner o /\ P false y inner o) (inner_spots z) parts ->
    Forall2 (fun y o => shows g F true y inner o /\ P true y inner o) links entries ->
    picture t a kids (in_pre up) s page (if is_link_tag t then Some (link_context g (reference g F i)) else None) None
      (concat parts ++ (match links with [] => [] | _ => nl end) ++ concat entries) (rc_kind cl) out -> P false z page out) ->
  (forall before i t a kids after up page cl over s inner parts out,
    let z := Spot before (Tag i t a kids) after :: up in
    shown_inline g t = true -> styled (g_rules g) (g_default g) z cl over -> settled cl t (length before) [] s -> room_in (rc_kind cl) s page inner ->
    Forall2 (fun y o => shows g F false y inner o /\ P false y inner o) (inner_spots z) parts ->
    picture t a kids (in_pre up) s page (Some (link_context g (reference g F i))) (Some (link_details g t a)) (concat parts) (rc_kind cl) out -> P false z page out) ->
  (forall before i t a kids after up page cl s inner parts out,
    let z := Spot before (Tag i t a kids) after :: up in
    is_link_tag t = true -> shown_inline g t = false -> listed_by g z cl -> settled cl t (length before) [] s -> room_in (rc_kind cl) s page inner ->
    Forall2 (fun y o => shows g F false y inner o /\ P false y inner o) (inner_spots z) parts ->
    picture t a kids (in_pre up) s page (Some (link_context g (reference g F i))) (Some (link_details g t a)) (concat parts) (rc_kind cl) out -> P true z page out) ->
  forall listed z page out, shows g F listed z page out -> P listed z page out.
Proof.
  intros P PT PE PI PL. fix IH 5. intros listed z page out H.
  destruct H as [before i s after up page|before i t a kids after up page cl over s inner parts entries out z links SI ST SE RO FP FE PC|before i t a kids after up page cl over s inner parts out z SI ST SE RO FP PC|before i t a kids after up page cl s inner parts out z LT SI LB SE RO FP PC].
  - apply PT.
  - refine (PE before i t a kids after up page cl over s inner parts entries out SI ST SE RO _ _ PC).
    + subst links z. clear -IH FP. revert FP. generalize (inner_spots (Spot before (Tag i t a kids) after :: up)) parts. intros L0 os0 FP. induction FP as [|y o L os S0 FA IHF]; constructor; [split; [exact S0|exact (IH _ _ _ _ S0)]|exact IHF].
    + subst links z. clear -IH FE. revert FE. generalize (filter (listed_at g "after_block") (inner_spots (Spot before (Tag i t a kids) after :: up))) entries. intros L0 os0 FE. induction FE as [|y o L os S0 FA IHF]; constructor; [split; [exact S0|exact (IH _ _ _ _ S0)]|exact IHF].
  - refine (PI before i t a kids after up page cl over s inner parts out SI ST SE RO _ PC).
    subst z. clear -IH FP. revert FP. generalize (inner_spots (Spot before (Tag i t a kids) after :: up)) parts. intros L0 os0 FP. induction FP as [|y o L os S0 FA IHF]; constructor; [split; [exact S0|exact (IH _ _ _ _ S0)]|exact IHF].
  - refine (PL before i t a kids after up page cl s inner parts out LT SI LB SE RO _ PC).
    subst z. clear -IH FP. revert FP. generalize (inner_spots (Spot before (Tag i t a kids) after :: up)) parts. intros L0 os0 FP. induction FP as [|y o L os S0 FA IHF]; constructor; [split; [exact S0|exact (IH _ _ _ _ S0)]|exact IHF].
Qed.
Definition here_clean (z : site) : Prop := match z with Spot _ t _ :: _ => clean_tree t | [] => True end.
Lemma spots_clean : forall kids up before z, Forall clean_tree kids -> In z (spots up before kids) -> here_clean z.
Proof. induction kids as [|t kids IH]; intros up before z H I; [destruct I|]. inversion H; subst. cbn [spots] in I. destruct I as [<-|I]; [assumption|]. refine (IH _ _ _ _ I). assumption. Qed.
Lemma kids_clean : forall i t a kids, clean_tree (Tag i t a kids) -> Forall clean_tree kids.
Proof. intros i t a kids [_ H]. induction kids as [|k r IH]; constructor; [apply H|apply IH, H]. Qed.
Lemma inner_clean : forall z y, here_clean z -> In y (inner_spots z) -> here_clean y.
Proof. intros [|[b t c] up] y H I; [destruct I|]. cbn [inner_spots sp_here] in I. destruct t as [i tg a kids|]; [|destruct I]. refine (spots_clean _ _ _ _ (kids_clean i tg a kids H) I). Qed.
Lemma places_clean : forall t up before after z, clean_tree t -> In z (JudgeSpec.places up before t after) -> here_clean z.
Proof.
  fix IH 1. intros t up before after z H I. destruct t as [i tg a kids|i s]; cbn [JudgeSpec.places] in I; destruct I as [<-|I]; try exact H; [|destruct I].
  apply kids_clean in H. revert I H. generalize (@nil tree) at 2. generalize (Spot before (Tag i tg a kids) after :: up). intros up'. clear -IH. induction kids as [|k r IHK]; intros b I H; [destruct I|]. inversion H; subst.
  apply in_app_or in I as [I|I]; [refine (IH _ _ _ _ _ _ I); assumption|refine (IHK _ I _); assumption].
Qed.
Lemma all_places_clean : forall kids up before z, Forall clean_tree kids -> In z (all_places up before kids) -> here_clean z.
Proof. induction kids as [|t kids IH]; intros up before z H I; [destruct I|]. inversion H; subst. cbn [all_places] in I. apply in_app_or in I as [I|I]; [eapply places_clean; eauto|]. refine (IH _ _ _ _ I). assumption. Qed.
Lemma placed_clean_here : clean_page F -> forall listed z page, placed_in g F listed z page -> here_clean z.
Proof.
  intros C listed z page H. induction H as [z I|z G I|listed z page cl s inner y P IH G R I|before i t a kids after up page cl s inner y z P IH SI G R I].
  - eapply spots_clean; eauto.
  - apply filter_In in I as [I _]. eapply all_places_clean; eauto.
  - eapply inner_clean; eauto.
  - apply filter_In in I as [I _]. eapply inner_clean; eauto.
Qed.
Lemma attr_clean : forall (a : attributes) k x, (forall k v, In (k, Some v) a -> clean v) -> attr k a = Some x -> clean x.
Proof.
  intros a k x H E. unfold attr in E. destruct (dlast (lit k) a) as [v|] eqn:D; [|discriminate]. subst v.
  assert (K : forall (d : attributes) v, dlast (lit k) d = Some v -> exists k', In (k', v) d).
  { clear. induction d as [|[k' w] d IH]; intros v D; cbn [dlast] in D; [discriminate|]. destruct (dlast (lit k) d) as [u|] eqn:E.
    - destruct (IH v) as (k2 & I); [congruence|]. exists k2. now right.
    - destruct (seqb (lit k) k'); [injection D as <-; exists k'; now left|discriminate]. }
  destruct (K _ _ D) as (k' & I). eauto.
Qed.
Hypothesis (SC : sane_case) (NG : clean (g_host g)) (CP : clean_page F) (TP : tidy_page g F).
Lemma link_clean : forall (b : bool) ref i t a kids, clean_tree (Tag i t a kids) -> clean_link (if b then Some (link_context g ref) else None) (Some (link_details g t a)).
Proof.
  intros b ref i t a kids [CA _] e' E. injection E as <-. cbn [link_details le_href le_title le_gopher].
  split; [|split; [|apply target_clean; [exact SC|exact NG|]]]; intros x; apply attr_clean; exact CA.
Qed.
Theorem shows_well : forall listed z page out, shows g F listed z page out -> placed_in g F listed z page -> well out.
Proof.
  assert (EACH : forall (L : list site) b inner os, Forall2 (fun y o => shows g F b y inner o /\ (placed_in g F b y inner -> well o)) L os -> (forall y, In y L -> placed_in g F b y inner) -> Forall well os /\ Forall2 (fun y o => shows g F b y inner o) L os).
  { intros L b inner0 os FA. induction FA as [|y o L os [S W] FA IH]; intros P; [split; constructor|]. destruct IH as [I1 I2]; [intros; apply P; now right|]. split; constructor; auto. apply W, P. now left. }
  apply (shows_nested (fun listed z page out => placed_in g F listed z page -> well out)).
  - intros before i s after up page P. apply well_clean. exact (placed_clean_here CP _ _ _ P).
  - intros before i t a kids after up page cl over s inner parts entries out z links SI ST SE RO FP FE PC P.
    assert (G : given g false z cl s) by (exists over; rewrite SI; auto). pose proof (placed_clean_here CP _ _ _ P) as HC. cbn [here_clean z] in HC.
    destruct (EACH _ _ _ _ FP) as [W1 S1]; [intros y I; eapply in_place; eauto|]. destruct (EACH _ _ _ _ FE) as [W2 S2]; [intros y I; eapply in_list; eauto|].
    destruct (TP false z page cl s inner (concat parts ++ (match links with [] => [] | _ => nl end) ++ concat entries) P G RO) as [PA|(CC & UN & CS)].
    + exists parts. split; [exact S1|]. right. split; [reflexivity|]. exists entries. split; [exact S2|reflexivity].
    + eapply picture_passes; [exact PC|exact PA|]. apply well_app; [now apply well_concat|]. apply well_app; [destruct links; apply well_clean; clean_lit|now apply well_concat].
    + apply well_clean. eapply picture_clean; [exact SC|exact PC|exact UN|exact CS| |exact CC]. intros e' E. discriminate E.
  - intros before i t a kids after up page cl over s inner parts out z SI ST SE RO FP PC P.
    assert (G : given g false z cl s) by (exists over; rewrite SI; auto). pose proof (placed_clean_here CP _ _ _ P) as HC. cbn [here_clean z] in HC.
    destruct (EACH _ _ _ _ FP) as [W1 S1]; [intros y I; eapply in_place; eauto|].
    destruct (TP false z page cl s inner (concat parts) P G RO) as [PA|(CC & UN & CS)].
    + exists parts. split; [exact S1|]. left. reflexivity.
    + eapply picture_passes; [exact PC|exact PA|now apply well_concat].
    + apply well_clean. eapply picture_clean; [exact SC|exact PC|exact UN|exact CS|exact (link_clean true _ i t a kids HC)|exact CC].
  - intros before i t a kids after up page cl s inner parts out z LT SI LB SE RO FP PC P.
    assert (G : given g true z cl s) by (split; auto). pose proof (placed_clean_here CP _ _ _ P) as HC. cbn [here_clean z] in HC.
    destruct (EACH _ _ _ _ FP) as [W1 S1]; [intros y I; eapply in_place; eauto|].
    destruct (TP true z page cl s inner (concat parts) P G RO) as [PA|(CC & UN & CS)].
    + exists parts. split; [exact S1|]. left. reflexivity.
    + eapply picture_passes; [exact PC|exact PA|now apply well_concat].
    + apply well_clean. eapply picture_clean; [exact SC|exact PC|exact UN|exact CS|exact (link_clean true _ i t a kids HC)|exact CC].
Qed.
Theorem page_well : forall out, styled_page g F out -> well out.
Proof.
  intros out (parts & entries & SP & SE & ->).
  assert (W1 : Forall well parts).
  { assert (P : forall z, In z (spots [] [] F) -> placed_in g F false z (g_box g)) by (intros; now apply in_body). revert SP P. clear -SC NG CP TP. intros FA. induction FA; intros P; constructor; [eapply shows_well; [eassumption|apply P; now left]|apply IHFA; intros; apply P; now right]. }
  assert (W2 : Forall well entries).
  { assert (P : forall z, In z (if seqb (g_link g) (lit "footer") then filter (listed_at g "footer") (all_places [] [] F) else []) -> placed_in g F true z (g_box g)).
    { intros z I. destruct (seqb (g_link g) (lit "footer")) eqn:E; [|destruct I]. apply in_foot; [now apply seqb_eq|exact I]. }
    revert SE P. clear -SC NG CP TP. intros FA. induction FA; intros P; constructor; [eapply shows_well; [eassumption|apply P; now left]|apply IHFA; intros; apply P; now right]. }
  assert (W : well (concat parts ++ (match (if seqb (g_link g) (lit "footer") then filter (listed_at g "footer") (all_places [] [] F) else []) with [] => [] | _ => nl end) ++ concat entries)).
  { apply well_app; [now apply well_concat|]. apply well_app; [destruct (if seqb (g_link g) (lit "footer") then _ else _); apply well_clean; clean_lit|now apply well_concat]. }
  destruct W as (m & R & T). exists m. split; [|exact T]. apply finished_reads. exact R.
Qed.
End M.

(** ** Seen from the settings *)
Section N.
Context `{U : Uni}.
Variables (g : cfg) (F : list tree).
Hypothesis (SC : sane_case) (NG : clean (g_host g)).
Lemma inside_trans : forall z x y, inside z x -> inside x y -> inside z y.
Proof. intros z x y H K. induction K; eapply in_deeper; eauto. Qed.
Theorem shows_clean : forall listed z page out, shows g F listed z page out -> here_clean z -> plainly g z -> (forall y, inside z y -> plainly g y) -> clean out.
Proof.
  assert (EACH : forall z L b inner os, here_clean z -> (forall y, In y L -> In y (inner_spots z)) -> (forall y, inside z y -> plainly g y) ->
    Forall2 (fun y o => shows g F b y inner o /\ (here_clean y -> plainly g y -> (forall x, inside y x -> plainly g x) -> clean o)) L os -> Forall clean os).
  { intros z L b inner0 os HC IN PL FA. induction FA as [|y o L os [_ W] FA IH]; constructor.
    - assert (I : In y (inner_spots z)) by (apply IN; now left). apply W; [eapply inner_clean; eauto|apply PL; now apply in_child|]. intros x I2. apply PL. eapply inside_trans; [apply in_child, I|exact I2].
    - apply IH. intros; apply IN. now right. }
  assert (CC : forall os, Forall clean os -> clean (concat os)) by (intros os H; apply reads_nil, all_concat, all_clean, H).
  apply (shows_nested g F (fun listed z page out => here_clean z -> plainly g z -> (forall y, inside z y -> plainly g y) -> clean out)).
  - intros before i s after up page HC _ _. exact HC.
  - intros before i t a kids after up page cl over s inner parts entries out z links SI ST SE RO FP FE PC HC PZ PI.
    destruct (PZ false cl s) as [UN CS]; [exists over; rewrite SI; auto|]. eapply picture_clean; [exact SC|exact PC|exact UN|exact CS| |].
    + intros e' E. discriminate E.
    + apply clean_app. split; [apply CC; eapply EACH; [exact HC| |exact PI|exact FP]; auto|]. apply clean_app. split; [destruct links; clean_lit|]. apply CC. eapply EACH; [exact HC| |exact PI|exact FE]. intros y I. now apply filter_In in I.
  - intros before i t a kids after up page cl over s inner parts out z SI ST SE RO FP PC HC PZ PI.
    destruct (PZ false cl s) as [UN CS]; [exists over; rewrite SI; auto|]. eapply picture_clean; [exact SC|exact PC|exact UN|exact CS|exact (link_clean g SC NG true _ i t a kids HC)|].
    apply CC. eapply EACH; [exact HC| |exact PI|exact FP]. auto.
  - intros before i t a kids after up page cl s inner parts out z LT SI LB SE RO FP PC HC PZ PI.
    destruct (PZ true cl s) as [UN CS]; [split; auto|]. eapply picture_clean; [exact SC|exact PC|exact UN|exact CS|exact (link_clean g SC NG true _ i t a kids HC)|].
    apply CC. eapply EACH; [exact HC| |exact PI|exact FP]. auto.
Qed.
Lemma contents_clean : forall listed z inner content, here_clean z -> (forall y, inside z y -> plainly g y) -> contents g F listed z inner content -> clean content.
Proof.
  intros listed z inner0 content HC PI (parts & FP & R).
  assert (EACH : forall b L os, (forall y, In y L -> In y (inner_spots z)) -> Forall2 (fun y o => shows g F b y inner0 o) L os -> clean (concat os)).
  { intros b L os IN FA. apply reads_nil, all_concat, all_clean. induction FA as [|y o L os S0 FA IH]; constructor; [|apply IH; intros; apply IN; now right].
    assert (I : In y (inner_spots z)) by (apply IN; now left). eapply shows_clean; [exact S0|eapply inner_clean; eauto|apply PI; now apply in_child|]. intros x I2. apply PI. eapply inside_trans; [apply in_child, I|exact I2]. }
  cbv zeta in R. destruct R as [->|(_ & entries & FE & ->)]; [eapply EACH; [|exact FP]; auto|].
  apply clean_app. split; [eapply EACH; [|exact FP]; auto|]. apply clean_app. split; [destruct (filter (listed_at g "after_block") (inner_spots z)); clean_lit|]. eapply EACH; [|exact FE]. intros y I. now apply filter_In in I.
Qed.
Lemma steady_passes : forall k s page content, steady k s -> passes k s page content.
Proof.
  intros k s page content H.
  assert (WF : forall text, (str_set s "justification" (lit "none") \/ exists v, dget (lit "break_long_words") s = Some v /\ truth v = false) -> words_fit s page text).
  { intros text [J|(v & D & T)]; [now left|right]. intros x t cfg qs _ _ WS. cbv zeta. left. destruct WS as (_ & _ & _ & _ & _ & B & _). unfold chosen in B. rewrite D in B. congruence. }
  destruct k; try exact (H page content); destruct H as (A & B & C & D); split; auto; split; auto; split; auto.
Qed.
Theorem steady_tidy : clean_page F -> steady_page g F -> tidy_page g F.
Proof.
  intros CP SP listed z page cl s inner0 content P G RO CO. destruct (SP listed z page cl s P G) as [S0|(UN & CS & PI)]; [left; now apply steady_passes|right]. split; [|auto].
  eapply contents_clean; [|exact PI|exact CO]. exact (placed_clean_here g F CP _ _ _ P).
Qed.
End N.
Close Scope Z_scope.
