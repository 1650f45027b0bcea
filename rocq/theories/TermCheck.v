(** Pages that are tidy by their tables. *)
From Verif Require SetFacts SgrFacts AnsiFacts ToolFacts FormatProps.
From Verif Require Import WrapFacts WrapLoop WrapWidth.
From Verif Require Import BaseFacts StrFacts SelFacts SettingsFacts DressFacts StyleRules StyleShow SafeMain SafeCheck ShapeMain.
From Verif Require Export TermMain.
Open Scope Z_scope.

Section C.
Context `{U : Uni}.
Variables (g : cfg) (F : list tree).
Hypothesis (SC : sane_case) (NG : clean (g_host g)) (TT : tidy_tables g).

(** ** What is given *)
Lemma label_clean : forall t n label, clean t -> formats [FInt n; FStr (lit "{}")] [] t label -> clean label.
Proof. intros t n label C H. eapply formats_clean; [exact H| |constructor|exact C]. constructor; [apply fint_clean|]. constructor; [unfold clean_arg; clean_lit|constructor]. Qed.
Lemma marks_clean : forall n, clean (copies n (lit "#")). Proof. intros n. apply copies_clean. clean_lit. Qed.
Lemma settled_clean : forall cl tg index over s, clean_settings (class_settings cl) -> clean_settings over -> settled cl tg index over s -> clean_settings s.
Proof.
  intros cl tg index over s C O (under & above & CO & S) key v E. rewrite S in E. cbn [inherited] in E.
  assert (AU : clean_settings above /\ clean_settings under).
  { assert (E0 : clean_settings []) by (intros k w D; discriminate D).
    assert (E1 : forall n x, clean x -> clean_settings [(n, VStr x)]) by (intros n x X k w D; cbn [dget] in D; destruct (seqb k n); [injection D as <-; exact X|discriminate D]).
    unfold computed in CO. destruct (rc_kind cl); try (destruct CO as [-> ->]; auto; fail).
    - destruct CO as (m & (c & d & w & rest & _ & _ & ->) & -> & ->). split; auto. apply E1. apply clean_app. split; [apply marks_clean|]. apply clean_app. split; [clean_lit|apply marks_clean].
    - destruct CO as (label & (t & st & sp & T & _ & _ & FM) & -> & ->). split; auto. apply E1. eapply label_clean; [|exact FM]. exact (C _ _ T). }
  destruct AU as [CA CU]. destruct (dget key above) as [w|] eqn:D1; [injection E as <-; eauto|]. destruct (dget key over) as [w|] eqn:D2; [injection E as <-; eauto|]. destruct (dget key under) as [w|] eqn:D3; [injection E as <-; eauto|]. destruct (dget key (class_settings cl)) as [w|] eqn:D4; [injection E as <-; eauto|discriminate].
Qed.
Definition flow_settings (s : settings) : Prop := forall key v, dget key s = Some v -> flow_value key v.
Lemma settled_flow : forall cl tg index over s, flows (rc_kind cl) -> flow_settings (class_settings cl) -> flow_settings over -> settled cl tg index over s -> flow_settings s.
Proof.
  intros cl tg index over s FL C O (under & above & CO & S) key v E. rewrite S in E. cbn [inherited] in E.
  assert (AU : above = [] /\ under = []) by (unfold computed in CO; destruct (rc_kind cl); try contradiction; destruct CO; auto). destruct AU as [-> ->]. cbn [dget] in E.
  destruct (dget key over) as [w|] eqn:D2; [injection E as <-; eauto|]. destruct (dget key (class_settings cl)) as [w|] eqn:D4; [injection E as <-; eauto|discriminate].
Qed.
Lemma settled_keeps : forall cl tg index over s key, settled cl tg index over s -> dget key (class_settings cl) <> None -> exists v, dget key s = Some v.
Proof.
  intros cl tg index over s key (under & above & _ & S) N. rewrite S. cbn [inherited]. destruct (dget key above); [eauto|]. destruct (dget key over); [eauto|]. destruct (dget key under); [eauto|]. destruct (dget key (class_settings cl)); [eauto|congruence].
Qed.
Lemma given_tidy : forall listed z cl s, given g listed z cl s ->
  clean_settings s /\ (flows (rc_kind cl) -> flow_settings s)
  /\ match rc_kind cl with KInline | KAnsi => exists v, dget (lit "capitalized") s = Some v | KOwn _ | KOwnBlock _ => False | _ => True end.
Proof.
  intros listed z cl s G. destruct z as [|[before [i t a kids|] after] up]; try contradiction. cbn [given] in G.
  assert (ALL : forall r over, in_table g r \/ in_list_table g r -> names r cl -> (forall key v, dget key over = Some v -> exists r', in_table g r' /\ rule_setting key r' = Some v) -> settled cl t (length before) over s ->
    clean_settings s /\ (flows (rc_kind cl) -> flow_settings s)
    /\ match rc_kind cl with KInline | KAnsi => exists v, dget (lit "capitalized") s = Some v | KOwn _ | KOwnBlock _ => False | _ => True end).
  { intros r over R N OV S. destruct (tt_classes _ TT r cl R N) as (C1 & C2 & C3). split; [|split].
    - eapply settled_clean; [exact C1| |exact S]. intros key v D. destruct (OV _ _ D) as (r' & R' & E'). apply (tt_rules _ TT _ _ _ R' E').
    - intros FL. eapply settled_flow; [exact FL|exact (C2 FL)| |exact S]. intros key v D. destruct (OV _ _ D) as (r' & R' & E'). apply (tt_rules _ TT _ _ _ R' E').
    - destruct (rc_kind cl); auto; eapply settled_keeps; eauto. }
  destruct listed.
  - destruct G as [L S]. destruct (listed_from g _ _ L) as (r & R & N). eapply ALL; [right; exact R|exact N| |exact S]. discriminate.
  - destruct G as (over & ST & S). destruct (styled_from g _ _ _ ST) as [(r & R & N) OV]. eapply ALL; [left; exact R|exact N| |exact S]. destruct (shown_inline g t); [discriminate|exact OV].
Qed.
Lemma flow_steady : forall k s, flows k -> clean_settings s -> flow_settings s -> match k with KInline | KAnsi => exists v, dget (lit "capitalized") s = Some v | _ => True end -> steady k s.
Proof.
  intros k s FL CS FS CA.
  assert (T : forall x t, In x ["template"; "line_template"; "block_template"; "inline_template"]%string -> template_set s x t -> around t).
  { intros x t I D. exact (proj1 (FS _ _ D) x t I eq_refl eq_refl). }
  assert (CF : clean_frame s) by (intros v D; eauto).
  assert (SW : (exists v, dget (lit "capitalized") s = Some v) -> switched s "capitalized" false).
  { intros (v & D). exists v. split; auto. exact (proj1 (proj2 (FS _ _ D)) eq_refl). }
  assert (RC : forall x, In x ["foreground_colour"; "background_colour"]%string -> real_colour s x).
  { intros x I v D. exact (proj2 (proj2 (FS _ _ D)) x I eq_refl). }
  destruct k; try contradiction; unfold steady; intros page content; cbn [passes]; repeat split; auto; try (intros t D; eapply T; [|exact D]; cbn [In]; tauto); try (apply RC; cbn [In]; tauto).
Qed.
Theorem tables_steady : kept_apart g F -> steady_page g F.
Proof.
  intros KA listed z page cl s P G. destruct (given_tidy _ _ _ _ G) as (CS & FS & X). destruct (KA listed z page cl s P G) as [FL|AP].
  - left. apply flow_steady; auto. destruct (rc_kind cl); auto.
  - assert (PL : forall y, inside z y -> plainly g y).
    { intros y I l' cl' s' G'. destruct (given_tidy _ _ _ _ G') as (CS' & _ & X'). split; auto. pose proof (AP y l' cl' s' I G') as NA. destruct (rc_kind cl'); cbn [unstyling]; auto. }
    destruct (rc_kind cl) eqn:EK; try (right; split; [exact Logic.I|split; [exact CS|exact PL]]); try contradiction. left. apply flow_steady; [exact Logic.I|auto|apply FS; exact Logic.I|auto].
Qed.
Theorem page_clean : clean_page F -> unstyled_page g F -> forall out, styled_page g F out -> clean out.
Proof.
  intros CP UP out (parts & entries & SP & SE & ->).
  assert (PL : forall y, In y (all_places [] [] F) -> plainly g y).
  { intros y I l' cl' s' G'. destruct (given_tidy _ _ _ _ G') as (CS' & _ & X'). split; auto. pose proof (UP y l' cl' s' I G') as NA. destruct (rc_kind cl'); cbn [unstyling]; auto. }
  assert (INS : forall z y, inside z y -> In z (all_places [] [] F) -> In y (all_places [] [] F)) by (intros z y H; induction H; intros; (eapply inner_in_all; [|eassumption]); auto).
  assert (ONE : forall b z page o, In z (all_places [] [] F) -> here_clean z -> shows g F b z page o -> clean o).
  { intros b z page o I HC S0. eapply shows_clean; [exact SC|exact NG|exact S0|exact HC|now apply PL|]. intros y IY. apply PL. eauto. }
  assert (ALL : forall b page L os, (forall z, In z L -> In z (all_places [] [] F) /\ here_clean z) -> Forall2 (fun y o => shows g F b y page o) L os -> clean (concat os)).
  { intros b page L os IN FA. apply reads_nil, all_concat, all_clean. induction FA as [|y o L os S0 FA IH]; constructor; [destruct (IN y (or_introl eq_refl)); eauto|]. apply IH. intros; apply IN; now right. }
  apply reads_nil, finished_reads, reads_clean. apply clean_app. split; [|apply clean_app; split].
  - eapply ALL; [|exact SP]. intros z I. split; [now apply spots_in_all|]. exact (placed_clean_here g F CP _ _ _ (in_body _ _ _ I)).
  - destruct (if seqb (g_link g) (lit "footer") then _ else _); clean_lit.
  - eapply ALL; [|exact SE]. intros z I. destruct (seqb (g_link g) (lit "footer")) eqn:E; [|destruct I]. split; [now apply filter_In in I|]. apply seqb_eq in E. exact (placed_clean_here g F CP _ _ _ (in_foot _ _ _ E I)).
Qed.
End C.

(** ** Deciding it *)
Section D.
Context `{U : Uni}.
Definition free (cs : list N) (s : str) : bool := forallb (fun c => negb (existsb (N.eqb c) cs)) s.
Lemma free_in : forall cs s c, free cs s = true -> In c s -> ~ In c cs.
Proof. intros cs s c H I K. unfold free in H. rewrite forallb_forall in H. specialize (H c I). apply negb_true_iff in H. assert (X : existsb (N.eqb c) cs = true) by (apply existsb_exists; exists c; split; [exact K|apply N.eqb_refl]). congruence. Qed.
Definition clean_check (s : str) : bool := free [27%N] s.
Lemma clean_checked : forall s, clean_check s = true -> clean s. Proof. intros s H K. exact (free_in _ _ _ H K (or_introl eq_refl)). Qed.
Definition around_check (t : str) : bool :=
  let '(a, f, r) := partition 123 t in
  f && free [27; 123; 125]%N a && match r with 125%N :: b => free [27; 123; 125]%N b | _ => false end.
Lemma part_put : forall c s, snd (fst (partition c s)) = true -> s = fst (fst (partition c s)) ++ [c] ++ snd (partition c s).
Proof.
  intros c s. induction s as [|x s IH]; [discriminate|]. cbn [partition]. destruct (N.eqb_spec x c) as [->|]; [reflexivity|]. destruct (partition c s) as [[h f] t]. cbn [fst snd] in *. intros H. rewrite (IH H) at 1. reflexivity.
Qed.
Lemma around_checked : forall t, around_check t = true -> around t.
Proof.
  intros t H. unfold around_check in H. pose proof (part_put 123 t) as PP. destruct (partition 123 t) as [[a f] r]. cbn [fst snd] in PP. apply andb_prop in H as [H H2]. apply andb_prop in H as [H1 Ha]. specialize (PP H1).
  destruct r as [|c b]; [discriminate|]. assert (Ec : c = 125%N) by (repeat (destruct c as [|c]; try discriminate H2); repeat (destruct c; try discriminate H2); reflexivity). subst c.
  assert (BR : forall x, free [27; 123; 125]%N x = true -> FormatProps.braceless x /\ clean x).
  { intros x X. split; [|intros K; exact (free_in _ _ _ X K (or_introl eq_refl))]. intros c I O. refine (free_in _ _ _ X I _). vm_compute in O. cbn [In]. tauto. }
  destruct (BR _ Ha) as [B1 C1], (BR _ H2) as [B2 C2]. intros x out FO. exists a, b. split; [exact C1|]. split; [exact C2|]. eapply formats_fun; [exact FO|]. rewrite PP. exact (FormatProps.C84_verbatim a b x B1 B2).
Qed.
Fixpoint value_clean_check (v : val) : bool :=
  match v with
  | VStr x => clean_check x
  | VList l | VTuple l => (fix go l := match l with [] => true | v :: r => value_clean_check v && go r end) l
  | VDict d => (fix go d := match d with [] => true | (_, v) :: r => value_clean_check v && go r end) d
  | _ => true
  end.
Fixpoint value_cleaned (v : val) : value_clean_check v = true -> clean_value v.
Proof.
  destruct v; try (intros; exact Logic.I); cbn [value_clean_check clean_value].
  - apply clean_checked.
  - induction l as [|v l IH]; [auto|]. intros H. apply andb_prop in H as [H1 H2]. split; [now apply value_cleaned|now apply IH].
  - induction l as [|v l IH]; [auto|]. intros H. apply andb_prop in H as [H1 H2]. split; [now apply value_cleaned|now apply IH].
  - match goal with d : list (str * val) |- _ => rename d into l | d : dict val |- _ => rename d into l end. induction l as [|[k v] l IH]; [auto|]. intros H. apply andb_prop in H as [H1 H2]. split; [now apply value_cleaned|now apply IH].
Qed.
Definition flow_check (p : str * val) : bool :=
  let among ks := existsb (fun k => seqb (fst p) (lit k)) ks in
  (negb (among ["template"; "line_template"; "block_template"; "inline_template"]%string) || match snd p with VStr t => around_check t | _ => true end)
  && (negb (among ["capitalized"]%string) || negb (truth (snd p)))
  && (negb (among ["foreground_colour"; "background_colour"]%string) || negb (truth (snd p)) || match ToolFacts.colour_of (snd p) with Some _ => true | None => false end).
Lemma flow_checked : forall p, flow_check p = true -> flow_value (fst p) (snd p).
Proof.
  intros [key v] H. unfold flow_check in H. cbv zeta in H. cbn [fst snd] in *. apply andb_prop in H as [H H3]. apply andb_prop in H as [H1 H2].
  assert (AM : forall k ks, In k ks -> existsb (fun k0 => seqb (lit k) (lit k0)) ks = true) by (intros k ks I; apply existsb_exists; exists k; split; [exact I|now apply seqb_eq]).
  split; [|split].
  - intros k t I -> ->. rewrite (AM k _ I) in H1. now apply around_checked.
  - intros ->. rewrite (AM "capitalized"%string ["capitalized"%string] (or_introl eq_refl)) in H2. now apply negb_true_iff in H2.
  - intros k I -> T. rewrite (AM k _ I), T in H3. cbn [negb orb] in H3. destruct (ToolFacts.colour_of v) as [c|] eqn:E; [|discriminate]. exists c. exact (proj1 (ToolFacts.colour_of_sound _ _ E)).
Qed.
Definition clean_pairs (s : settings) : bool := forallb (fun p => value_clean_check (snd p)) s.
Lemma pair_of_key : forall (s : settings) key v, dget key s = Some v -> In (key, v) s.
Proof. intros s key v. induction s as [|[k w] s IH]; cbn [dget]; [discriminate|]. destruct (seqb_spec key k) as [->|]; [intros E; injection E as ->; now left|right; auto]. Qed.
Lemma clean_paired : forall s, clean_pairs s = true -> clean_settings s.
Proof. intros s H key v D. apply pair_of_key in D. unfold clean_pairs in H. rewrite forallb_forall in H. exact (value_cleaned _ (H _ D)). Qed.
Definition flowsb (k : kind) : bool := match k with KRenderer | KNon | KInline | KAnsi | KCode | KBreak | KBlock | KPre | KQuote => true | _ => false end.
Definition tidy_class (cl : rcls) : bool :=
  clean_pairs (class_settings cl) && (negb (flowsb (rc_kind cl)) || forallb flow_check (class_settings cl))
  && match rc_kind cl with
     | KInline | KAnsi => match dget (lit "capitalized") (class_settings cl) with Some _ => true | None => false end
     | KOwn _ | KOwnBlock _ => false
     | _ => true
     end.
Definition specs_of (g : cfg) : list (rspec rcls) := g_default g :: map (@ru_spec rcls) (g_rules g).
Definition list_specs_of (g : cfg) : list (rspec rcls) := (match g_ext_a g with Some r => [r] | None => [] end) ++ map (@ru_spec rcls) (g_ext_rules g).
Definition tidy_check (g : cfg) : bool :=
  forallb (fun r => match rule_renderer r with Some cl => tidy_class cl | None => true end) (specs_of g ++ list_specs_of g)
  && forallb (fun r => match r with RPair _ (Some s) => clean_pairs s && forallb flow_check s | _ => true end) (specs_of g).
Lemma specs_in : forall g r, in_table g r -> In r (specs_of g).
Proof. intros g r [->|(ru & J & ->)]; [now left|]. right. now apply in_map. Qed.
Lemma list_specs_in : forall g r, in_list_table g r -> In r (list_specs_of g).
Proof. intros g r J. apply in_or_app. destruct J as [->|(ru & J & ->)]; [left; now left|]. right. now apply in_map. Qed.
Lemma tidy_checked : forall g, tidy_check g = true -> tidy_tables g.
Proof.
  intros g H. unfold tidy_check in H. apply andb_prop in H as [H1 H2]. rewrite forallb_forall in H1, H2. split.
  - intros r cl R N. assert (I : In r (specs_of g ++ list_specs_of g)) by (apply in_or_app; destruct R; [left; now apply specs_in|right; now apply list_specs_in]). specialize (H1 r I). unfold names in N. rewrite N in H1.
    unfold tidy_class in H1. apply andb_prop in H1 as [H1 H5]. apply andb_prop in H1 as [H3 H4]. split; [now apply clean_paired|]. split.
    + intros FL key v D. assert (FB : flowsb (rc_kind cl) = true) by (destruct (rc_kind cl); auto; contradiction). rewrite FB in H4. cbn [negb orb] in H4. rewrite forallb_forall in H4. exact (flow_checked (key, v) (H4 _ (pair_of_key _ _ _ D))).
    + destruct (rc_kind cl); auto; try discriminate; destruct (dget (lit "capitalized") (class_settings cl)); congruence.
  - intros r key v R E. specialize (H2 r (specs_in _ _ R)). destruct r as [|c [s|]]; try discriminate E. cbn [rule_setting] in E. apply andb_prop in H2 as [H3 H4]. split; [exact (clean_paired _ H3 _ _ E)|]. rewrite forallb_forall in H4. exact (flow_checked (key, v) (H4 _ (pair_of_key _ _ _ E))).
Qed.
Definition no_ansi (g : cfg) : bool := forallb (fun r => match rule_renderer r with Some cl => match rc_kind cl with KAnsi => false | _ => true end | None => true end) (specs_of g ++ list_specs_of g).
Lemma no_ansi_page : forall g F, no_ansi g = true -> unstyled_page g F.
Proof.
  intros g F H z listed cl s _ G K. unfold no_ansi in H. rewrite forallb_forall in H. destruct z as [|[before [i t a kids|] after] up]; try contradiction. cbn [given] in G.
  assert (X : exists r, In r (specs_of g ++ list_specs_of g) /\ names r cl).
  { destruct listed; [destruct G as [L _]; destruct (listed_from g _ _ L) as (r & R & N); exists r; split; [apply in_or_app; right; now apply list_specs_in|exact N]|].
    destruct G as (over & ST & _). destruct (styled_from g _ _ _ ST) as [(r & R & N) _]. exists r. split; [apply in_or_app; left; now apply specs_in|exact N]. }
  destruct X as (r & I & N). specialize (H r I). unfold names in N. rewrite N, K in H. discriminate.
Qed.
(** ** Styling by class *)
Fixpoint classy (s : sel) : bool :=
  match s with
  | SClass _ _ => true
  | SHash s1 _ | SNegation s1 _ | SAttrib s1 _ _ _ | SPseudo s1 _ => classy s1
  | SCombined _ _ s2 => classy s2
  | _ => false
  end.
Lemma classy_marked : forall s z, classy s = true -> judged s z Yes -> marked z.
Proof.
  intros s z. destruct z as [|[before [i t a kids|] after] up]; try (destruct s; intros _ H; discriminate H). intros C J.
  exists before, i, t, a, kids, after, up. split; [reflexivity|]. revert C J. induction s; intros C J; cbn [classy] in C; cbn [judged] in J; unfold provided, and_then in J; try discriminate.
  - destruct J as [[(x & ws & E & _) _]|[_ J]]; [congruence|discriminate].
  - destruct J as [[_ J]|[_ J]]; [auto|discriminate].
  - destruct J as [[J _]|[_ J]]; [auto|congruence].
  - destruct J as [[J _]|[_ J]]; [auto|congruence].
  - destruct J as [[_ J]|[_ J]]; [auto|discriminate].
  - destruct J as [[_ J]|[_ J]]; [|discriminate]. destruct J as [[J _]|[_ J]]; [auto|congruence].
Qed.
Definition ansib (cl : rcls) : bool := match rc_kind cl with KAnsi => true | _ => false end.
Definition apart_check (g : cfg) : bool :=
  match rule_renderer (g_default g) with Some cl => flowsb (rc_kind cl) && negb (ansib cl) | None => true end
  && forallb (fun ru => match rule_renderer (ru_spec ru) with
       | Some cl => (flowsb (rc_kind cl) || forallb (fun s => match subject (sl_tree s) with Some n => existsb (fun k => seqb n (lit k)) laid_tags | None => false end) (ru_sel ru))
                    && (negb (ansib cl) || forallb (fun s => classy (sl_tree s)) (ru_sel ru))
       | None => true end) (g_rules g)
  && forallb (fun r => match rule_renderer r with Some cl => negb (ansib cl) | None => true end) (list_specs_of g).
Lemma flowsb_iff : forall k, flowsb k = true <-> flows k. Proof. intros k. destruct k; cbn; split; auto; try discriminate; contradiction. Qed.
Lemma apart_checked : forall g F, apart_check g = true -> set_apart F -> kept_apart g F.
Proof.
  intros g F H SA. unfold apart_check in H. apply andb_prop in H as [H H3]. apply andb_prop in H as [H1 H2]. rewrite forallb_forall in H2, H3.
  assert (AN : forall y listed cl s, given g listed y cl s -> rc_kind cl = KAnsi -> marked y).
  { intros y listed cl s G K. assert (A : ansib cl = true) by (unfold ansib; now rewrite K). destruct y as [|[before [i t a kids|] after] up]; try contradiction. cbn [given] in G. destruct listed.
    - destruct G as [L _]. destruct (listed_from g _ _ L) as (r & R & N). specialize (H3 r (list_specs_in _ _ R)). unfold names in N. rewrite N, A in H3. discriminate.
    - destruct G as (over & [[(k & ru & sp & N & R & E & _) _]|[_ D]] & _).
      + apply nth_error_In in N. specialize (H2 ru N). cbv beta in H2. rewrite E, A in H2. cbn [negb orb] in H2. apply andb_prop in H2 as [_ H2]. rewrite forallb_forall in H2. destruct R as (x & I & J & _). exact (classy_marked _ _ (H2 x I) J).
      + exfalso. assert (E : rule_renderer (g_default g) = Some cl) by (destruct (g_default g); destruct D as [-> _]; reflexivity). rewrite E, A in H1. cbn [negb] in H1. rewrite andb_false_r in H1. discriminate. }
  intros listed z page cl s P G.
  assert (LA : flows (rc_kind cl) \/ lays_text z).
  { destruct z as [|[before [i t a kids|] after] up]; try contradiction. destruct listed.
    - right. pose proof (placed_link g F _ _ P) as L. cbn [at_link] in L. apply orb_prop in L. destruct L as [L|L]; apply seqb_eq in L; subst t.
      + exists before, i, "a"%string, a, kids, after, up. split; [cbn [laid_tags In]; tauto|reflexivity].
      + exists before, i, "img"%string, a, kids, after, up. split; [cbn [laid_tags In]; tauto|reflexivity].
    - cbn [given] in G. destruct G as (over & [[(k & ru & sp & N & R & E & _) _]|[_ D]] & _).
      + apply nth_error_In in N. specialize (H2 ru N). cbv beta in H2. rewrite E in H2. apply andb_prop in H2 as [H2 _]. apply orb_prop in H2 as [H2|H2]; [left; now apply flowsb_iff|right].
        rewrite forallb_forall in H2. destruct R as (x & I & J & _). specialize (H2 x I). destruct (subject (sl_tree x)) as [n|] eqn:ES; [|discriminate]. pose proof (subject_judged _ _ _ _ _ _ _ _ _ J ES) as ->.
        apply existsb_exists in H2 as (m & IM & EM). apply seqb_eq in EM. subst n. exists before, i, m, a, kids, after, up. auto.
      + left. assert (E : rule_renderer (g_default g) = Some cl) by (destruct (g_default g); destruct D as [-> _]; reflexivity). rewrite E in H1. apply andb_prop in H1 as [H1 _]. now apply flowsb_iff. }
  destruct LA as [FL|LA]; [now left|right]. intros y l' cl' s' I G' K. exact (SA z y (placed_all g F _ _ _ P) LA I (AN _ _ _ _ G' K)).
Qed.
End D.
Close Scope Z_scope.
