(** C77: the setup of a parser. *)
From Verif Require Import BaseFacts StrFacts SetupFacts Fixture.
Open Scope N_scope.

(** C77: the rules are the caller's over the stock ones, in both tables; the entry
    without a selector is the default, and the links that are extracted use the
    entry for "a" where no rule applies. *)
Theorem C77_rules : forall o g, construct o = Ok g -> NoDup (names (o_renderers o)) -> NoDup (names (o_ext o)) ->
  exists all ext rules sels,
    overlay default_table (o_renderers o) all /\ overlay default_ext_table (o_ext o) ext
    /\ In ([], (sels, g_default g)) all
    /\ selecting all rules /\ g_rules g = map (fun e => Rule (fst (snd e)) (snd (snd e))) rules
    /\ g_ext_rules g = map (fun e => Rule (fst (snd e)) (snd (snd e))) ext
    /\ exists asels aspec, In (lit "a", (asels, aspec)) ext /\ g_ext_a g = Some aspec.
Proof.
  intros o g CN N1 N2. unfold construct in CN. destruct (_ && _)%bool in CN; [discriminate|]. destruct (_ && _)%bool in CN; [discriminate|]. cbv zeta in CN.
  assert (D1 : NoDup (names default_table)) by (apply (NoDup_count_occ' (list_eq_dec N.eq_dec)); rewrite <- Forall_forall; repeat constructor).
  assert (D2 : NoDup (names default_ext_table)) by (apply (NoDup_count_occ' (list_eq_dec N.eq_dec)); rewrite <- Forall_forall; repeat constructor).
  pose proof (overlay_dupdate _ _ D1 N1) as O1. pose proof (overlay_dupdate _ _ D2 N2) as O2.
  pose proof (dupdate_NoDup (o_renderers o) default_table D1) as U1.
  remember (dupdate default_table (o_renderers o)) as all eqn:EA. remember (dupdate default_ext_table (o_ext o)) as ext eqn:EE.
  destruct (dget [] all) as [[sels dflt]|] eqn:G; [|discriminate CN]. injection CN as <-.
  exists all, ext, (ddel [] all), sels. split; [exact O1|]. split; [exact O2|]. split; [now apply dget_In|]. split; [now apply selecting_ddel|].
  split; [reflexivity|]. split; [reflexivity|]. cbn [g_ext_a].
  destruct (dget (lit "a") ext) as [[asels aspec]|] eqn:GA; [exists asels, aspec; split; auto; now apply dget_In|].
  exfalso. clear - O2 GA. destruct O2 as (olds & news & R & _ & ->). apply replaced_names in R.
  assert (I : In (lit "a") (names (olds ++ news))) by (rewrite names_app, R; apply in_or_app; left; left; reflexivity).
  apply (dget_In_keys (olds ++ news)) in I. now apply I.
Qed.
(** C77: there is one such table. *)
Theorem C77_one_table : forall (stock own all all' : table), NoDup (names own) -> overlay stock own all -> overlay stock own all' -> all = all'.
Proof. intros stock own all all'. apply overlay_one. Qed.
(** C77: the other options are kept as given; the width is not used. *)
Theorem C77_options : forall o g, construct o = Ok g ->
  g_format g = o_format o /\ g_link g = o_link o /\ g_image g = o_image o /\ g_host g = o_host o /\ g_port g = o_port o /\ g_optimise g = o_optimise o
  /\ forall w, construct (Options w (o_box o) (o_renderers o) (o_ext o) (o_format o) (o_link o) (o_image o) (o_host o) (o_port o) (o_optimise o)) = Ok g.
Proof.
  intros o g CN. pose proof CN as CN'. unfold construct in CN. destruct (_ && _)%bool in CN; [discriminate|]. destruct (_ && _)%bool in CN; [discriminate|]. cbv zeta in CN.
  destruct (dget _ _) as [[? ?]|] in CN; [|discriminate CN]. injection CN as <-. cbn [g_format g_link g_image g_host g_port g_optimise]. repeat split. intros w. exact CN'.
Qed.
(** C77: what a parser made without arguments does. *)
Theorem C77_defaults : exists g, construct default_options = Ok g
  /\ g_format g = lit "text" /\ g_link g = lit "footer" /\ g_image g = lit "inline" /\ g_host g = [] /\ g_port g = 70%Z /\ g_optimise g = true
  /\ b_width (g_box g) = 67%Z /\ Forall (fun s => s = Sides 0 0 0 0)
       [b_margin (g_box g); b_total_margin (g_box g); b_padding (g_box g); b_total_padding (g_box g); b_border (g_box g); b_total_border (g_box g)]
  /\ b_ltp (g_box g) = 0%Z /\ b_total_ltp (g_box g) = 0%Z /\ o_renderers default_options = [] /\ o_ext default_options = [].
Proof. eexists. repeat split. repeat constructor. Qed.
(** C77: the selectors of every rule shipped are those its text says. *)
Lemma texts_checked : forallb (forallb (fun e : str * (list selector * rspec rcls) => seqb (fst e) [] || is_written (fst e) (fst (snd e))))
  (default_table :: default_ext_table :: all_themes) = true.
Proof. vm_compute. reflexivity. Qed.
Theorem C77_texts : forall t k sels spec, In t (default_table :: default_ext_table :: all_themes) -> In (k, (sels, spec)) t -> k <> [] -> css_list k sels.
Proof.
  intros t k sels spec I J N. pose proof texts_checked as T. rewrite forallb_forall in T. specialize (T _ I). rewrite forallb_forall in T. specialize (T _ J). cbn [fst snd] in T.
  apply orb_prop in T as [T|T]; [apply seqb_eq in T; contradiction|]. now apply is_written_ok.
Qed.
(** The stock rules by name. *)
Theorem C77_stock : names default_table = map lit
  [""; "h1"; "h2"; "h3"; "h4"; "h5"; "h6"; "p"; "br"; "blockquote"; "blockquote > p:first-child"; "blockquote > p:last-child";
   "blockquote > p:last-child:first-child"; "pre"; "div"; "ul"; "ol"; "li"; "ol > li"; "li:first-child";
   "li > ol > li:first-child, li > ul > li:first-child"; "dl"; "dt"; "dd"; "dt:first-child"; "code"; "a"; "img"; "em"; "strong";
   "i"; "b"; "u"; "ins"; "s"; "del"; "span"]%string
  /\ names default_ext_table = map lit ["a"; "img"]%string.
Proof. split; reflexivity. Qed.

(** ** Cases *)
Definition own : table :=
  [(lit "p", ([sl (el "p")], RPlain (Some BlockRenderer))); (lit "p.x", ([sl (SClass (el "p") (lit "x"))], RPlain None)); (lit "", ([], RPlain (Some InlineRenderer)))].
Definition own_options : options := Options 20 None own [] (lit "text") (lit "footer") (lit "inline") [] 70 true.
Example own_setup : exists g, construct own_options = Ok g /\ NoDup (names (o_renderers own_options)) /\ NoDup (names (o_ext own_options))
  /\ g_default g = RPlain (Some InlineRenderer) /\ nth_error (g_rules g) 6 = Some (Rule [sl (el "p")] (RPlain (Some BlockRenderer)))
  /\ length (g_rules g) = length default_table.
Proof.
  eexists. split; [reflexivity|]. split; [|split; [constructor|repeat split]]. cbn. repeat constructor; cbn; intuition discriminate.
Qed.
Print Assumptions C77_rules.
Print Assumptions C77_one_table.
Print Assumptions C77_options.
Print Assumptions C77_defaults.
Print Assumptions C77_texts.
Print Assumptions C77_stock.
Close Scope N_scope.
