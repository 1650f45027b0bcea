(** Link targets and item types (C44, C45).  Spec: UrlSpec.v. *)
From Verif Require Import BaseFacts UrlFacts Fixture.
Open Scope N_scope.

(** C44: any scheme other than gopher gives a web link to the local server. *)
Theorem C44_web : forall (U : Uni) h s rest host prt link,
  clean h -> with_scheme h s rest -> lower s <> lit "gopher" ->
  parse_href (Some h) host prt = Ok link ->
  link = GLink (lit "h") (lit "URL:" ++ h) (Some host) (Some prt).
Proof.
  intros U h s rest host prt link HC HS NG H. unfold parse_href in H.
  rewrite (urlparse_clean h HC) in H. rewrite (split_scheme_some h s rest HS) in H. cbn [fst snd] in H.
  inv_bind H. match goal with E : url_rest _ _ = Ok _ |- _ => rewrite (url_rest_scheme _ _ _ E) in H end.
  rewrite (proj2 (seqb_neq _ _) NG) in H.
  rewrite (proj2 (seqb_neq _ _) (lower_alpha s (proj2 HS))) in H.
  destruct (_ || _)%bool in H; injection H as <-; reflexivity.
Qed.
(** ... and such a link is never refused when it is ASCII without brackets. *)
Theorem C44_web_accepted : forall (U : Uni) h s rest host prt,
  clean h -> with_scheme h s rest -> lower s <> lit "gopher" ->
  Forall (fun c => c < 128) h -> ~ In 91 h -> ~ In 93 h ->
  exists link, parse_href (Some h) host prt = Ok link.
Proof.
  intros U h s rest host prt HC HS NG HA H1 H3. unfold parse_href.
  rewrite (urlparse_clean h HC). rewrite (split_scheme_some h s rest HS). cbn [fst snd].
  destruct HS as [-> HS]. apply Forall_app in HA as [_ HA]. inversion HA; subst.
  destruct (url_rest_ok (lower s) rest) as [p E]; auto.
  - intros I. apply H1, in_or_app. right. now right.
  - intros I. apply H3, in_or_app. right. now right.
  - rewrite E. cbn [bind]. rewrite (url_rest_scheme _ _ _ E).
    rewrite (proj2 (seqb_neq _ _) NG). rewrite (proj2 (seqb_neq _ _) (lower_alpha s HS)).
    destruct (_ || _)%bool; eauto.
Qed.

(** C44: a relative reference keeps its path on the local server.
    Partial: without path parameters (a semicolon), see the refutation below. *)
Theorem C44_relative_partial : forall (U : Uni) h p host prt,
  clean h -> (forall s rest, ~ with_scheme h s rest) -> (forall r, h <> 47 :: 47 :: r) ->
  path_then h p -> ~ In 59 p ->
  exists t, parse_href (Some h) host prt = Ok (GLink t p (Some host) (Some prt)).
Proof.
  intros U h p host prt HC HS HN HP H59. unfold parse_href.
  rewrite (urlparse_clean h HC), (split_scheme_none h HS). cbn [fst snd].
  assert (A : authority h = ([], h, false)).
  { unfold authority. destruct h as [|a [|b r]]; auto.
    - destruct a as [|[[[[[[]|[]|]|[[]|[]|]|]|[[]|[]|]|]|[[]|[]|]|]|[[]|[]|]|]]; reflexivity.
    - destruct (N.eq_dec a 47) as [->|NA]; [destruct (N.eq_dec b 47) as [->|NB]|].
      + now destruct (HN r).
      + destruct b as [|[[[[[[]|[]|]|[[]|[]|]|]|[[]|[]|]|]|[[]|[]|]|]|[[]|[]|]|]]; try reflexivity; congruence.
      + destruct a as [|[[[[[[]|[]|]|[[]|[]|]|]|[[]|[]|]|]|[[]|[]|]|]|[[]|[]|]|]]; try reflexivity; congruence. }
  unfold url_rest. rewrite A. cbn [has_char existsb xorb andb is_ascii forallb negb].
  rewrite (path_cut h p HP), (has_char_absent 59 p H59), Bool.andb_false_r. cbn [bind pu_scheme pu_path].
  change (seqb [] (lit "http") || seqb [] (lit "https"))%bool with false.
  change (seqb [] (lit "gopher")) with false. change (seqb [] []) with true. cbv iota. eauto.
Qed.

(** C44: gopher URLs with a port. *)
Theorem C44_gopher_partial : forall (U : Uni) sch host ds prt tail p lhost lport,
  lower sch = lit "gopher" -> is_scheme sch -> is_host host ->
  ds <> [] -> decimal 0 ds = Some prt -> (prt <= 65535)%Z ->
  path_then tail p -> (tail = [] \/ exists c r, tail = c :: r /\ In c [47; 63; 35]) ->
  clean (sch ++ lit "://" ++ host ++ lit ":" ++ ds ++ tail) ->
  exists t, parse_href (Some (sch ++ lit "://" ++ host ++ lit ":" ++ ds ++ tail)) lhost lport
    = Ok (GLink t p (Some (lower host)) (Some prt)).
Proof.
  intros U sch host ds prt tail p lhost lport HG HS HH HD HV HB HP HT HC.
  unfold parse_href. rewrite (urlparse_clean _ HC).
  rewrite (split_scheme_some _ sch (47 :: 47 :: (host ++ 58 :: ds) ++ tail)).
  2:{ split; auto. change (lit "://") with [58; 47; 47]. change (lit ":") with [58]. cbn [app]. now rewrite <- app_assoc. }
  cbn [fst snd].
  assert (DD : Forall (fun c => 48 <= c <= 57) ds).
  { clear -HV. revert HV. change 0%Z with (Z.of_N 0). generalize 0. intros acc. generalize (Z.of_N acc). clear acc.
    induction ds as [|c r IH]; intros acc H; [constructor|]. cbn [decimal] in H.
    destruct ((48 <=? c) && (c <=? 57))%bool eqn:E; [|discriminate].
    apply andb_true_iff in E as [E1 E2]. apply N.leb_le in E1, E2. constructor; [lia|eauto]. }
  rewrite (url_rest_netloc (lower sch) (host ++ 58 :: ds) tail p).
  - cbn [bind pu_scheme pu_netloc pu_path]. rewrite HG.
    change (seqb (lit "gopher") (lit "http") || seqb (lit "gopher") (lit "https"))%bool with false.
    rewrite seqb_refl. cbv iota.
    destruct (hostinfo_plain host ds HH DD) as [HI _].
    rewrite (hostname_plain host HH) by now rewrite HI. unfold port. rewrite HI. cbn [snd].
    destruct ds as [|d ds]; [congruence|].
    destruct (decimal_val (d :: ds) 0 prt HV) as (m & -> & ->).
    rewrite (proj2 (N.leb_le m 65535)) by lia. cbn [bind]. eauto.
  - apply Forall_app. split.
    + destruct HH as [_ HH]. eapply Forall_impl; [|exact HH]. auto.
    + constructor; auto. eapply Forall_impl; [|exact DD]. cbv beta. intros a Ha. left. split; [lia|]. cbn [In].
      intros [E|[E|[E|[E|[E|[E|[E|[E|[]]]]]]]]]; lia.
  - destruct HT as [->|(c & r & -> & I)]; auto. right. exists c, r. split; auto.
    unfold netloc_delim. cbn [In] in I. destruct I as [<-|[<-|[<-|[]]]]; reflexivity.
  - exact HP.
  - intros I. exfalso. rewrite HG in I. apply smem_In in I. discriminate I.
Qed.
(** C44: without a port the link has no port at all, so the claim that it gets
    the gopher port fails for every such URL. *)
Theorem C44_default_port_refuted : forall (U : Uni) sch host tail p lhost lport,
  lower sch = lit "gopher" -> is_scheme sch -> is_host host ->
  path_then tail p -> (tail = [] \/ exists c r, tail = c :: r /\ In c [47; 63; 35]) ->
  clean (sch ++ lit "://" ++ host ++ tail) ->
  exists t, parse_href (Some (sch ++ lit "://" ++ host ++ tail)) lhost lport
    = Ok (GLink t p (Some (lower host)) None).
Proof.
  intros U sch host tail p lhost lport HG HS HH HP HT HC.
  unfold parse_href. rewrite (urlparse_clean _ HC).
  rewrite (split_scheme_some _ sch (47 :: 47 :: host ++ tail)) by (split; auto).
  cbn [fst snd].
  rewrite (url_rest_netloc (lower sch) host tail p).
  - cbn [bind pu_scheme pu_netloc pu_path]. rewrite HG.
    change (seqb (lit "gopher") (lit "http") || seqb (lit "gopher") (lit "https"))%bool with false.
    rewrite seqb_refl. cbv iota.
    destruct (hostinfo_plain host [] HH (Forall_nil _)) as [_ HI].
    rewrite (hostname_plain host HH) by now rewrite HI. unfold port. rewrite HI. cbn [snd bind]. eauto.
  - destruct HH as [_ HH]. eapply Forall_impl; [|exact HH]. auto.
  - destruct HT as [->|(c & r & -> & I)]; auto. right. exists c, r. split; auto.
    unfold netloc_delim. cbn [In] in I. destruct I as [<-|[<-|[<-|[]]]]; reflexivity.
  - exact HP.
  - intros I. exfalso. rewrite HG in I. apply smem_In in I. discriminate I.
Qed.
(** C44: path parameters of a relative link are dropped. *)
Theorem C44_parameters_refuted : forall U : Uni, exists h p, clean h /\ path_then h p
  /\ (forall s rest, ~ with_scheme h s rest) /\ (forall r, h <> 47 :: 47 :: r)
  /\ forall t host prt, parse_href (Some h) host prt <> Ok (GLink t p (Some host) (Some prt)).
Proof.
  intros U. exists (lit "a;b.txt"), (lit "a;b.txt"). split; [|split; [|split; [|split]]].
  - repeat split; try (intros I; vm_compute in I; intuition discriminate).
    intros c r E. vm_compute in E. injection E as <- _. lia.
  - exists []. split; [now rewrite app_nil_r|]. repeat split; try (intros I; vm_compute in I; intuition discriminate). auto.
  - intros s rest [E _]. assert (I : In 58 (lit "a;b.txt")) by (rewrite E; apply in_or_app; right; now left).
    vm_compute in I. intuition discriminate.
  - intros r E. vm_compute in E. discriminate.
  - intros t host prt H. vm_compute in H. discriminate.
Qed.

(** C45: the item type follows the extension of the last component. *)
Theorem C45_extension : forall path dir name ext, last_component path dir name ->
  has_extension name ext -> guess_type path = type_of item_types ext.
Proof.
  intros path dir name ext (-> & _ & _) (stem & NE & -> & ND). rewrite app_assoc. apply guess_ext; auto.
  intros E. apply app_eq_nil in E as [_ E]. contradiction.
Qed.
(** C45: no extension is a menu.  Partial: when no dot occurs in the directory
    part, and a dot file is at the top level; see the refutations. *)
Theorem C45_menu_partial : forall path dir name, last_component path dir name ->
  no_extension name -> ~ In 46 dir -> (dir = [] \/ ~ In 46 name) -> guess_type path = lit "1".
Proof.
  intros path dir name (-> & _ & _) NX ND HD. apply guess_none. intros stem ext E NE.
  destruct HD as [->|NN].
  - cbn [app] in E. destruct stem as [|c stem]; auto. exfalso. apply (NX ext). exists (c :: stem). split; [discriminate|]. auto.
  - exfalso. assert (I : In 46 (dir ++ name)) by (rewrite E; apply in_or_app; right; now left).
    apply in_app_or in I as [I|I]; contradiction.
Qed.
Theorem C45_dotted_directory_refuted : exists path dir name, last_component path dir name
  /\ no_extension name /\ guess_type path = lit "9".
Proof.
  exists (lit "v1.2/docs"), (lit "v1.2/"), (lit "docs"). split; [|split; [|reflexivity]].
  - split; [reflexivity|]. split; [intros I; vm_compute in I; intuition discriminate|]. right. exists (lit "v1.2"). reflexivity.
  - intros ext (stem & _ & E & _). assert (I : In 46 (lit "docs")) by (rewrite E; apply in_or_app; right; now left).
    vm_compute in I. intuition discriminate.
Qed.
(** ... so the type does not depend on the last component alone. *)
Theorem C45_depends_on_directory_refuted : exists dir1 dir2 name,
  last_component (dir1 ++ name) dir1 name /\ last_component (dir2 ++ name) dir2 name
  /\ guess_type (dir1 ++ name) <> guess_type (dir2 ++ name).
Proof.
  exists (lit "v1.2/"), (lit "v1/"), (lit "docs"). split; [|split].
  - split; [reflexivity|]. split; [intros I; vm_compute in I; intuition discriminate|]. right. exists (lit "v1.2"). reflexivity.
  - split; [reflexivity|]. split; [intros I; vm_compute in I; intuition discriminate|]. right. exists (lit "v1"). reflexivity.
  - vm_compute. discriminate.
Qed.

Local Existing Instance U0.
Example C44_cases :
  parse_href (Some (lit "mailto:a@b.c")) (lit "me") 70%Z
    = Ok (GLink (lit "h") (lit "URL:mailto:a@b.c") (Some (lit "me")) (Some 70%Z))
  /\ parse_href (Some (lit "x/y.gif?q#f")) (lit "me") 70%Z
    = Ok (GLink (lit "g") (lit "x/y.gif") (Some (lit "me")) (Some 70%Z))
  /\ parse_href (Some (lit "Gopher://EX.org:7070/x.md")) (lit "me") 70%Z
    = Ok (GLink (lit "0") (lit "/x.md") (Some (lit "ex.org")) (Some 7070%Z))
  /\ parse_href (Some (lit "gopher://ex.org/x.md")) (lit "me") 70%Z
    = Ok (GLink (lit "0") (lit "/x.md") (Some (lit "ex.org")) None).
Proof. repeat split. Qed.
(** The hypotheses of C44_gopher_partial are met. *)
Example C44_gopher_meets :
  lower (lit "Gopher") = lit "gopher" /\ is_scheme (lit "Gopher") /\ is_host (lit "EX.org")
  /\ decimal 0 (lit "7070") = Some 7070%Z /\ path_then (lit "/x.md?q") (lit "/x.md")
  /\ clean (lit "Gopher://EX.org:7070/x.md?q").
Proof.
  split; [reflexivity|]. split; [|split; [|split; [reflexivity|split]]].
  - eexists _, _. split; [vm_compute; reflexivity|]. split; [left; lia|]. repeat (apply Forall_cons; [left; right; lia|]). apply Forall_nil.
  - split; [discriminate|]. repeat constructor; try (vm_compute; reflexivity); cbn [In]; intuition discriminate.
  - exists (lit "?q"). split; [reflexivity|]. repeat split; try (intros I; vm_compute in I; intuition discriminate).
    right. eexists _, _. split; [vm_compute; reflexivity|]. auto.
  - repeat split; try (intros I; vm_compute in I; intuition discriminate).
    intros c r E. vm_compute in E. injection E as <- _. lia.
Qed.
Example C45_cases : guess_type (lit "/a.b/c.tiff") = lit "I" /\ guess_type (lit "/a/b") = lit "1"
  /\ guess_type (lit "x.tar.gz") = lit "9" /\ guess_type (lit ".bashrc") = lit "1".
Proof. repeat split. Qed.

Print Assumptions C44_web. Print Assumptions C44_web_accepted. Print Assumptions C44_relative_partial.
Print Assumptions C44_gopher_partial. Print Assumptions C44_default_port_refuted.
Print Assumptions C44_parameters_refuted. Print Assumptions C45_extension.
Print Assumptions C45_menu_partial. Print Assumptions C45_dotted_directory_refuted.
Print Assumptions C45_depends_on_directory_refuted.
Close Scope N_scope.
