(** C76: where any href points.  Spec: HrefSpec.v. *)
From Verif Require Import BaseFacts StrFacts UrlFacts HrefFacts LinkTree CrashFacts Fixture.
From Verif Require Export HrefSpec.
Open Scope N_scope.

(** C76, every href (or none), host and port: the link stored, or the exception. *)
Theorem C76_target : forall (U : Uni) href host prt r, parse_href href host prt = r <-> leads href host prt r.
Proof. intros U href host prt r. symmetry. apply leads_iff. Qed.
(** C76: every href has one target, or is refused with a ValueError. *)
Theorem C76_one : forall (U : Uni) href host prt,
  exists r, leads href host prt r /\ (forall r', leads href host prt r' -> r' = r) /\ (r = Err EValue \/ exists l, r = Ok l).
Proof.
  intros U href host prt. exists (parse_href href host prt). split; [now apply leads_iff|]. split; [intros r' H; apply leads_iff in H; congruence|].
  pose proof (parse_href_raises href host prt) as R. destruct (parse_href href host prt); [eauto|left; congruence].
Qed.
(** C76: the links of every document read: after every history of calls each
    link in the tree has the target its own href leads to. *)
Theorem C76_stored : forall (U : Uni) g h st i n t, run g h pstate0 = Ok st -> node_at (p_dom st) i = Some n ->
  n_tag n = Some t -> t = lit "a" \/ t = lit "img" ->
  exists lk, n_link n = Some lk /\ leads (lk_href lk) (g_host g) (g_port g) (Ok (lk_gopher lk)).
Proof.
  intros U g h st i n t R N T L. pose proof (lo_info _ _ (reach_links g h st R) i n N) as X. unfold link_info in X. rewrite T in X.
  assert (E : is_link t = true) by (destruct L as [-> | ->]; reflexivity). rewrite E in X. destruct X as (lk & ref & X1 & _ & X2). exists lk. split; auto. now apply leads_iff.
Qed.

(** Cases: an address with a zone, a user and a port; parameters; blanks and line
    ends; brackets that do not match; a port out of range. *)
Local Existing Instance U0.
Example targets :
  leads (Some (lit "gopher://me@[FE80::1%Eth0]:7070/a/b;c.txt?q#f")) (lit "here") 70
    (Ok (GLink (lit "0") (lit "/a/b;c.txt") (Some (lit "fe80::1%Eth0")) (Some 7070%Z)))
  /\ leads (Some (lit "  /a;x/b;c.txt")) (lit "here") 70 (Ok (GLink (lit "1") (lit "/a;x/b") (Some (lit "here")) (Some 70%Z)))
  /\ leads (Some ([9] ++ lit "gopher:/" ++ [10] ++ lit "/h/x.png")) (lit "here") 70 (Ok (GLink (lit "I") (lit "/x.png") (Some (lit "h")) None))
  /\ leads (Some (lit "http://[::1/")) (lit "here") 70 (Err EValue)
  /\ leads (Some (lit "gopher://h:65536/")) (lit "here") 70 (Err EValue)
  /\ leads (Some (lit " http://h/")) (lit "here") 70 (Ok (GLink (lit "h") (lit "URL: http://h/") (Some (lit "here")) (Some 70%Z)))
  /\ leads None (lit "here") 70 (Ok (GLink (lit "h") (lit "URL:None") (Some (lit "here")) (Some 70%Z))).
Proof. repeat split; apply C76_target; vm_compute; reflexivity. Qed.
Close Scope N_scope.

Print Assumptions C76_target.
Print Assumptions C76_one.
Print Assumptions C76_stored.
