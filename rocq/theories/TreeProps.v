(** Properties of the document tree: C09-C13, C15, C17-C19, C57. *)
From Verif Require Import HistoryFacts Fixture.

(** C09: after any history the tree is a forest whose preorder walk is exactly
    the start tags and texts fed, each once, in feed order. *)
Theorem C09_tree_keeps_everything : forall `{U : Uni} g h s,
  run g h pstate0 = Ok s ->
  exists F, document (p_dom s) F
    /\ flat_map preorder F = seq 0 (length (d_nodes (p_dom s)))
    /\ Forall2 same_item (items h) (flat_map tree_items F).
Proof. exact @reach_document. Qed.
Print Assumptions C09_tree_keeps_everything.

(** C10: a well-formed document is parsed to itself. *)
Theorem C10_round_trip : forall `{U : Uni} g doc s,
  Forall (wf_html false) doc -> run g (flat_map events doc) pstate0 = Ok s ->
  exists F, document (p_dom s) F /\ Forall2 (denotes false) doc F
    /\ flat_map preorder F = seq 0 (length (d_nodes (p_dom s))) /\ p_stack s = [].
Proof. exact @round_trip. Qed.
Print Assumptions C10_round_trip.

(** C11: an end tag that does not name the innermost open element changes
    nothing at all.  Missing: </pre> while the last pre tag was a start tag. *)
Theorem C11_stray_end_tag_partial : forall `{U : Uni} g h1 h2 t,
  (match open_after h1 with x :: _ => x <> t | [] => True end) ->
  (t = lit "pre" -> inside_pre h1 = false) ->
  run g (h1 ++ OEnd t :: h2) pstate0 = run g (h1 ++ h2) pstate0.
Proof. exact @run_end_stray. Qed.
Print Assumptions C11_stray_end_tag_partial.

(** C12: br and img never have children; their end tags change nothing. *)
Theorem C12_void_no_children : forall `{U : Uni} g h s,
  run g h pstate0 = Ok s ->
  forall i n t, node_at (p_dom s) i = Some n -> n_tag n = Some t -> void t = true ->
  n_children n = [].
Proof. exact @reach_void. Qed.
Print Assumptions C12_void_no_children.

Theorem C12_void_end_ignored : forall `{U : Uni} g h1 h2 t,
  void t = true -> run g (h1 ++ OEnd t :: h2) pstate0 = run g (h1 ++ h2) pstate0.
Proof. exact @run_end_void. Qed.
Print Assumptions C12_void_end_ignored.

(** C13: the reference numbers in document order are 1, 2, 3, ... *)
Theorem C13_reference_numbers : forall `{U : Uni} g h s,
  run g h pstate0 = Ok s ->
  references g (p_dom s) = map Z.of_nat (seq 1 (count_numbered g (items h)))
  /\ p_next s = (Z.of_nat (count_numbered g (items h)) + 1)%Z.
Proof. exact @reach_refs. Qed.
Print Assumptions C13_reference_numbers.

(** C15: after reset the parser behaves like a new one.  Missing: histories that
    leave the pre flag set. *)
Theorem C15_reset_partial : forall `{U : Uni} g h1 h2 s,
  run g h1 pstate0 = Ok s -> inside_pre h1 = false ->
  run g (h1 ++ OReset :: h2) pstate0 = run g h2 pstate0.
Proof. exact @run_reset. Qed.
Print Assumptions C15_reset_partial.

(** C17: text outside pre is normalised: same words, no newline, tab or double
    space, ends keep their separators, and normalising again changes nothing. *)
Theorem C17_collapse : forall s,
  collapse s = normalise s
  /\ (forall l, words (collapse s) l <-> words s l)
  /\ nonspace (collapse s) = nonspace s
  /\ (forall x, In x (collapse s) -> x <> 10%N /\ x <> 9%N)
  /\ (forall a b, collapse s <> a ++ 32%N :: 32%N :: b)
  /\ collapse (collapse s) = collapse s
  /\ space_first (collapse s) = space_first s
  /\ space_last (collapse s) = space_last s.
Proof.
  intros s. split; [apply collapse_nrm|]. split.
  { intros l. rewrite !words_split_ws, collapse_words. reflexivity. }
  split; [apply collapse_nonspace|]. split; [apply collapse_chars|].
  split; [apply collapse_no_double|]. split; [apply collapse_idem|].
  split; [apply collapse_first | apply collapse_last].
Qed.
Print Assumptions C17_collapse.

(** C17, C18, C57: the text of every run as stored in the tree, and where every
    start tag and text is attached. *)
Theorem C18_text_stored : forall `{U : Uni} g h1 x h2 s,
  run g (h1 ++ OData x :: h2) pstate0 = Ok s -> ~ In OReset h2 ->
  exists n, node_at (p_dom s) (length (items h1)) = Some n
    /\ n_tag n = None
    /\ n_data n = Some (if inside_pre h1 then x else normalise x)
    /\ n_parent n = match opens h1 with (i, _) :: _ => PNode i | [] => PNone end.
Proof. exact @data_parent. Qed.
Print Assumptions C18_text_stored.

Theorem C57_tag_attached : forall `{U : Uni} g h1 t a h2 s,
  run g (h1 ++ OStart t a :: h2) pstate0 = Ok s -> ~ In OReset h2 ->
  exists n, node_at (p_dom s) (length (items h1)) = Some n
    /\ n_tag n = Some t /\ n_data n = None
    /\ n_parent n = match opens h1 with (i, _) :: _ => PNode i | [] => PRoot end.
Proof. exact @start_parent. Qed.
Print Assumptions C57_tag_attached.

(** C18: in a well-nested document without a pre inside a pre, text inside pre is
    verbatim and text outside normalised ([denotes]).  Missing: nested pre. *)
Theorem C18_pre_verbatim_partial : forall `{U : Uni} g doc s,
  Forall (wf_html false) doc -> run g (flat_map events doc) pstate0 = Ok s ->
  exists F, document (p_dom s) F /\ Forall2 (denotes false) doc F.
Proof.
  intros U g doc s W H. destruct (round_trip g doc s W H) as (F & D & E & _). eauto.
Qed.
Print Assumptions C18_pre_verbatim_partial.

(** C19: a text run may be split next to a non-whitespace character.  Missing:
    split points with whitespace on both sides. *)
Theorem C19_split_text_partial : forall a b,
  (match b with c :: _ => is_space c = false | [] => False end) \/
  (exists x c, a = x ++ [c] /\ is_space c = false) ->
  collapse (a ++ b) = collapse a ++ collapse b.
Proof. exact collapse_app. Qed.
Print Assumptions C19_split_text_partial.

(** ** Refutations: what the code does instead *)
Section R.
Local Existing Instance U0.

Theorem C11_stray_pre_end_refuted :
  exists h1 h2, open_after h1 = [lit "b"; lit "pre"]
    /\ out (run g0 (h1 ++ OEnd (lit "pre") :: h2) pstate0) <> out (run g0 (h1 ++ h2) pstate0).
Proof.
  exists [start "pre"; start "b"], [txt "x  y"; OClose]. split; [reflexivity|].
  vm_compute. discriminate.
Qed.

Theorem C15_reset_refuted :
  exists h1 h2, out (run g0 (h1 ++ OReset :: h2) pstate0) <> out (run g0 h2 pstate0).
Proof. exists [start "pre"], [txt "x  y"; OClose]. vm_compute. discriminate. Qed.

Theorem C18_nested_pre_refuted :
  exists x s n, run g0 [start "pre"; start "pre"; stop "pre"; txt x; stop "pre"] pstate0 = Ok s
    /\ node_at (p_dom s) 2 = Some n /\ n_parent n = PNode 0 /\ n_data n <> Some (lit x).
Proof.
  exists "x  y"%string. eexists. eexists. split; [vm_compute; reflexivity|].
  split; [vm_compute; reflexivity|]. split; [reflexivity|]. vm_compute. discriminate.
Qed.

Theorem C19_split_refuted :
  exists a b, out (run g0 [OData (a ++ b); OClose] pstate0)
              <> out (run g0 [OData a; OData b; OClose] pstate0).
Proof. exists (lit "x "), (lit " y"). vm_compute. discriminate. Qed.

(** ** The hypotheses are met by concrete cases *)
Definition doc1 : list html :=
  [HTag (lit "div") [(lit "class", Some (lit "a b"))]
     [HText (lit "x  y"); HTag (lit "br") [] [];
      HTag (lit "pre") [] [HText (lit "x  y")];
      HTag (lit "a") [(lit "href", Some (lit "/x"))] [HText (lit "z")]]].

Example C10_hyps : Forall (wf_html false) doc1
  /\ (exists s, run g0 (flat_map events doc1 ++ [OClose]) pstate0 = Ok s).
Proof.
  split; [repeat constructor; try discriminate|]. eexists. vm_compute. reflexivity.
Qed.
Example C11_hyps : open_after [start "div"; start "p"] = [lit "p"; lit "div"]
  /\ exists s, run g0 ([start "div"; start "p"] ++ stop "div" :: [txt "x"; OClose]) pstate0 = Ok s.
Proof. split; [reflexivity|]. eexists. vm_compute. reflexivity. Qed.
Example C13_hyps : exists s, run g0
  [start "p"; OStart (lit "a") [(lit "href", Some (lit "/x"))]; stop "a"; OStart (lit "img") [];
   OStart (lit "a") [(lit "href", Some (lit "/y"))]; stop "a"; OClose] pstate0 = Ok s
  /\ references g0 (p_dom s) = [1%Z; 2%Z].
Proof. eexists. split; [vm_compute; reflexivity|]. reflexivity. Qed.
Example C15_hyps : inside_pre [start "pre"; stop "pre"; txt "x"] = false
  /\ exists s, run g0 [start "pre"; stop "pre"; txt "x"] pstate0 = Ok s.
Proof. split; [reflexivity|]. eexists. vm_compute. reflexivity. Qed.
Example C19_hyps : collapse (lit "a " ++ lit "b ") = lit "a b ".
Proof. reflexivity. Qed.
End R.
