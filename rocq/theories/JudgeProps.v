(** C75: what any selector makes of any place of any document. *)
From Verif Require Import WrapFacts WrapLoop WrapWidth.
From Verif Require Import BaseFacts StrFacts SelFacts CssFacts TreeFacts HistoryFacts DomFacts DocFacts PageRead PageSpec JudgeMain Fixture.
From Verif Require Export StyleSpec.
Open Scope Z_scope.

Definition node_of (z : site) : nat := match z with [] => O | x :: _ => tid (sp_here x) end.

(** C75: the places of the document read are the nodes of the tree kept, in
    document order, once each. *)
Theorem C75_places : forall `{U : Uni} g h st, run g h pstate0 = Ok st ->
  map node_of (all_places [] [] (tree_of h)) = seq 0 (length (d_nodes (p_dom st)))
  /\ ~ In [] (all_places [] [] (tree_of h)).
Proof.
  intros U g h st R. split; [|apply no_empty_place]. destruct (tree_of_document _ _ _ R) as [_ P]. rewrite <- P, <- (all_places_ids (tree_of h) [] []).
  apply map_ext. now intros [|x z].
Qed.

(** C75, every history of handler calls, every selector, every place: the
    matching function gives exactly the verdict, raising included. *)
Theorem C75_verdict : forall `{U : Uni} g h st s z v, run g h pstate0 = Ok st -> In z (all_places [] [] (tree_of h)) ->
  selector_matches (p_dom st) s (ONode (node_of z)) = outcome v <-> judged s z v.
Proof.
  intros U g h st s z v R Z. destruct (tree_of_document _ _ _ R) as [D P].
  pose proof (judge _ _ (reach_wf _ _ _ R) s z (proj1 (Forall_forall _ _) (forest_at _ _ D) z Z)) as T. rewrite (T v).
  assert (E : place_obj z = ONode (node_of z)) by (destruct z; [elim (no_empty_place _ _ _ Z)|reflexivity]). rewrite E.
  destruct (selector_matches (p_dom st) s (ONode (node_of z))) as [[]|e], v; cbn [outcome seen]; split; congruence.
Qed.
(** C75: there is one verdict, and it is one of these. *)
Theorem C75_one : forall `{U : Uni} g h st s z, run g h pstate0 = Ok st -> In z (all_places [] [] (tree_of h)) ->
  exists v, judged s z v /\ (forall w, judged s z w -> w = v)
    /\ In v [Yes; No; Fails EAttr; Fails EType; Fails EIndex; Fails EValue].
Proof.
  intros U g h st s z R Z. pose proof (fun v => C75_verdict g h st s z v R Z) as T.
  assert (X : exists v, selector_matches (p_dom st) s (ONode (node_of z)) = outcome v).
  { destruct (selector_matches (p_dom st) s (ONode (node_of z))) as [[]|e]; [now exists Yes|now exists No|now exists (Fails e)]. }
  destruct X as (v & X). exists v. assert (J : judged s z v) by now apply T. split; auto. split.
  - intros w W. apply T in W. rewrite X in W. destruct v, w; cbn [outcome] in W; congruence.
  - destruct v as [| |e]; cbn; auto. apply judged_errors in J. cbn in J. intuition (subst; auto 10).
Qed.
(** C75: on the selectors CSS and the code agree on, the verdict is the CSS one. *)
Theorem C75_css : forall `{U : Uni} g h st s z, run g h pstate0 = Ok st -> In z (all_places [] [] (tree_of h)) -> covered (tree_of h) s ->
  PageSpec.element (match z with x :: _ => sp_here x | [] => Text 0 [] end) = true ->
  (judged s z Yes <-> css_at s z) /\ (judged s z No <-> ~ css_at s z) /\ forall e, ~ judged s z (Fails e).
Proof.
  intros U g h st s z R Z C E. destruct (tree_of_document _ _ _ R) as [D P]. pose proof (proj1 (Forall_forall _ _) (forest_at _ _ D) z Z) as AT.
  pose proof (fun v => C75_verdict g h st s z v R Z) as T. destruct z as [|[b t c] up]; [discriminate|]. cbn [sp_here node_of] in *.
  destruct (covered_hits _ _ (reach_wf _ _ _ R) (reach_classes _ _ _ R) D P b c t up E AT s C) as (v & V & Q). rewrite V in T. rewrite <- !T, <- Q. cbn [outcome].
  split; [split; congruence|]. split; [destruct v; split; congruence|]. intros e K. apply T in K. discriminate.
Qed.

(** C75: when a selector raises, closing raises what the first of them raises. *)
Theorem C75_raises : forall `{U : Uni} o g h e, construct o = Ok g -> ~ In OClose h -> feed_error g h = None ->
  trouble g (tree_of h) e -> render_doc o h = Err e.
Proof.
  intros U o g h e CN NC FE (l & s & z & r & E & J & K). unfold render_doc. rewrite CN. cbn [bind]. rewrite run_app.
  pose proof (feed_outcome g h [] pstate0 eq_refl NC) as X. fold (feed_error g h) in X. rewrite FE in X. destruct X as (st & X). rewrite X. cbn [bind run step].
  destruct (tree_of_document _ _ _ X) as [D P]. destruct (assign_trouble g st _ (reach_wf _ _ _ X) (ext_a_some _ _ CN) D P (p_asg st)) as [(UT & _)|(e' & (l' & s' & z' & r' & E' & J' & K') & AS)].
  - elim (UT s z e); auto. rewrite E. apply in_or_app. right. now left.
  - unfold close. rewrite AS. cbn [bind]. f_equal.
    assert (LE : forall (l l' : list (sel * site)) p p' r r', l ++ p :: r = l' ++ p' :: r' -> l = l' /\ p = p' \/ In p l' \/ In p' l).
    { clear. induction l as [|x l IH]; intros [|x' l'] p p' r r' H; cbn [app] in H; injection H as -> H; cbn [In]; auto. apply IH in H as [[-> ->]|[H|H]]; auto. }
    rewrite E in E'. apply LE in E' as [[_ E']|[E'|E']].
    + injection E' as <- <-. assert (Z : In z (all_places [] [] (tree_of h))).
      { assert (A : In (s, z) (asked g (tree_of h))) by (rewrite E; apply in_or_app; right; now left). apply in_flat_map in A as (y & Y & A). apply in_map_iff in A as (? & A & _). now injection A as _ <-. }
      apply (C75_verdict g h st s z _ X Z) in J. apply (C75_verdict g h st s z _ X Z) in J'. rewrite J in J'. now injection J'.
    + elim (K' _ _ e E' J).
    + elim (K _ _ e' E' J').
Qed.
(** C75: either none raises or one of them is the first. *)
Theorem C75_settled : forall `{U : Uni} o g h st, construct o = Ok g -> run g h pstate0 = Ok st ->
  untroubled g (tree_of h) \/ exists e, trouble g (tree_of h) e.
Proof.
  intros U o g h st CN X. destruct (tree_of_document _ _ _ X) as [D P].
  destruct (assign_trouble g st _ (reach_wf _ _ _ X) (ext_a_some _ _ CN) D P (p_asg st)) as [(UT & _)|(e' & T & _)]; eauto.
Qed.

(** ** What this comes to *)
(** C06 for every argument of [:nth-child] and [:nth-last-child]: 1, 2, ... count
    from the first (last) element; 0, -1, ... count from the last (first); below
    that an IndexError; no number, a ValueError; no argument, an IndexError. *)
Theorem C75_nth : forall `{U : Uni} g h st b i t a kids c up x rest k, run g h pstate0 = Ok st ->
  In (Spot b (Tag i t a kids) c :: up) (all_places [] [] (tree_of h)) -> whole x k ->
  let n := elements b + 1 + elements c in
  let ask f := selector_matches (p_dom st) (SFunction (SElement None) (lit f) (x :: rest)) (ONode i) in
  ask "nth-child"%string = (if n <? k then Ok false else if k <=? - n then Err EIndex
                           else Ok (elements b + 1 =? (if 1 <=? k then k else n + k)))
  /\ ask "nth-last-child"%string = (if n <? k then Ok false else if k <=? - n then Err EIndex
                                 else Ok (elements c + 1 =? (if 1 <=? k then k else n + k))).
Proof.
  intros U g h st b i t a kids c up x rest k R Z W n ask.
  assert (B : 0 <= elements b /\ 0 <= elements c) by (unfold elements; lia).
  assert (T : forall f v, judged (SFunction (SElement None) (lit f) (x :: rest)) (Spot b (Tag i t a kids) c :: up) v -> ask f = outcome v).
  { intros f v J. apply (C75_verdict g h st _ _ v R Z). exact J. }
  assert (G : forall f p, lit f = lit "nth-child" \/ lit f = lit "nth-last-child" -> asked_place (lit f) k n p ->
            ask f = (if n <? k then Ok false else if (p <? 0) || (n <=? p) then Err EIndex else Ok (elements b =? p))).
  { intros f p FF AP. destruct (Z.ltb_spec n k).
    - apply (T f No). cbn [judged]. left. split; [exact FF|]. right. exists k. split; [exact W|]. cbv zeta. left. split; [assumption|reflexivity].
    - destruct (Z.ltb_spec p 0); [|destruct (Z.leb_spec n p)]; cbn [orb].
      + apply (T f (Fails EIndex)). cbn [judged]. left. split; [exact FF|]. right. exists k. split; [exact W|]. cbv zeta. right. split; [assumption|]. exists p. split; [assumption|]. right. split; [|reflexivity]. lia.
      + apply (T f (Fails EIndex)). cbn [judged]. left. split; [exact FF|]. right. exists k. split; [exact W|]. cbv zeta. right. split; [assumption|]. exists p. split; [assumption|]. right. split; [|reflexivity]. fold n. lia.
      + destruct (Z.eqb_spec (elements b) p) as [E|E].
        * apply (T f Yes). cbn [judged]. left. split; [exact FF|]. right. exists k. split; [exact W|]. cbv zeta. right. split; [assumption|]. exists p. split; [assumption|]. left. split; [fold n; lia|]. left. auto.
        * apply (T f No). cbn [judged]. left. split; [exact FF|]. right. exists k. split; [exact W|]. cbv zeta. right. split; [assumption|]. exists p. split; [assumption|]. left. split; [fold n; lia|]. right. auto. }
  split.
  - rewrite (G "nth-child"%string _ (or_introl eq_refl) (or_introl (conj eq_refl eq_refl))). destruct (Z.ltb_spec n k); auto.
    destruct (Z.leb_spec 1 k); destruct (Z.leb_spec k (- n)); try lia.
    + destruct (Z.ltb_spec (k - 1) 0); [lia|]. destruct (Z.leb_spec n (k - 1)); [lia|]. cbn [orb]. f_equal. destruct (Z.eqb_spec (elements b) (k - 1)), (Z.eqb_spec (elements b + 1) k); auto; lia.
    + destruct (Z.ltb_spec (n + k - 1) 0); [reflexivity|lia].
    + destruct (Z.ltb_spec (n + k - 1) 0); [lia|]. destruct (Z.leb_spec n (n + k - 1)); [lia|]. cbn [orb]. f_equal. destruct (Z.eqb_spec (elements b) (n + k - 1)), (Z.eqb_spec (elements b + 1) (n + k)); auto; lia.
  - rewrite (G "nth-last-child"%string _ (or_intror eq_refl) (or_intror (conj eq_refl eq_refl))). destruct (Z.ltb_spec n k); auto.
    destruct (Z.leb_spec 1 k); destruct (Z.leb_spec k (- n)); try lia.
    + destruct (Z.ltb_spec (n - k) 0); [lia|]. destruct (Z.leb_spec n (n - k)); [lia|]. cbn [orb]. f_equal. destruct (Z.eqb_spec (elements b) (n - k)), (Z.eqb_spec (elements c + 1) k); auto; lia.
    + destruct (Z.ltb_spec (- k) 0); [lia|]. destruct (Z.leb_spec n (- k)); [reflexivity|lia].
    + destruct (Z.ltb_spec (- k) 0); [lia|]. destruct (Z.leb_spec n (- k)); [lia|]. cbn [orb]. f_equal. destruct (Z.eqb_spec (elements b) (- k)), (Z.eqb_spec (elements c + 1) (n + k)); auto; lia.
Qed.
Theorem C75_nth_bad : forall `{U : Uni} g h st b i t a kids c up args f, run g h pstate0 = Ok st ->
  In (Spot b (Tag i t a kids) c :: up) (all_places [] [] (tree_of h)) -> f = lit "nth-child" \/ f = lit "nth-last-child" ->
  (match args with [] => True | x :: _ => forall k, ~ whole x k end) ->
  selector_matches (p_dom st) (SFunction (SElement None) f args) (ONode i) = Err (match args with [] => EIndex | _ => EValue end).
Proof.
  intros U g h st b i t a kids c up args f R Z FF W.
  apply (C75_verdict g h st _ _ (Fails (match args with [] => EIndex | _ => EValue end)) R Z). cbn [judged]. left. split; auto. destruct args; auto.
Qed.
(** C07 for every operator: an attribute with a value is compared as written
    ([class]: its words joined by single spaces); the operators other than
    presence and equality raise on an attribute without value. *)
Theorem C75_attribute : forall `{U : Uni} g h st b i t a kids c up k op x v, run g h pstate0 = Ok st ->
  In (Spot b (Tag i t a kids) c :: up) (all_places [] [] (tree_of h)) -> dlast k a = Some v ->
  let ask := selector_matches (p_dom st) (SAttrib (SElement None) k op x) (ONode i) in
  (op = lit "exists" -> ask = Ok true)
  /\ (op <> lit "exists" -> match v with
       | Some y => exists w y', compared k y y' /\ ask = Ok w /\ (w = true <-> attr_holds op y' x)
       | None => (In op [lit "~="; lit "|="; lit "^="; lit "$="] -> ask = Err EAttr)
                 /\ (op = lit "*=" -> ask = Err EType)
                 /\ (~ In op [lit "~="; lit "|="; lit "^="; lit "$="; lit "*="] -> ask = Ok false)
       end).
Proof.
  intros U g h st b i t a kids c up k op x v R Z D ask.
  assert (T : forall w, attr_verdict k op x v w -> ask = outcome w).
  { intros w J. apply (C75_verdict g h st _ _ w R Z). cbn [judged]. left. rewrite D. auto. }
  split; [intros E; apply (T Yes); left; auto|]. intros E. destruct v as [y|].
  - destruct (C75_one g h st (SAttrib (SElement None) k op x) _ R Z) as (w & J & _). pose proof J as J'. apply (C75_verdict g h st _ _ w R Z) in J'. cbn [node_of sp_here tid] in J'. fold ask in J'.
    cbn [judged] in J. rewrite D in J. destruct J as [[_ J]|[J N]]; [|congruence]. destruct J as [[J _]|[_ J]]; [congruence|]. destruct J as (y' & C & [[H ->]|[H ->]]).
    + exists true, y'. split; auto. split; auto. tauto.
    + exists false, y'. split; auto. split; auto. split; [discriminate|tauto].
  - split; [|split]; intros H.
    + apply (T (Fails EAttr)). right. auto.
    + apply (T (Fails EType)). right. auto.
    + apply (T No). right. auto.
Qed.

(** Cases. *)
Local Existing Instance U0.
Definition L t k := HTag (lit t) [] k.
Definition list_doc : list html :=
  [L "ul" [L "li" [HText (lit "one")]; HText (lit " "); HTag (lit "li") [(lit "class", Some (lit " a  b ")); (lit "hidden", None)] [HText (lit "two")]; L "li" [HText (lit "three")]]].
Definition nth (k : string) : sel := SFunction (SElement None) (lit "nth-child") [lit k].
(** A rule that raises on an attribute without value. *)
Definition raising : options :=
  Options 67 None [(lit "li[hidden^=x]", ([sl (SAttrib (el "li") (lit "hidden") (lit "^=") (lit "x"))], RPlain (Some BlockRenderer)))] [] (lit "text") (lit "footer") (lit "inline") [] 70 true.
(** The second item (node 4 of the tree) under several selectors. *)
Example list_verdicts : exists g st, construct raising = Ok g /\ run g (flat_map events list_doc) pstate0 = Ok st
  /\ let ask s := selector_matches (p_dom st) s (ONode 4) in
     (ask (nth "2"), ask (nth "-1"), ask (nth "-7"), ask (nth " +2 "), ask (nth "two")) = (Ok true, Ok true, Err EIndex, Ok true, Err EValue)
     /\ (ask (SAttrib (SElement None) (lit "hidden") (lit "^=") (lit "x")), ask (SAttrib (SElement None) (lit "hidden") (lit "*=") (lit "x")),
         ask (SAttrib (SElement None) (lit "class") (lit "=") (lit "a b"))) = (Err EAttr, Err EType, Ok true).
Proof. eexists. eexists. split; [vm_compute; reflexivity|]. split; [vm_compute; reflexivity|]. vm_compute. auto. Qed.
(** The page is not produced. *)
Lemma raising_computed :
  match construct raising with
  | Ok g => match feed_error g (flat_map events list_doc) with Some _ => false | None => true end
            && match run g (flat_map events list_doc) pstate0 with
               | Ok st => match assign_all g (p_dom st) (p_asg st) (seq 0 (length (d_nodes (p_dom st)))) with Err EAttr => true | _ => false end
               | Err _ => false
               end
  | Err _ => false
  end = true.
Proof. vm_compute. reflexivity. Qed.
Example list_raises : exists g, construct raising = Ok g /\ feed_error g (flat_map events list_doc) = None /\ trouble g (tree_of (flat_map events list_doc)) EAttr.
Proof.
  pose proof raising_computed as C. revert C. generalize (flat_map events list_doc) as h. generalize raising as o. intros o h C.
  destruct (construct o) as [g|] eqn:CN; [|discriminate]. exists g. split; [reflexivity|].
  apply andb_prop in C as [FE C]. destruct (feed_error g h); [discriminate|]. split; [reflexivity|].
  destruct (run g h pstate0) as [st|] eqn:X; [|discriminate].
  destruct (tree_of_document _ _ _ X) as [D P].
  destruct (assign_trouble g st _ (reach_wf _ _ _ X) (ext_a_some _ _ CN) D P (p_asg st)) as [(_ & sg & AS)|(e & T & AS)]; rewrite AS in C; [discriminate|].
  destruct e; try discriminate. exact T.
Qed.
Close Scope Z_scope.

Print Assumptions C75_places.
Print Assumptions C75_verdict.
Print Assumptions C75_one.
Print Assumptions C75_css.
Print Assumptions C75_raises.
Print Assumptions C75_settled.
Print Assumptions C75_nth.
Print Assumptions C75_nth_bad.
Print Assumptions C75_attribute.
