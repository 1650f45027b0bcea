(** Which renderer the library's own rule table (_parser.py:383-442) gives. *)
From Verif Require Import BaseFacts StrFacts SelFacts TreeFacts.
From Verif Require Export Parser.

(** ** Specification: the table by tag *)
Definition plain_classes : list (string * rcls) :=
  [("h1", MarkdownHeaderRenderer); ("h2", MarkdownHeaderRenderer); ("h3", MarkdownHeaderRenderer);
   ("h4", MarkdownHeaderRenderer); ("h5", MarkdownHeaderRenderer); ("h6", MarkdownHeaderRenderer);
   ("p", ParagraphRenderer); ("br", BreakRenderer); ("blockquote", BlockQuoteRenderer);
   ("pre", PreRenderer); ("div", BlockRenderer); ("ul", ListRenderer); ("ol", ListRenderer);
   ("li", ListItemRenderer); ("dl", DefinitionListRenderer); ("dt", DefinitionListTermHeaderRenderer);
   ("dd", DefinitionListItemRenderer); ("code", CodeRenderer); ("a", LinkRenderer); ("img", ImageRenderer);
   ("em", EmRenderer); ("strong", StrongRenderer); ("i", EmRenderer); ("b", StrongRenderer);
   ("u", UnderlineRenderer); ("ins", UnderlineRenderer); ("s", StrikethroughRenderer);
   ("del", StrikethroughRenderer); ("span", InlineRenderer)]%string.
Fixpoint class_of (l : list (string * rcls)) (t : str) : option rcls :=
  match l with
  | [] => None
  | (k, c) :: r => if seqb t (lit k) then Some c else class_of r t
  end.
(** The tag of the element directly around node [i]. *)
Definition parent_tag (d : dom) (i : nat) : option str :=
  match node_at d i with
  | Some n => match n_parent n with
              | PNode j => match node_at d j with Some m => n_tag m | None => None end
              | _ => None end
  | None => None
  end.
Definition in_ol (d : dom) (i : nat) : bool :=
  match parent_tag d i with Some t => seqb t (lit "ol") | None => false end.
(** The renderer of an element [t]. *)
Definition class_for (t : str) (ol : bool) : option rcls :=
  if seqb t (lit "li") && ol then Some OrderedListItemRenderer else class_of plain_classes t.
(** The settings its rules may add: only margins, only for p, li and dt. *)
Definition margin_setting (l : list Z) : settings := [kv "margin" (vints l)].
Definition extra_settings (t : str) (st : settings) : Prop :=
  st = []
  \/ t = lit "p" /\ In st (map margin_setting [[0; 0; 1; 0]; [1; 0; 0; 0]; [0; 0; 0; 0]])%Z
  \/ t = lit "li" /\ In st (map margin_setting [[0; 0; 0; 0]; [1; 0; 0; 0]])%Z
  \/ t = lit "dt" /\ st = margin_setting [0; 0; 0; 0]%Z.

Definition default_rules : list (rule rcls) := rules_of (ddel [] default_table).

Section R.
Variable d : dom.
Variable i : nat.
Variable n : node.
Variable t : str.
Hypothesis HN : node_at d i = Some n.
Hypothesis HT : n_tag n = Some t.
Hypothesis HD : n_data n = None.

Lemma elem_match : forall e, selector_matches d (el e) (ONode i) = Ok (seqb t (lit e)).
Proof. intros. unfold el. cbn [selector_matches element_matches is_data]. rewrite HN, HD, HT. reflexivity. Qed.
Lemma tag_matches_el : forall e, tag_matches d (ONode i) [sl (el e)]
  = Ok (seqb t (lit e), if seqb t (lit e) then Some (0, 0, 1)%Z else None).
Proof.
  intros. unfold tag_matches. cbn [tag_matches_from sl sl_tree]. rewrite elem_match. cbn [bind].
  destruct (seqb t (lit e)); reflexivity.
Qed.

Lemma is_data_false : is_data d (ONode i) = false.
Proof. unfold is_data. now rewrite HN, HD. Qed.

(** First and last child. *)
Lemma pseudo_match : forall s b p, selector_matches d s (ONode i) = Ok b ->
  exists b', selector_matches d (SPseudo s p) (ONode i) = Ok b' /\ (b' = true -> b = true).
Proof.
  intros s b p H. cbn [selector_matches]. destruct (_ || _)%bool; [|exists false; split; [auto|discriminate]].
  destruct (parent_of d (ONode i)) as [q|]; [|exists false; split; [auto|discriminate]].
  rewrite is_data_false. destruct (tag_children d q) as [|x r] eqn:E; [exists false; split; [auto|discriminate]|].
  assert (P : exists y, py_index (x :: r) (if seqb p (lit "first-child") then 0 else -1)%Z = Ok y).
  { unfold py_index. set (l := x :: r). assert (L : (0 < Z.of_nat (length l))%Z) by (unfold l; cbn [length]; lia).
    destruct (seqb p (lit "first-child")).
    - cbn [Z.ltb Z.compare]. rewrite (proj2 (Z.leb_gt _ _)) by lia. cbn [orb Z.to_nat]. unfold l. cbn [nth_error]. eauto.
    - change (-1 <? 0)%Z with true. cbv iota. rewrite (proj2 (Z.ltb_ge _ _)) by lia. rewrite (proj2 (Z.leb_gt _ _)) by lia. cbn [orb].
      destruct (nth_error l (Z.to_nat (-1 + Z.of_nat (length l)))) as [y|] eqn:N; eauto.
      apply nth_error_None in N. lia. }
  destruct P as [y ->]. cbn [bind]. destruct (obj_is (ONode i) y); [|exists false; split; [auto|discriminate]].
  rewrite H. eauto.
Qed.
(** The parent's tag. *)
Lemma child_match : forall e s b, selector_matches d s (ONode i) = Ok b ->
  exists b', selector_matches d (chi (el e) s) (ONode i) = Ok b' /\ (b' = true -> b = true).
Proof.
  intros e s b H. unfold chi. cbn [selector_matches].
  change (seqb (lit ">") (lit " ")) with false. change (seqb (lit ">") (lit ">")) with true. cbv iota.
  destruct (parent_of d (ONode i)) as [q|]; [|exists false; split; [auto|discriminate]].
  rewrite H. cbn [bind]. destruct b; [|exists false; split; [auto|discriminate]]. unfold el. cbn [selector_matches]. eauto.
Qed.
Lemma child2_match : forall e f s b, selector_matches d s (ONode i) = Ok b ->
  exists b', selector_matches d (chi (chi (el e) (el f)) s) (ONode i) = Ok b' /\ (b' = true -> b = true).
Proof.
  intros e f s b H. unfold chi at 1. cbn [selector_matches].
  change (seqb (lit ">") (lit " ")) with false. change (seqb (lit ">") (lit ">")) with true. cbv iota.
  destruct (parent_of d (ONode i)) as [q|]; [|exists false; split; [auto|discriminate]].
  rewrite H. cbn [bind]. destruct b; [|exists false; split; [auto|discriminate]].
  unfold chi, el. cbn [selector_matches].
  change (seqb (lit ">") (lit " ")) with false. change (seqb (lit ">") (lit ">")) with true. cbv iota.
  destruct (parent_of d (obj_of q)) as [q'|]; [|exists false; split; [auto|discriminate]].
  cbn [bind]. destruct (element_matches _ _ _); [|exists false; split; [auto|discriminate]]. eauto.
Qed.
Lemma ol_li_match : selector_matches d (chi (el "ol") (el "li")) (ONode i) = Ok (seqb t (lit "li") && (in_ol d i))%bool
  \/ (exists m j, n_parent n = PNode j /\ node_at d j = Some m /\ n_data m <> None /\ n_tag m <> None).
Proof.
  unfold chi. cbn [selector_matches].
  change (seqb (lit ">") (lit " ")) with false. change (seqb (lit ">") (lit ">")) with true. cbv iota.
  unfold el. cbn [selector_matches element_matches]. rewrite HN, is_data_false, HT.
  unfold parent_of, in_ol, parent_tag. rewrite HN. destruct (n_parent n) as [| |j].
  - left. now rewrite Bool.andb_false_r.
  - left. cbn [bind obj_of]. destruct (seqb t (lit "li")); reflexivity.
  - cbn [bind obj_of]. destruct (seqb t (lit "li")); [|left; reflexivity]. cbn [andb].
    unfold element_matches. destruct (node_at d j) as [m|] eqn:E; [|left; reflexivity].
    unfold is_data. rewrite E. destruct (n_data m) eqn:D.
    + destruct (n_tag m) eqn:T; [|left; reflexivity]. right. exists m, j. repeat split; congruence.
    + left. destruct (n_tag m); reflexivity.
Qed.

Lemma group1 : forall s b, selector_matches d s (ONode i) = Ok b ->
  tag_matches d (ONode i) [sl s] = Ok (b, if b then Some (specificity (sl s)) else None).
Proof.
  intros s b H. unfold tag_matches. cbn [tag_matches_from sl sl_tree]. rewrite H. cbn [bind].
  destruct b; [|reflexivity]. cbn [snd]. rewrite more_specific_None. reflexivity.
Qed.
Lemma group2 : forall s1 s2 b1 b2, selector_matches d s1 (ONode i) = Ok b1 -> selector_matches d s2 (ONode i) = Ok b2 ->
  specificity (sl s1) = specificity (sl s2) ->
  tag_matches d (ONode i) [sl s1; sl s2] = Ok ((b1 || b2)%bool, if (b1 || b2)%bool then Some (specificity (sl s1)) else None).
Proof.
  intros s1 s2 b1 b2 H1 H2 E. unfold tag_matches. cbn [tag_matches_from sl sl_tree]. rewrite H1. cbn [bind].
  destruct b1.
  - cbn [snd]. rewrite more_specific_None. cbn [bind]. rewrite H2. cbn [bind]. destruct b2; [|reflexivity].
    fold (sl s1) (sl s2). rewrite E. cbn [snd]. destruct (more_specific_Some (specificity (sl s2)) (specificity (sl s2))) as (b & -> & B).
    cbn [bind]. destruct b; reflexivity.
  - rewrite H2. cbn [bind]. destruct b2; [|reflexivity]. cbn [snd]. rewrite more_specific_None. cbn [bind orb]. fold (sl s2). now rewrite E.
Qed.

Lemma default_get : (forall m j, n_parent n = PNode j -> node_at d j = Some m -> n_data m = None \/ n_tag m = None) ->
  exists st, extra_settings t st /\ NoDup (dkeys st) /\
  get_for_tag d (ONode i) default_rules
    = Ok (match class_for t (in_ol d i) with Some c => Some (c, st) | None => None end).
Proof.
  intros HP.
  assert (OL : selector_matches d (chi (el "ol") (el "li")) (ONode i) = Ok (seqb t (lit "li") && (in_ol d i))%bool).
  { destruct ol_li_match as [H|(m & j & H1 & H2 & H3 & H4)]; auto. destruct (HP m j H1 H2); contradiction. }
  clear HP.
  destruct (pseudo_match _ _ (lit "first-child") (elem_match "p")) as (pf & PF & PFt).
  destruct (pseudo_match _ _ (lit "last-child") (elem_match "p")) as (pl & PL & PLt).
  destruct (pseudo_match _ _ (lit "first-child") PL) as (plf & PLF & PLFt).
  destruct (child_match "blockquote" _ _ PF) as (b1 & B1 & B1t).
  destruct (child_match "blockquote" _ _ PL) as (b2 & B2 & B2t).
  destruct (child_match "blockquote" _ _ PLF) as (b3 & B3 & B3t).
  destruct (pseudo_match _ _ (lit "first-child") (elem_match "li")) as (lf & LF & LFt).
  destruct (child2_match "li" "ol" _ _ LF) as (l1 & L1 & L1t).
  destruct (child2_match "li" "ul" _ _ LF) as (l2 & L2 & L2t).
  destruct (pseudo_match _ _ (lit "first-child") (elem_match "dt")) as (df & DF & DFt).
  assert (Gb : forall b, (b = true -> seqb t (lit "p") = true) -> b = (seqb t (lit "p") && b)%bool).
  { intros [|] H; [|now rewrite Bool.andb_false_r]. now rewrite H. }
  assert (Gl : forall b, (b = true -> seqb t (lit "li") = true) -> b = (seqb t (lit "li") && b)%bool).
  { intros [|] H; [|now rewrite Bool.andb_false_r]. now rewrite H. }
  assert (Gd : forall b, (b = true -> seqb t (lit "dt") = true) -> b = (seqb t (lit "dt") && b)%bool).
  { intros [|] H; [|now rewrite Bool.andb_false_r]. now rewrite H. }
  rewrite (Gb b1) in B1 by auto. rewrite (Gb b2) in B2 by auto. rewrite (Gb b3) in B3 by auto.
  rewrite (Gl lf) in LF by auto. rewrite (Gl l1) in L1 by auto. rewrite (Gl l2) in L2 by auto. rewrite (Gd df) in DF by auto.
  clear Gb Gl Gd.
  apply group1 in B1, B2, B3, LF, DF, OL.
  pose proof (group2 _ _ _ _ L1 L2 eq_refl) as L. clear L1 L2.
  assert (AM : forall (sels : list selector) (b : bool) (sp : spec3) (spec : rspec rcls) (rs : list (rule rcls)) (ms : list (spec3 * rspec rcls)), tag_matches d (ONode i) sels = Ok (b, if b then Some sp else None) ->
     all_matches d (ONode i) rs = Ok ms ->
     all_matches d (ONode i) (Rule sels spec :: rs) = Ok ((if b then [(sp, spec)] else []) ++ ms)).
  { intros sels b sp spec rs ms H1 H2. cbn [all_matches ru_sel ru_spec]. rewrite H1. cbn [bind]. rewrite H2. cbn [bind].
    destruct b; reflexivity. }
  eassert (E : all_matches d (ONode i) default_rules = Ok _).
  { change default_rules with (rules_of (tl default_table)).
    cbv [rules_of tl default_table map fst snd row margin_only].
    repeat first [ eapply (AM _ _ _ _ _ _ (tag_matches_el _)) | eapply (AM _ _ _ _ _ _ B1) | eapply (AM _ _ _ _ _ _ B2)
      | eapply (AM _ _ _ _ _ _ B3) | eapply (AM _ _ _ _ _ _ LF) | eapply (AM _ _ _ _ _ _ DF) | eapply (AM _ _ _ _ _ _ OL)
      | eapply (AM _ _ _ _ _ _ L) | reflexivity ]. }
  unfold get_for_tag. rewrite E. clear E AM B1 B2 B3 LF DF OL L. cbn [bind].
  unfold class_for. generalize (in_ol d i). intros ol.
  clear PF PFt PL PLt PLF PLFt B1t B2t B3t LFt L1t L2t DFt HT HN HD n pf pl plf.
  unfold extra_settings.
  Ltac one := first [ exists []; split; [left; reflexivity|]; split; [constructor|]; vm_compute; reflexivity
    | exists (margin_setting [0; 0; 1; 0]%Z); split; [right; left; split; [reflexivity|cbn [map In]; auto]|]; split; [repeat constructor; auto|]; vm_compute; reflexivity
    | exists (margin_setting [0; 0; 0; 0]%Z); split; [first [right; left; split; [reflexivity|cbn [map In]; auto; fail]
         | right; right; left; split; [reflexivity|cbn [map In]; auto; fail] | right; right; right; split; reflexivity ]|]; split; [repeat constructor; auto|]; vm_compute; reflexivity
    | exists (margin_setting [1; 0; 0; 0]%Z); split; [first [right; left; split; [reflexivity|cbn [map In]; auto; fail]
         | right; right; left; split; [reflexivity|cbn [map In]; auto; fail]]|]; split; [repeat constructor; auto|]; vm_compute; reflexivity ].
  destruct (seqb_spec t (lit "p")) as [->|Np]; [destruct b1, b2, b3; one|].
  destruct (seqb_spec t (lit "li")) as [->|Nl]; [destruct lf, l1, l2, ol; one|].
  destruct (seqb_spec t (lit "dt")) as [->|Nd]; [destruct df; one|].
  cbn [andb orb].
  exists []. split; [left; reflexivity|]. split; [constructor|].
  unfold plain_classes. cbn [class_of].
  rewrite !(proj2 (seqb_neq _ _) Np), !(proj2 (seqb_neq _ _) Nl), !(proj2 (seqb_neq _ _) Nd).
  repeat match goal with |- context [seqb t (lit ?k)] => destruct (seqb_spec t (lit k)) as [->|?]; [vm_compute; reflexivity|] end.
  reflexivity.
Qed.
End R.
