(** Deciding that tables are good. *)
From Verif Require SgrProps FormatProps ElemFacts.
From Verif Require Import WrapFacts WrapLoop WrapWidth.
From Verif Require Import BaseFacts StrFacts SelFacts DressFacts StyleRules StyleShow.
From Verif Require Export SafeFacts.
Open Scope Z_scope.

Section S.
Context `{U : Uni}.

(** ** Templates *)
Fixpoint reads (acc : str) (inside : bool) (t : str) : list piece :=
  match t with
  | [] => if inside then [] else [PText acc]
  | c :: r =>
      if inside then if (c =? 125)%N then (match acc with [] => PNext | _ => PName acc end) :: reads [] false r else reads (acc ++ [c]) true r
      else if (c =? 123)%N then PText acc :: reads [] true r else reads (acc ++ [c]) false r
  end.
Definition places (ps : list piece) : nat := length (filter (fun p => match p with PNext => true | _ => false end) ps).
Definition piece_check (names : list string) (p : piece) : bool :=
  match p with
  | PText _ | PNext => true
  | PNumber _ => false
  | PName s => existsb (fun n => seqb s (lit n)) names && negb (seqb s []) && forallb name_char s
  end.
Definition template_check (n : nat) (names : list string) (t : str) : bool :=
  let ps := reads [] false t in seqb (written ps) t && Nat.leb (places ps) n && forallb (piece_check names) ps.
Lemma pieces_fill : forall args kws names, (forall n, In n names -> dget (lit n) kws <> None) ->
  forall ps k, (k + places ps <= length args)%nat -> forallb (piece_check names) ps = true -> exists out, filled args kws k ps out.
Proof.
  intros args kws names NK ps. induction ps as [|p ps IH]; intros k L C; [eexists; constructor|]. cbn [forallb] in C. apply andb_prop in C as [C1 C2].
  destruct p as [s| |n|s].
  - destruct (IH k) as (out & H); auto. eexists. constructor; eauto.
  - unfold places in L. cbn [filter length] in L. fold (places ps) in L. destruct (IH (S k)) as (out & H); [lia|auto|]. destruct (nth_error args k) as [a|] eqn:E; [|apply nth_error_None in E; lia]. eexists. eapply fi_next; eauto.
  - discriminate C1.
  - destruct (IH k) as (out & H); auto. cbn [piece_check] in C1. apply andb_prop in C1 as [C1 C3]. apply andb_prop in C1 as [C1 C4]. apply existsb_exists in C1 as (n & J & E). apply seqb_eq in E. subst s.
    destruct (dget (lit n) kws) as [a|] eqn:D; [|elim (NK n J D)]. eexists. eapply fi_name; eauto. split; auto. intros E. rewrite E in C4. discriminate.
Qed.
Lemma template_checked : forall args kws names t, template_check (length args) names t = true -> (forall n, In n names -> dget (lit n) kws <> None) -> fillable args kws t.
Proof.
  intros args kws names t C NK. unfold template_check in C. cbv zeta in C. apply andb_prop in C as [C C3]. apply andb_prop in C as [C1 C2]. apply seqb_eq in C1. apply Nat.leb_le in C2.
  destruct (pieces_fill args kws names NK (reads [] false t) 0) as (out & H); auto. exists out. rewrite <- C1. apply filled_formats; auto. right. intros n J. rewrite forallb_forall in C3. discriminate (C3 _ J).
Qed.
Lemma text_checked : forall t, template_check 1 [] t = true -> takes_text t.
Proof. intros t C x. now apply template_checked with (names := []). Qed.

(** ** Values *)
Definition str_check (f : str -> bool) (v : val) : bool := match v with VStr t => f t | _ => true end.
Definition templates_good_check (k : kind) (v : val) : bool :=
  match k with
  | KLink => match v with
             | VDict d => match dget (lit "inline") d, dget (lit "reference") d with
                          | Some (VList (VStr p :: VStr t :: _)), Some (VStr r) =>
                              template_check 0 ["content"; "href"]%string p && template_check 0 ["content"; "href"; "title"]%string t
                              && template_check 0 ["content"; "link_reference"]%string r
                          | _, _ => true
                          end
             | _ => true
             end
  | KImage => match v with
              | VDict d => match dget (lit "inline") d, dget (lit "reference") d with
                           | Some (VStr p), Some (VStr r) => template_check 0 ["href"; "title"]%string p && template_check 0 ["title"; "link_reference"]%string r
                           | _, _ => true
                           end
              | _ => true
              end
  | KExtLink | KExtImage =>
      match v with
      | VList (VStr p :: VStr t :: _) => template_check 0 ["description"; "link_reference"; "href"]%string p
                                         && template_check 0 ["description"; "link_reference"; "href"; "title"]%string t
      | _ => true
      end
  | _ => true
  end.
Definition colour_check (v : val) : bool :=
  negb (truth v) || match colour_sequence v false, colour_sequence v true with Ok _, Ok _ => true | _, _ => false end.
Definition value_check (k : kind) (key : str) (v : val) : bool :=
  let is := fun names => existsb (fun n => seqb key (lit n)) names in
  if is ["template"; "line_template"; "block_template"; "inline_template"]%string then str_check (template_check 1 []) v
  else if is ["gophermap_template"]%string then str_check (template_check 0 ["description"; "link_reference"; "selector"; "type"; "host"; "port"]%string) v
  else if is ["templates"]%string then templates_good_check k v
  else if is ["foreground_colour"; "background_colour"]%string then colour_check v
  else if is ["font"]%string then match v with VNone => true | _ => false end
  else true.
Local Ltac there := intros nm J; cbn [In] in J; repeat (destruct J as [<-|J]; [vm_compute; discriminate|]); destruct J.
Lemma value_checked : forall k key v, value_check k key v = true -> good_value k key v.
Proof.
  intros k key v H. unfold value_check in H. unfold good_value. cbv zeta in *.
  destruct (existsb _ _). { intros t ->. now apply text_checked. }
  destruct (existsb _ _). { intros t -> c n to. eapply template_checked; [exact H|]. there. }
  destruct (existsb _ _).
  { destruct k; try exact I; cbn [templates_good_check good_templates] in *.
    - intros d p t rest r -> E1 E2. rewrite E1, E2 in H. apply andb_prop in H as [H H3]. apply andb_prop in H as [H1 H2].
      split; [|split]; intros; (eapply template_checked; [first [exact H1|exact H2|exact H3]|there]).
    - intros d p r -> E1 E2. rewrite E1, E2 in H. apply andb_prop in H as [H1 H2]. split; intros; (eapply template_checked; [first [exact H1|exact H2]|there]).
    - intros p t rest ->. apply andb_prop in H as [H1 H2]. split; intros; (eapply template_checked; [first [exact H1|exact H2]|there]).
    - intros p t rest ->. apply andb_prop in H as [H1 H2]. split; intros; (eapply template_checked; [first [exact H1|exact H2]|there]). }
  destruct (existsb _ _). { intros T bg. unfold colour_check in H. rewrite T in H. cbn [negb orb] in H.
    destruct (colour_sequence v false) as [c1|] eqn:E1; [|discriminate]. destruct (colour_sequence v true) as [c2|] eqn:E2; [|discriminate].
    destruct bg; eexists; apply SgrProps.C82_colour; eassumption. }
  destruct (existsb _ _); [destruct v; now try discriminate|exact I].
Qed.
Definition values_good_check (k : kind) (s : settings) : bool := forallb (fun p => value_check k (fst p) (snd p)) s.
Lemma values_good : forall k s, values_good_check k s = true -> forall key v, dget key s = Some v -> good_value k key v.
Proof.
  intros k s H key v E. apply value_checked. revert E. unfold values_good_check in H. induction s as [|[k' v'] s IH]; cbn [dget]; [discriminate|]. cbn [forallb fst snd] in H. apply andb_prop in H as [H1 H2].
  destruct (seqb_spec key k') as [->|]; [intros E; now injection E as <-|auto].
Qed.

(** ** Classes *)
Definition has_check (s : settings) (keys : list string) : bool := forallb (fun key => match dget (lit key) s with Some _ => true | None => false end) keys.
Lemma has_checked : forall s keys, has_check s keys = true -> forall key, In key keys -> dget (lit key) s <> None.
Proof. intros s keys H key J. unfold has_check in H. rewrite forallb_forall in H. specialize (H key J). destruct (dget (lit key) s); [discriminate|discriminate H]. Qed.
Definition class_good_check (cl : rcls) : bool :=
  let s := class_settings cl in
  values_good_check (rc_kind cl) (match rc_kind cl with KOrdered => ddel (lit "line_template") s | _ => s end)
  && match rc_kind cl with
     | KOrdered => match dget (lit "line_template") s with Some (VStr t) => seqb t (lit "{0}. {1}") | _ => false end
     | KAnsi => has_check s (map fst SgrSpec.effects) && has_check s ["normalise"; "font"; "foreground_colour"; "background_colour"]%string
     | KOwn _ | KOwnBlock _ => false
     | _ => true
     end.
Lemma decimal_braceless : forall n, FormatProps.braceless (str_of_Z n).
Proof.
  intros n c J K. pose proof (ElemFacts.str_of_Z_plain n) as H. rewrite forallb_forall in H. specialize (H c J).
  unfold FormatSpec.one_of in K. vm_compute in K. destruct K as [<-|[<-|[]]]; discriminate H.
Qed.
Lemma ordered_label : forall n, exists label, formats [FInt n; FStr (lit "{}")] [] (lit "{0}. {1}") label /\ takes_text label.
Proof.
  intros n. exists (str_of_Z n ++ lit ". " ++ lit "{}" ++ []). split.
  - change (lit "{0}. {1}") with (written [PNumber 0; PText (lit ". "); PNumber 1]). apply filled_formats; [left; intros [H|[H|[H|[]]]]; discriminate|].
    eapply (fi_number _ _ 0%nat 0%N (FInt n)); [vm_compute; discriminate|reflexivity|]. apply fi_text. eapply (fi_number _ _ 0%nat 1%N (FStr (lit "{}"))); [vm_compute; discriminate|reflexivity|constructor].
  - rewrite app_assoc. apply around_text; [|intros c []]. intros c J. apply in_app_or in J as [J|J]; [exact (decimal_braceless n c J)|].
    unfold FormatSpec.one_of. vm_compute in J |- *. destruct J as [<-|[<-|[]]]; intros [H|[H|[]]]; discriminate.
Qed.
Lemma class_good : forall cl, class_good_check cl = true -> good_class cl.
Proof.
  intros cl H. unfold class_good_check in H. cbv zeta in H. apply andb_prop in H as [H1 H2]. split.
  - intros key v E N. eapply values_good; [exact H1|]. destruct (rc_kind cl) eqn:K; auto. rewrite dget_ddel_other; auto.
  - destruct (rc_kind cl); auto; try discriminate H2.
    + apply andb_prop in H2 as [H2 H3]. split; [|exact (has_checked _ _ H3)]. intros e J. apply (has_checked _ _ H2). now apply in_map.
    + intros t n T. unfold template_set in T. rewrite T in H2. apply seqb_eq in H2. subst t. apply ordered_label.
Qed.

(** ** Selectors *)
(** The name an element must have. *)
Fixpoint subject (s : sel) : option str :=
  match s with
  | SElement n => n
  | SClass s1 _ | SHash s1 _ | SNegation s1 _ | SAttrib s1 _ _ _ | SPseudo s1 _ | SFunction s1 _ _ => subject s1
  | SCombined _ _ s2 => subject s2
  | SOther => None
  end.
Lemma subject_judged : forall s before i t a kids after up n, judged s (Spot before (Tag i t a kids) after :: up) Yes -> subject s = Some n -> t = n.
Proof.
  intros s before i t a kids after up. induction s; intros n0 J E; cbn [subject] in E; cbn [judged] in J; unfold provided, and_then, says in J; try discriminate.
  - subst. destruct J as [[-> _]|[_ J]]; [reflexivity|discriminate].
  - destruct J as [[_ J]|[_ J]]; [eauto|discriminate].
  - destruct J as [[_ J]|[_ J]]; [eauto|discriminate].
  - destruct J as [[J _]|[_ J]]; [eauto|congruence].
  - destruct J as [[J _]|[_ J]]; [eauto|congruence].
  - destruct J as [[_ J]|[_ J]]; [eauto|discriminate].
  - destruct J as [[_ J]|[_ J]]; [|discriminate]. destruct args as [|x args]; [discriminate|]. destruct J as [[_ J]|(k & _ & J)]; [discriminate|]. destruct J as [[_ J]|(_ & p & _ & J)]; [discriminate|].
    destruct J as [[_ [[_ J]|[_ J]]]|[_ J]]; [eauto|discriminate|discriminate].
  - destruct J as [[_ J]|[_ J]]; [|discriminate]. destruct J as [[J _]|[_ J]]; [eauto|congruence].
Qed.
Definition digit_tag (t : str) : bool := match t with _ :: n :: _ => ((48 <=? n) && (n <=? 57))%N | _ => false end.
Definition tag_check (k : kind) (t : str) : bool :=
  match k with
  | KLink => seqb t (lit "a")
  | KImage => seqb t (lit "img")
  | KMdHeader => digit_tag t
  | _ => false
  end.
Definition suits_all (k : kind) : bool := match k with KLink | KImage | KMdHeader | KExtLink | KExtImage => false | _ => true end.
Definition suits_check (ru : rule rcls) : bool :=
  match rule_renderer (ru_spec ru) with
  | None => true
  | Some cl => suits_all (rc_kind cl) || forallb (fun s => match subject (sl_tree s) with Some t => tag_check (rc_kind cl) t | None => false end) (ru_sel ru)
  end.
Lemma suits_any : forall cl t, suits_all (rc_kind cl) = true -> suits cl t.
Proof. intros cl t H. unfold suits. destruct (rc_kind cl); try discriminate H; exact I. Qed.
Lemma suits_checked : forall ru cl sp before i t a kids after up, suits_check ru = true -> names (ru_spec ru) cl ->
  reaches (ru_sel ru) (Spot before (Tag i t a kids) after :: up) sp -> suits cl t.
Proof.
  intros ru cl sp before i t a kids after up H N (s & J & Y & _). unfold suits_check in H. unfold names in N. rewrite N in H. apply orb_prop in H as [H|H]; [now apply suits_any|].
  rewrite forallb_forall in H. specialize (H s J). destruct (subject (sl_tree s)) as [n|] eqn:E; [|discriminate]. pose proof (subject_judged _ _ _ _ _ _ _ _ _ Y E) as ->. unfold suits. unfold tag_check in H.
  destruct (rc_kind cl); try discriminate H; try (now apply seqb_eq in H). destruct n as [|c [|d rest]]; try discriminate H. cbn [digit_tag] in H. apply andb_prop in H as [H1 H2]. apply N.leb_le in H1, H2.
  eexists. exists c, d, (d - 48)%N, rest. split; auto. split; [left; auto|reflexivity].
Qed.

(** ** Tables *)
Definition spec_good_check (k : kind) (r : rspec rcls) : bool := match r with RPair _ (Some s) => values_good_check k s | _ => true end.
Definition lists_tag (t : string) (ru : rule rcls) : bool :=
  match ru_sel ru, rule_renderer (ru_spec ru) with
  | [Selector (SElement (Some n)) _], Some _ => seqb n (lit t)
  | _, _ => false
  end.
Definition tables_good_check (g : cfg) : bool :=
  let specs := g_default g :: map (@ru_spec rcls) (g_rules g) in
  let ext := (match g_ext_a g with Some r => [r] | None => [] end) ++ map (@ru_spec rcls) (g_ext_rules g) in
  match rule_renderer (g_default g) with Some cl => suits_all (rc_kind cl) | None => false end
  && forallb (fun r => match rule_renderer r with Some cl => class_good_check cl && forallb (spec_good_check (rc_kind cl)) specs | None => true end) specs
  && forallb suits_check (g_rules g)
  && forallb (fun r => match rule_renderer r with Some cl => class_good_check cl && (match rc_kind cl with KMdHeader => false | _ => true end) | None => true end) ext
  && existsb (lists_tag "a") (g_ext_rules g) && existsb (lists_tag "img") (g_ext_rules g).
Lemma lists_not_silent : forall t rules before i a kids after up, existsb (lists_tag t) rules = true ->
  ~ silent rules (Spot before (Tag i (lit t) a kids) after :: up) rule_renderer.
Proof.
  intros t rules before i a kids after up H SI. apply existsb_exists in H as (ru & J & H). unfold lists_tag in H. destruct (ru_sel ru) as [|[[[n|]| | | | | | | |] b] [|]] eqn:ES; try discriminate.
  destruct (rule_renderer (ru_spec ru)) as [cl|] eqn:ER; [|discriminate]. apply seqb_eq in H. subst n. apply In_nth_error in J as (k & J).
  assert (R : reaches (ru_sel ru) (Spot before (Tag i (lit t) a kids) after :: up) (specificity (Selector (SElement (Some (lit t))) b))).
  { rewrite ES. eexists. split; [now left|]. split; [left; auto|]. split; [reflexivity|]. intros s' [<-|[]] _. apply lex_irrefl. }
  rewrite (SI _ _ _ J R) in ER. discriminate.
Qed.
Lemma tables_good : forall g, tables_good_check g = true -> good_tables g.
Proof.
  intros g H. unfold tables_good_check in H. cbv zeta in H. apply andb_prop in H as [H H6]. apply andb_prop in H as [H H5]. apply andb_prop in H as [H H4]. apply andb_prop in H as [H H3]. apply andb_prop in H as [H1 H2].
  rewrite forallb_forall in H2, H3, H4.
  assert (SP : forall r, in_table g r -> In r (g_default g :: map (@ru_spec rcls) (g_rules g))).
  { intros r [->|(ru & J & ->)]; [now left|]. right. now apply in_map. }
  split.
  - intros E. rewrite E in H1. discriminate.
  - intros r cl J N. specialize (H2 r (SP r J)). unfold names in N. rewrite N in H2. apply andb_prop in H2 as [A B]. split; [now apply class_good|].
    intros r' key v J' E. rewrite forallb_forall in B. specialize (B r' (SP r' J')). destruct r' as [|c' [s'|]]; try discriminate E. cbn [spec_good_check rule_setting] in *. eapply values_good; eauto.
  - intros cl t N. unfold names in N. rewrite N in H1. now apply suits_any.
  - intros ru cl sp before i t a kids after up J N R. eapply suits_checked; eauto.
  - intros r cl J N. assert (J' : In r ((match g_ext_a g with Some r => [r] | None => [] end) ++ map (@ru_spec rcls) (g_ext_rules g))).
    { apply in_or_app. destruct J as [->|(ru & J & ->)]; [left; now left|]. right. now apply in_map. }
    specialize (H4 r J'). unfold names in N. rewrite N in H4. apply andb_prop in H4 as [A B]. split; [now apply class_good|]. intros K. rewrite K in B. discriminate.
  - intros before i t a kids after up L. left. unfold is_link_tag, is_a, is_img in L. apply orb_prop in L as [L|L]; apply seqb_eq in L; subst t; now apply lists_not_silent.
Qed.

(** ** Indents *)
Definition indent_check (s : settings) : bool :=
  forallb (fun p => negb (existsb (fun n => seqb (fst p) (lit n)) ["initial_indent"; "subsequent_indent"]%string) || match snd p with VInt n => n <=? 0 | _ => true end) s.
Lemma indent_checked : forall s, indent_check s = true -> forall key n, In key ["initial_indent"; "subsequent_indent"]%string -> int_set s key n -> n <= 0.
Proof.
  intros s H key n J. unfold int_set. unfold indent_check in H. induction s as [|[k v] s IH]; cbn [dget]; [discriminate|]. cbn [forallb fst snd] in H. apply andb_prop in H as [H1 H2].
  destruct (seqb_spec (lit key) k) as [<-|]; [|auto]. intros E. injection E as ->. apply orb_prop in H1 as [H1|H1]; [|now apply Z.leb_le].
  destruct J as [<-|[<-|[]]]; vm_compute in H1; discriminate.
Qed.
Definition flush_check (g : cfg) : bool :=
  forallb (fun r => match rule_renderer r with Some cl => indent_check (class_settings cl) | None => true end && match r with RPair _ (Some s) => indent_check s | _ => true end)
    (g_default g :: map (@ru_spec rcls) (g_rules g))
  && forallb (fun r => match rule_renderer r with Some cl => indent_check (class_settings cl) | None => true end)
    ((match g_ext_a g with Some r => [r] | None => [] end) ++ map (@ru_spec rcls) (g_ext_rules g)).
Lemma flush_checked : forall g, flush_check g = true -> flush_tables g.
Proof.
  intros g H. unfold flush_check in H. apply andb_prop in H as [H1 H2]. rewrite forallb_forall in H1, H2.
  assert (SP : forall r, in_table g r -> In r (g_default g :: map (@ru_spec rcls) (g_rules g))).
  { intros r [->|(ru & J & ->)]; [now left|]. right. now apply in_map. }
  split.
  - intros r cl [J|J] N key n. unfold names in N.
    + specialize (H1 r (SP r J)). apply andb_prop in H1 as [H1 _]. rewrite N in H1. now apply indent_checked.
    + assert (J' : In r ((match g_ext_a g with Some r => [r] | None => [] end) ++ map (@ru_spec rcls) (g_ext_rules g))).
      { apply in_or_app. destruct J as [->|(ru & J & ->)]; [left; now left|]. right. now apply in_map. }
      specialize (H2 r J'). rewrite N in H2. now apply indent_checked.
  - intros r key n J K E. specialize (H1 r (SP r J)). apply andb_prop in H1 as [_ H1]. destruct r as [|c [s|]]; try discriminate E. exact (indent_checked s H1 key n K E).
Qed.
End S.
Close Scope Z_scope.
