(** What is written out is a way of writing the document. *)
From Verif Require Import BaseFacts StrFacts TreeFacts TokFacts CrashFacts.
From Verif Require Export PrintSpec ChunkRead.
Open Scope N_scope.

Lemma in_table : forall k v, existsb (fun kv => String.eqb (fst kv) k && seqb (snd kv) v) html5 = true -> In (k, v) html5.
Proof.
  intros k v H. apply existsb_exists in H. destruct H as ((k' & v') & I0 & H). cbn [fst snd] in H. apply andb_true_iff in H. destruct H as [H1 H2]. apply String.eqb_eq in H1. apply seqb_eq in H2. now subst.
Qed.
Lemma amp_in : In ("amp;"%string, [38]) html5. Proof. apply in_table. vm_compute. reflexivity. Qed.
Lemma lt_in : In ("lt;"%string, [60]) html5. Proof. apply in_table. vm_compute. reflexivity. Qed.
Lemma gt_in : In ("gt;"%string, [62]) html5. Proof. apply in_table. vm_compute. reflexivity. Qed.
Lemma quot_in : In ("quot;"%string, [34]) html5. Proof. apply in_table. vm_compute. reflexivity. Qed.
Lemma escape_as : forall (ok : N -> Prop) m, (forall c, c <> 38 -> c <> 60 -> c <> 62 -> c <> 34 -> ok c) -> text_as true ok m (escape m).
Proof.
  intros ok m H. induction m as [|c m IH]; [constructor|]. unfold escape in *. cbn [flat_map].
  destruct (N.eqb_spec c 38) as [->|N1]; [exact (ta_named true ok "amp;" (lit "amp") [38] m _ amp_in eq_refl IH)|].
  destruct (N.eqb_spec c 60) as [->|N2]; [exact (ta_named true ok "lt;" (lit "lt") [60] m _ lt_in eq_refl IH)|].
  destruct (N.eqb_spec c 62) as [->|N3]; [exact (ta_named true ok "gt;" (lit "gt") [62] m _ gt_in eq_refl IH)|].
  destruct (N.eqb_spec c 34) as [->|N4]; [exact (ta_named true ok "quot;" (lit "quot") [34] m _ quot_in eq_refl IH)|].
  cbn [app]. apply ta_char; auto.
Qed.
Lemma escape_no_gt : forall m, ~ In 62 (escape m).
Proof.
  induction m as [|c m IH]; [intros []|]. unfold escape in *. cbn [flat_map]. rewrite in_app_iff. intros [K|K]; [|auto]. revert K.
  destruct (N.eqb_spec c 38); [vm_compute; intuition discriminate|]. destruct (N.eqb_spec c 60); [vm_compute; intuition discriminate|].
  destruct (N.eqb_spec c 62); [vm_compute; intuition discriminate|]. destruct (N.eqb_spec c 34); [vm_compute; intuition discriminate|]. intros [K|[]]. congruence.
Qed.
Lemma escape_nonempty : forall m, m <> [] -> escape m <> [].
Proof.
  intros [|c m] H; [now elim H|]. unfold escape. cbn [flat_map]. repeat (match goal with |- context [if ?b then _ else _] => destruct b; [discriminate|] end). discriminate.
Qed.
Lemma attrs_print : forall a, Forall (fun kv => attr_name (fst kv)) a -> exists b, attrs_as true a (flat_map print_attr a) b.
Proof.
  induction 1 as [|[k v] a (NE & FN & MS) F (b & IH)]; [exists false; constructor|]. cbn [fst] in *.
  assert (V : value_as true v (match v with None => [] | Some v => [61; 34] ++ escape v ++ [34] end) false).
  { destruct v as [v|]; [|constructor]. apply (va_quoted true 34 [] [] v (escape v)); try constructor; auto. { intros _. apply escape_no_gt. } { apply escape_as. auto. } }
  eexists. cbn [flat_map]. unfold print_attr at 1. cbn [fst snd]. change (32 :: k ++ match v with None => [] | Some v => [61; 34] ++ escape v ++ [34] end) with ([32] ++ k ++ match v with None => [] | Some v => [61; 34] ++ escape v ++ [34] end).
  rewrite <- !app_assoc. apply (aa_one true [32] k k v _ false a _ b); auto; [discriminate|]. constructor; [unfold html_blank; auto|constructor].
Qed.
Lemma start_print : forall t a, tag_name t -> Forall (fun kv => attr_name (fst kv)) a -> start_as true t a (60 :: t ++ flat_map print_attr a ++ [62]).
Proof. intros t a T F. destruct (attrs_print a F) as (b & A). apply (sa_plain true t a t _ b []); auto. Qed.
Lemma end_print : forall t, tag_name t -> end_as t ([60; 47] ++ t ++ [62]).
Proof. intros t T. apply (ea_end t [] t []); auto. Qed.
Lemma raw_name : forall t, raw_element t -> tag_name t.
Proof.
  assert (L : forall c, (97 <=? c) && (c <=? 122) = true -> ascii_letter c) by (intros c H; apply andb_true_iff in H; rewrite !N.leb_le in H; right; lia).
  intros t [->| ->]; (eexists; eexists; split; [reflexivity|]); (split; [apply L; reflexivity|]); (split; [|reflexivity]); repeat (apply Forall_cons; [left; apply L; reflexivity|]); apply Forall_nil.
Qed.
Lemma print_tag : forall raw h, at_tag (match h with HTag _ _ _ => print_html raw h | HText _ => [] end).
Proof. intros raw [t a kids|s]; [right; cbn [print_html]; eauto|now left]. Qed.
Lemma print_at : forall l, (match l with HText _ :: _ => False | _ => True end) -> at_tag (flat_map (print_html false) l).
Proof. intros [|[t a kids|s] l] H; [now left| |destruct H]. right. cbn [flat_map print_html app]. eauto. Qed.
Lemma print_written : forall doc, Forall printable doc -> texts_apart doc -> written true doc (print_doc doc).
Proof.
  assert (G : forall h, printable h -> forall rest src, (match h with HText m => m <> [] /\ at_tag src | _ => True end) -> written true rest src -> written true (h :: rest) (print_html false h ++ src)).
  { fix G 1. intros [t a kids|m] P rest src SIDE W.
    2: { destruct SIDE as (NE & AT). cbn [print_html]. apply wr_text; auto; [now apply escape_nonempty|]. apply escape_as. auto. }
    clear SIDE. inversion P as [|t0 a0 V TN FA|t0 a0 s RE RT FA|t0 a0 k0 V NR TN FA FK TA]; subst.
    - cbn [print_html]. rewrite V, app_nil_r. apply wr_void; auto. left. now apply start_print.
    - pose proof (raw_name t RE) as TN. cbn [print_html]. assert (NV : void t = false) by (destruct RE; subst; reflexivity). rewrite NV.
      replace (seqb t (lit "script") || seqb t (lit "style")) with true by (destruct RE; subst; reflexivity).
      replace (flat_map (print_html true) match s with [] => [] | _ :: _ => [HText s] end) with s by (destruct s; [reflexivity|cbn [flat_map print_html]; now rewrite app_nil_r]).
      replace ((60 :: t ++ flat_map print_attr a ++ [62] ++ s ++ [60; 47] ++ t ++ [62]) ++ src) with ((60 :: t ++ flat_map print_attr a ++ [62]) ++ s ++ ([60; 47] ++ t ++ [62]) ++ src)
        by (repeat (rewrite <- ?app_assoc; cbn [app]); reflexivity).
      apply wr_raw; auto; [now apply start_print|now apply end_print].
    - cbn [print_html]. rewrite V. assert (CD : seqb t (lit "script") || seqb t (lit "style") = false).
      { unfold raw_element in NR. destruct (seqb t (lit "script")) eqn:E1; [apply seqb_eq in E1; tauto|]. destruct (seqb t (lit "style")) eqn:E2; [apply seqb_eq in E2; tauto|reflexivity]. }
      rewrite CD.
      replace ((60 :: t ++ flat_map print_attr a ++ [62] ++ flat_map (print_html false) kids ++ [60; 47] ++ t ++ [62]) ++ src)
        with ((60 :: t ++ flat_map print_attr a ++ [62]) ++ flat_map (print_html false) kids ++ ([60; 47] ++ t ++ [62]) ++ src)
        by (repeat (rewrite <- ?app_assoc; cbn [app]); reflexivity).
      apply wr_element; auto; [now apply start_print| |now apply end_print].
      clear - G FK TA. induction kids as [|k kids IH]; [constructor|]. inversion FK; subst. cbn [flat_map]. apply G; auto.
      + destruct k as [|m]; [exact I|]. cbn [texts_apart] in TA. split; [apply TA|]. apply print_at. apply TA.
      + apply IH; auto. destruct k; cbn [texts_apart] in TA; apply TA. }
  intros doc F TA. unfold print_doc. induction F as [|h doc P F IH]; [constructor|]. cbn [flat_map]. apply G; auto.
  - destruct h as [|m]; [exact I|]. cbn [texts_apart] in TA. split; [apply TA|]. apply print_at. apply TA.
  - apply IH. destruct h; cbn [texts_apart] in TA; apply TA.
Qed.

(** ** Text in numbered lists *)
Fixpoint chk (l : list str) (h : list op) : Prop :=
  match h with
  | [] => True
  | o :: r => (match o with OData m => hd_error l = Some (lit "ol") -> all_space m = true | _ => True end) /\ chk (open_step o l) r
  end.
Lemma chk_app : forall a b l, chk l a -> chk (fold_left (fun l o => open_step o l) a l) b -> chk l (a ++ b).
Proof. induction a as [|o a IH]; intros b l A B; [exact B|]. destruct A as (A1 & A2). cbn [app chk]. split; auto. Qed.
Lemma chk_blank : forall h B, chk (open_after B) h -> blank_in_ol B h.
Proof.
  intros h B H h1 m h2 -> K. unfold open_after in *. rewrite fold_left_app in K. revert H K. generalize (fold_left (fun l o => open_step o l) B []). induction h1 as [|o h1 IH]; intros l H K; cbn [app chk fold_left] in *; [apply H, K|]. apply (IH _ (proj2 H) K).
Qed.
Definition in_list (l : list str) : bool := match l with t :: _ => seqb t (lit "ol") | [] => false end.
Lemma written_chk {sm} : forall doc src, written sm doc src -> forall l, forallb (tidy (in_list l)) doc = true ->
  chk l (flat_map events doc) /\ fold_left (fun l o => open_step o l) (flat_map events doc) l = l.
Proof.
  assert (OS : forall t a l, void t = false -> open_step (OStart t a) l = t :: l) by (intros; cbn [open_step]; now rewrite H).
  assert (OE : forall t l, void t = false -> open_step (OEnd t) (t :: l) = l) by (intros; cbn [open_step]; now rewrite H, (seqb_refl t)).
  assert (X : forall m l, negb (in_list l) || all_space m = true -> hd_error l = Some (lit "ol") -> all_space m = true).
  { intros m l D K. destruct l as [|t l]; [discriminate|]. injection K as ->. exact D. }
  intros doc src H. induction H as [|m s rest src NE T AT W IH|t a st kids ks en rest src NR NV ST WK IHK EN W IH
    |t a st rest src NV ST W IH|t a st rest src V ST W IH|t a st s en rest src RE ST R EN W IH|x rest src A W IH]; intros l D; cbn [forallb] in D; try (apply andb_true_iff in D; destruct D as [D1 D2]; destruct (IH l D2) as (I1 & I2)); cbn [flat_map events].
  - split; [exact I|reflexivity].
  - cbn [app chk fold_left open_step]. split; [split; [now apply X|exact I1]|exact I2].
  - cbn [tidy] in D1. destruct (IHK (t :: l) D1) as (K1 & K2). rewrite NV. split.
    + apply chk_app; cbn [app chk fold_left]; rewrite OS by exact NV; [split; [exact I|]; apply chk_app; [exact K1|cbn; auto]|].
      rewrite fold_left_app, K2. cbn [fold_left]. rewrite OE by exact NV. exact I1.
    + rewrite fold_left_app. cbn [fold_left]. rewrite OS, fold_left_app, K2 by exact NV. cbn [fold_left]. rewrite OE by exact NV. exact I2.
  - rewrite NV. cbn [flat_map app chk fold_left]. rewrite OS, OE by exact NV. auto.
  - rewrite V. cbn [flat_map app chk fold_left open_step]. rewrite V. auto.
  - assert (NV : void t = false) by (destruct RE; subst; reflexivity). rewrite NV. cbn [app chk fold_left]. rewrite OS by exact NV. destruct s as [|c s]; cbn [flat_map events app chk fold_left].
    + rewrite OE by exact NV. auto.
    + cbn [open_step]. fold (open_step (OEnd t) (t :: l)). rewrite OE by exact NV. split; [|exact I2]. split; [exact I|]. split; [|auto]. intros K. exfalso. injection K as K. destruct RE; subst t; discriminate.
  - apply IH. exact D.
Qed.
Lemma tidy_blank {sm} : forall doc src, written sm doc src -> forallb (tidy false) doc = true -> blank_in_ol [] (flat_map events doc).
Proof. intros doc src W D. apply chk_blank. apply (written_chk doc src W [] D). Qed.
Close Scope N_scope.
