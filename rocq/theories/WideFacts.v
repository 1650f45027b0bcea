(** What the size of the page has to do with its failing. *)
From Verif Require FormatMain.
From Verif Require Import WrapFacts WrapLoop WrapWidth.
From Verif Require Import BaseFacts StrFacts SelFacts DressFacts StyleRules StyleShow SafeFacts SafeMain DepthFacts.
From Verif Require Export WideSpec.
Open Scope Z_scope.

Section S.
Context `{U : Uni}.
Definition set_box (g : cfg) (b : box) : cfg :=
  Cfg b (g_format g) (g_link g) (g_image g) (g_host g) (g_port g) (g_rules g) (g_default g) (g_ext_rules g) (g_ext_a g) (g_optimise g).
Lemma construct_boxed : forall o g b, construct o = Ok g -> construct (boxed o b) = Ok (set_box g b).
Proof.
  intros o g b H. unfold construct in *. cbn [boxed o_format o_link o_host o_box o_renderers o_ext o_image o_port o_optimise].
  destruct (_ && _); [discriminate|]. destruct (_ && _); [discriminate|]. cbv zeta in *. destruct (dget [] _) as [[x r]|]; [|discriminate]. injection H as <-. reflexivity.
Qed.
Lemma error_boxed : forall g b h before, feed_error_from (set_box g b) before h = feed_error_from g before h.
Proof. induction h as [|o h IH]; intros before; [reflexivity|]. cbn [feed_error_from]. rewrite IH. reflexivity. Qed.
Lemma given_boxed : forall g b listed z cl s, given (set_box g b) listed z cl s <-> given g listed z cl s.
Proof. intros. reflexivity. Qed.
Lemma room_boxed : forall k s page page' inner, room_in k s page inner ->
  exists inner', room_in k s page' inner' /\ wrap_width inner' - wrap_width page' = wrap_width inner - wrap_width page.
Proof.
  intros k s page page' inner R. unfold room_in in *. destruct (takes_block k); [|subst; exists page'; split; [reflexivity|lia]].
  destruct R as (x & label & W & B & L & ->). eexists. split; [exists x, label; repeat split; eauto; apply W|]. unfold wrap_width, line_width, child_box, both, add_lr. cbn. lia.
Qed.
(** The same places are on both pages; the room there differs as the pages do. *)
Lemma placed_boxed : forall g F b listed z page, placed_in g F listed z page ->
  exists page', placed_in (set_box g b) F listed z page' /\ wrap_width page' - wrap_width b = wrap_width page - wrap_width (g_box g).
Proof.
  intros g F b listed z page H. induction H.
  - exists b. split; [now apply (in_body (set_box g b))|cbn; lia].
  - exists b. split; [now apply (in_foot (set_box g b))|cbn; lia].
  - destruct IHplaced_in as (page' & P & E). destruct (room_boxed _ _ _ page' _ H1) as (inner' & R & E'). exists inner'. split; [|lia].
    exact (in_place (set_box g b) F _ _ _ _ _ _ _ P H0 R H2).
  - destruct IHplaced_in as (page' & P & E). destruct (room_boxed _ _ _ page' _ H2) as (inner' & R & E'). exists inner'. split; [|lia].
    exact (in_list (set_box g b) F _ _ _ _ _ _ _ _ _ _ _ _ P H0 H1 R H3).
Qed.
Lemma cramped_boxed : forall g b listed z page page', cramped g listed z page EValue -> wrap_width page' <= wrap_width page -> cramped (set_box g b) listed z page' EValue.
Proof.
  intros g b listed z page page' C L. inversion C as [cl s w a c G LO (x & t & j & cfg & W & T & J & NJ & WS & -> & A & B) N|]; subst.
  eapply (cr_none (set_box g b)) with (cl := cl) (s := s); [exact G|exact LO|exists x, t, j, cfg; do 7 (split; [eassumption || reflexivity|]); reflexivity|]. unfold text_room in *. lia.
Qed.
Lemma flush_boxed : forall g F b, flush_page g F -> flush_page (set_box g b) F.
Proof.
  intros g F b H listed z page cl s P G. destruct (placed_boxed _ _ (g_box g) _ _ _ P) as (page' & P' & _). destruct g. exact (H _ _ _ _ _ P' G).
Qed.
End S.

(** ** Room enough *)
Section T.
Context `{U : Uni}.
Variable g : cfg.
Definition value_size (v : val) : Z :=
  match v with
  | VList (VInt _ :: VInt r :: VInt _ :: VInt l :: _) => Z.abs r + Z.abs l
  | VList (VStr _ :: VStr r :: VStr _ :: VStr l :: _) | VTuple (VStr _ :: VStr r :: VStr _ :: VStr l :: _) => len r + len l
  | VStr t => len t
  | _ => 0
  end.
Lemma len_pos : forall s, 0 <= len s. Proof. intros s. unfold len. lia. Qed.
Lemma value_pos : forall v, 0 <= value_size v.
Proof.
  intros v. unfold value_size, len. repeat match goal with |- context [match ?x with _ => _ end] => is_var x; destruct x end; lia.
Qed.
Definition sum_of {A} (f : A -> Z) (l : list A) : Z := fold_right (fun x n => f x + n) 0 l.
Lemma sum_of_pos : forall A (f : A -> Z) l, (forall x, 0 <= f x) -> 0 <= sum_of f l.
Proof. intros A f l H. induction l as [|x l IH]; cbn [sum_of fold_right]; [lia|]. specialize (H x). unfold sum_of in IH. lia. Qed.
Lemma sum_of_in : forall A (f : A -> Z) l x, (forall x, 0 <= f x) -> In x l -> f x <= sum_of f l.
Proof.
  intros A f l x H J. induction l as [|y l IH]; [destruct J|]. cbn [sum_of fold_right]. fold (sum_of f l). pose proof (sum_of_pos _ f l H). specialize (H y). destruct J as [->|J]; [lia|]. specialize (IH J). lia.
Qed.
Definition settings_size (s : settings) : Z := sum_of (fun p => value_size (snd p)) s.
Lemma got_size : forall s key v, dget key s = Some v -> value_size v <= settings_size s.
Proof.
  intros s key v E. assert (J : In (key, v) s).
  { induction s as [|[k w] s IH]; [discriminate|]. cbn [dget] in E. destruct (seqb_spec key k) as [->|]; [injection E as ->; now left|right; auto]. }
  exact (sum_of_in _ (fun p => value_size (snd p)) s _ (fun p => value_pos _) J).
Qed.
Definition spec_size (r : rspec rcls) : Z :=
  match rule_renderer r with Some cl => settings_size (class_settings cl) | None => 0 end + match r with RPair _ (Some s) => settings_size s | _ => 0 end.
Lemma settings_pos : forall s, 0 <= settings_size s. Proof. intros s. apply sum_of_pos. intros. apply value_pos. Qed.
Lemma spec_pos : forall r, 0 <= spec_size r.
Proof. intros r. unfold spec_size. assert (0 <= match rule_renderer r with Some cl => settings_size (class_settings cl) | None => 0 end) by (destruct (rule_renderer r); [apply settings_pos|lia]). destruct r as [|? [s|]]; try lia. pose proof (settings_pos s). lia. Qed.
Definition label_size (index : nat) (r : rspec rcls) : Z :=
  match rule_renderer r with
  | Some cl =>
      match dget (lit "line_template") (class_settings cl), dget (lit "start_index") (class_settings cl), dget (lit "step") (class_settings cl) with
      | Some (VStr t), Some (VInt st), Some (VInt sp) =>
          match format t [FInt (st + Z.of_nat index * sp); FStr (lit "{}")] [] with Ok x => len x | Err _ => 0 end
      | _, _, _ => 0
      end
  | None => 0
  end.
Lemma label_pos : forall i r, 0 <= label_size i r.
Proof.
  intros i r. unfold label_size. destruct (rule_renderer r) as [cl|]; [|lia]. destruct (dget (lit "line_template") _) as [[]|]; try lia. destruct (dget (lit "start_index") _) as [[]|]; try lia.
  destruct (dget (lit "step") _) as [[]|]; try lia. destruct (format _ _ _); [apply len_pos|lia].
Qed.
Definition specs : list (rspec rcls) := (g_default g :: map (@ru_spec rcls) (g_rules g)) ++ (match g_ext_a g with Some r => [r] | None => [] end) ++ map (@ru_spec rcls) (g_ext_rules g).
Lemma in_specs : forall r, in_table g r \/ in_list_table g r -> In r specs.
Proof.
  intros r [[->|(ru & J & ->)]|[E|(ru & J & ->)]]; unfold specs.
  - now left.
  - apply in_or_app. left. right. now apply in_map.
  - apply in_or_app. right. apply in_or_app. left. rewrite E. now left.
  - apply in_or_app. right. apply in_or_app. right. now apply in_map.
Qed.
Definition ample (z : site) : Z :=
  4 * sum_of spec_size specs + match z with Spot before _ _ :: _ => sum_of (label_size (length before)) specs | [] => 0 end.
Lemma ample_pos : forall z, 0 <= ample z.
Proof.
  intros z. unfold ample. pose proof (sum_of_pos _ _ specs spec_pos). destruct z as [|[before t after] up]; [lia|]. pose proof (sum_of_pos _ _ specs (label_pos (length before))). lia.
Qed.
Lemma sides_size : forall s key x m, (forall v, dget (lit key) s = Some v -> value_size v <= m) -> 0 <= m -> sides_set s key x -> both x <= m.
Proof.
  intros s key x m H P S. unfold sides_set in S. destruct (dget (lit key) s) as [v|]; [|subst; cbn; lia]. specialize (H v eq_refl).
  destruct v; try (destruct S as (r & S); discriminate S); [subst; cbn; lia|]. destruct S as (r & S). rewrite S in H. cbn [value_size] in H. unfold both. lia.
Qed.
Lemma settled_frame : forall cl tg index over s x label m n,
  settled cl tg index over s -> (forall key v, dget key over = Some v -> value_size v <= m) -> (forall key v, dget key (class_settings cl) = Some v -> value_size v <= m) ->
  (forall lb, item_label cl index lb -> len lb <= n) -> 0 <= m -> 0 <= n -> rc_kind cl <> KMdHeader \/ takes_label (rc_kind cl) = false ->
  wears s x -> (if takes_label (rc_kind cl) then template_set s "line_template" label else label = []) ->
  frame x + label_columns label <= 4 * m + n.
Proof.
  intros cl tg index over s x label m n S O C I M N K (W1 & W2 & W3) L.
  assert (V : forall key v, ~ In key [lit "template"; lit "line_template"] -> dget key s = Some v -> value_size v <= m).
  { intros key v NI E. destruct (settled_key _ _ _ _ _ _ _ S E NI); eauto. }
  assert (NI : ~ In (lit "margin") [lit "template"; lit "line_template"] /\ ~ In (lit "padding") [lit "template"; lit "line_template"] /\ ~ In (lit "border") [lit "template"; lit "line_template"]).
  { repeat split; intros [X|[X|[]]]; vm_compute in X; discriminate. }
  destruct NI as (NI1 & NI2 & NI3).
  pose proof (sides_size s "margin" (dr_margin x) m (fun v => V _ v NI1) M W1) as A1.
  pose proof (sides_size s "padding" (dr_padding x) m (fun v => V _ v NI2) M W2) as A2.
  assert (A3 : len (bo_left (dr_border x)) + len (bo_right (dr_border x)) <= m).
  { destruct W3 as (rest & [B|B]); apply (V _ _ NI3) in B; cbn [value_size] in B; lia. }
  assert (A4 : label_columns label <= m + n).
  { assert (D : forall t, label_columns t <= len t) by (intros [|c t]; cbn [label_columns]; unfold len; cbn [length]; lia).
    destruct (takes_label (rc_kind cl)) eqn:TL; [|subst; cbn; lia]. unfold template_set in L. destruct S as (under & above & CO & S). rewrite S in L. cbn [inherited] in L.
    assert (AB : dget (lit "line_template") above = None).
    { unfold computed in CO. destruct (rc_kind cl); try discriminate TL; try (destruct CO as [_ ->]; reflexivity). destruct CO as (? & _ & _ & ->). reflexivity. }
    rewrite AB in L. destruct (dget (lit "line_template") over) as [v|] eqn:E1; [injection L as ->; apply O in E1; cbn [value_size] in E1; specialize (D label); lia|].
    destruct (dget (lit "line_template") under) as [v|] eqn:E2.
    - injection L as ->. unfold computed in CO. destruct (rc_kind cl); try discriminate TL; try (destruct CO as [-> _]; discriminate E2).
      destruct CO as (lb & IL & -> & _). cbn [dget] in E2. rewrite seqb_refl in E2. injection E2 as ->. specialize (I _ IL). specialize (D label). lia.
    - destruct (dget (lit "line_template") (class_settings cl)) as [v|] eqn:E3; [|discriminate L]. injection L as ->. apply C in E3. cbn [value_size] in E3. specialize (D label). lia. }
  unfold frame. lia.
Qed.
Lemma ample_enough : takes_at_most g ample.
Proof.
  intros listed z cl s x label G TB W L. destruct z as [|[before [i t a kids|] after] up]; try contradiction. cbn [given] in G. cbn [ample].
  assert (Q : forall r over, In r specs -> names r cl -> (forall key v, dget key over = Some v -> exists r', In r' specs /\ rule_setting key r' = Some v) ->
    settled cl t (length before) over s -> frame x + label_columns label <= 4 * sum_of spec_size specs + sum_of (label_size (length before)) specs).
  { intros r over J N O S. eapply (settled_frame cl t (length before) over); [exact S|..|exact W|exact L].
    - intros key v E. destruct (O _ _ E) as (r' & J' & E'). pose proof (sum_of_in _ spec_size specs r' spec_pos J') as X. unfold rule_setting in E'. destruct r' as [|c [s'|]]; try discriminate E'. apply got_size in E'. unfold spec_size at 1 in X.
      assert (0 <= match rule_renderer (RPair c (Some s')) with Some cl => settings_size (class_settings cl) | None => 0 end) by (destruct (rule_renderer _); [apply settings_pos|lia]). lia.
    - intros key v E. pose proof (sum_of_in _ spec_size specs r spec_pos J) as X. unfold spec_size at 1 in X. unfold names in N. rewrite N in X. apply got_size in E.
      assert (0 <= match r with RPair _ (Some s) => settings_size s | _ => 0 end) by (destruct r as [|? [s'|]]; [lia|apply settings_pos|lia]). lia.
    - intros lb (t0 & st & sp & T1 & T2 & T3 & T4). pose proof (sum_of_in _ (label_size (length before)) specs r (label_pos _) J) as X. unfold label_size at 1 in X. unfold names in N. rewrite N in X.
      unfold template_set, int_set in *. rewrite T1, T2, T3 in X. apply FormatMain.format_ok in T4. rewrite T4 in X. exact X.
    - apply sum_of_pos, spec_pos.
    - apply sum_of_pos. intros. apply label_pos.
    - destruct (rc_kind cl); auto; left; discriminate. }
  destruct listed.
  - destruct G as [LB S]. destruct (listed_from _ _ _ LB) as (r & R & N). apply (Q r []); auto; [apply in_specs; now right|discriminate].
  - destruct G as (over & ST & S). destruct (styled_from _ _ _ _ ST) as [(r & R & N) OV]. eapply (Q r); [apply in_specs; now left|exact N| |exact S].
    intros key v E. destruct (shown_inline g t); [discriminate|]. destruct (OV _ _ E) as (r' & R' & E'). exists r'. split; auto. apply in_specs. now left.
Qed.
End T.

(** ** Thresholds *)
Lemma threshold : forall (P : nat -> bool) n, (forall i j, (i <= j)%nat -> P i = true -> P j = true) -> P n = true -> exists m, forall k, P k = true <-> (m <= k)%nat.
Proof.
  intros P n M H. induction n as [|n IH].
  - exists 0%nat. intros k. split; [lia|]. intros L. exact (M 0%nat k L H).
  - destruct (P n) eqn:E; [auto|]. exists (S n). intros k. split; [|intros L; exact (M (S n) k L H)]. intros K. destruct (Nat.le_gt_cases (S n) k) as [L|L]; auto. rewrite (M k n) in E; [discriminate|lia|exact K].
Qed.
Close Scope Z_scope.
