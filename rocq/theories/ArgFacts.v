(** Single arguments: what argparse makes of them and what they mean. *)
From Verif Require Import BaseFacts StrFacts UrlFacts.
From Verif Require Export Args.
Open Scope N_scope.

Section A.
Context `{U : Uni}.
Definition mark_act (a : act) : mark := match a with AHelp => MHelp | ADump => MDump end.
Definition agrees (s : str) (k : option otuple) (m : meaning) : Prop :=
  match k with
  | None => m = Word
  | Some t => exists l, m = Marks l /\ match optional s t with
      | Err _ => l = [MRefused]
      | Ok (acts, extra) => l = map mark_act acts ++ match extra with [] => [] | _ => [MUnknown] end
      end
  end.
Lemma options_are : option_strings = [([45; 104], AHelp); ([45; 45; 104; 101; 108; 112], AHelp); ([45; 100], ADump); ([45; 45; 100; 117; 109; 112], ADump)].
Proof. reflexivity. Qed.
Lemma short_get : forall c, c <> 45 -> dget [45; c] option_strings = match letter c with Some MHelp => Some AHelp | Some MDump => Some ADump | _ => None end.
Proof.
  intros c N. rewrite options_are. unfold letter. cbn [dget seqb]. rewrite !N.eqb_refl. cbn [andb]. rewrite (proj2 (N.eqb_neq c 45) N). cbn [andb]. rewrite !andb_true_r. destruct (c =? 104); [reflexivity|]. destruct (c =? 100); reflexivity.
Qed.
Lemma letter_some : forall c m, letter c = Some m -> c <> 45 /\ c <> 61 /\ (m = MHelp \/ m = MDump).
Proof.
  intros c m. unfold letter. destruct (N.eqb_spec c 104) as [->|]; [intros E; injection E as <-; repeat split; auto; lia|]. destruct (N.eqb_spec c 100) as [->|]; [intros E; injection E as <-; repeat split; auto; lia|discriminate].
Qed.
Lemma hd_cases : forall (s : str), (exists r, s = 45 :: r) \/ (exists r, s = 61 :: r) \/ (forall (X : Type) (a b : X), match s with (45 | 61) :: _ => a | _ => b end = b).
Proof.
  intros [|c r]; [right; right; reflexivity|]. destruct (N.eq_dec c 45) as [->|N1]; [left; eauto|]. destruct (N.eq_dec c 61) as [->|N2]; [right; left; eauto|]. right. right. intros X a b.
  destruct c as [|p]; [reflexivity|]. repeat (try reflexivity; destruct p as [p|p|]; try reflexivity; try congruence).
Qed.
Lemma letters_cons : forall c r, letters (c :: r) = match letter c with None => Some [MUnknown] | Some m => match r with (45 | 61) :: _ => None | _ => option_map (cons m) (letters r) end end.
Proof. intros c r. cbn [letters]. destruct (letter c); reflexivity. Qed.
Lemma run_together : forall n arg a c0 taken, (length arg <= n)%nat -> c0 <> 45 -> arg <> [] -> (forall r, arg <> 61 :: r) ->
  match cluster a [45; c0] false arg taken with
  | Err _ => match arg with 45 :: _ => True | _ => letters arg = None end
  | Ok (acts, extra) => (forall r, arg <> 45 :: r) /\ exists acts', acts = taken ++ a :: acts'
      /\ letters arg = Some (map mark_act acts' ++ match extra with [] => [] | _ => [MUnknown] end)
  end.
Proof.
  induction n as [|n IH]; intros arg a c0 taken L N0 NE NQ; [destruct arg; [congruence|cbn in L; lia]|]. destruct arg as [|c r]; [congruence|].
  assert (E0 : forall (X : Type) (x y : X), match nth_error [45; c0] 1 with Some 45 => x | _ => y end = y).
  { intros X x y. cbn [nth_error]. destruct c0 as [|p]; [reflexivity|]. repeat (try reflexivity; destruct p as [p|p|]; try reflexivity; try congruence). }
  assert (EC : cluster a [45; c0] false (c :: r) taken = if (c =? 45) then Err EValue
      else match dget [45; c] option_strings with
           | None => Ok (taken ++ [a], [45 :: c :: r])
           | Some a' => match r with
               | [] => Ok (taken ++ [a; a'], [])
               | 61 :: r' => cluster a' [45; c] true r' (taken ++ [a])
               | _ => cluster a' [45; c] false r (taken ++ [a])
               end
           end).
  { cbn [cluster]. change (nth_error [45; c0] 1) with (Some c0). cbn [orb]. clear -N0. destruct c0 as [|p]; [reflexivity|]. repeat (try reflexivity; destruct p as [p|p|]; try reflexivity; try congruence). }
  rewrite EC. clear EC E0. destruct (N.eqb_spec c 45) as [->|N1]; [constructor|]. rewrite (short_get c N1), letters_cons.
  assert (NC : forall r0, c :: r <> 45 :: r0) by congruence.
  assert (LX : forall (P Q : Prop), Q -> match c :: r with 45 :: _ => P | _ => Q end).
  { intros P Q q. destruct c as [|p]; [exact q|]. repeat (try exact q; destruct p as [p|p|]; try exact q; try congruence). }
  destruct (letter c) as [m|] eqn:LC.
  2:{ split; [exact NC|]. exists []. split; [reflexivity|reflexivity]. }
  destruct (letter_some _ _ LC) as (_ & _ & M).
  assert (GA : exists a', match m with MHelp => Some AHelp | MDump => Some ADump | _ => None end = Some a' /\ mark_act a' = m) by (destruct M as [-> | ->]; eexists; split; reflexivity).
  destruct GA as (a' & -> & EM). destruct r as [|x r]; [split; [exact NC|]; exists [a']; split; [reflexivity|cbn; now rewrite EM]|].
  destruct (hd_cases (x :: r)) as [(r0 & E)|[(r0 & E)|E]].
  - injection E as -> ->. assert (K : cluster a' [45; c] false (45 :: r0) (taken ++ [a]) = Err EValue).
    { cbn [cluster]. change (nth_error [45; c] 1) with (Some c). cbn [orb]. clear -N1. destruct c as [|p]; [reflexivity|]. repeat (try reflexivity; destruct p as [p|p|]; try reflexivity; try congruence). }
    rewrite K. apply LX. reflexivity.
  - injection E as -> ->. assert (K : cluster a' [45; c] true r0 (taken ++ [a]) = Err EValue).
    { destruct r0; cbn [cluster]; change (nth_error [45; c] 1) with (Some c); cbn [orb]; clear -N1; (destruct c as [|p]; [reflexivity|]); repeat (try reflexivity; destruct p as [p|p|]; try reflexivity; try congruence). }
    rewrite K. apply LX. reflexivity.
  - assert (E1 : forall (X : Type) (p q : X), match x :: r with 61 :: _ => p | _ => q end = q) by (intros X p q; pose proof (E X p q) as K; clear -K; destruct x as [|y]; [reflexivity|]; repeat (try reflexivity; destruct y as [y|y|]; try reflexivity; try exact K)).
    assert (E2 : forall r', x :: r <> 45 :: r' /\ x :: r <> 61 :: r') by (intros r'; split; intros K; injection K as -> ->; discriminate (E bool true false)).
    assert (EK : match x :: r with 61 :: r' => cluster a' [45; c] true r' (taken ++ [a]) | _ => cluster a' [45; c] false (x :: r) (taken ++ [a]) end = cluster a' [45; c] false (x :: r) (taken ++ [a])).
    { destruct (E2 r) as [_ N2]. destruct x as [|y]; [reflexivity|]. repeat (try reflexivity; destruct y as [y|y|]; try reflexivity; try congruence). }
    rewrite EK. rewrite (E (option (list mark)) None (option_map (cons m) (letters (x :: r)))).
    specialize (IH (x :: r) a' c (taken ++ [a])). cbn [length] in L. specialize (IH ltac:(cbn [length]; lia) N1 ltac:(discriminate) (fun r' => proj2 (E2 r'))).
    destruct (cluster a' [45; c] false (x :: r) (taken ++ [a])) as [[acts extra]|e].
    + destruct IH as (_ & acts' & -> & LE). split; [exact NC|]. exists (a' :: acts'). split; [now rewrite <- app_assoc|]. rewrite LE. cbn. now rewrite EM.
    + apply LX. assert (LE : letters (x :: r) = None). { destruct (E2 r) as [N2 _]. revert IH. clear -N2. destruct x as [|y]; [auto|]. repeat (auto; destruct y as [y|y|]; auto; try congruence). }
      now rewrite LE.
Qed.

(** ** One argument *)
Lemma cut_at : forall c r, partition c r = (take_while (fun x => negb (x =? c)) r, Nat.ltb (length (take_while (fun x => negb (x =? c)) r)) (length r), skipn (S (length (take_while (fun x => negb (x =? c)) r))) r).
Proof.
  intros c. induction r as [|x r IH]; [reflexivity|]. cbn [partition take_while]. destruct (x =? c); cbn [negb]; [reflexivity|]. rewrite IH. reflexivity.
Qed.
Lemma begins_with : forall p s, begins p s = startswith p s.
Proof.
  unfold begins. induction p as [|x p IH]; intros s; [reflexivity|]. destruct s as [|y s]; [reflexivity|]. cbn [length firstn seqb startswith]. now rewrite IH.
Qed.
Lemma other_first : forall neg c r, c <> 45 -> meaning_of neg (c :: r) = Word.
Proof. intros neg c r N. unfold meaning_of. destruct c as [|p]; [reflexivity|]. repeat (try reflexivity; destruct p as [p|p|]; try reflexivity; try congruence). Qed.
Lemma short_meaning : forall neg c r, c <> 45 -> meaning_of neg (45 :: c :: r) = match letter c with
      | Some _ => Marks (match letters (c :: r) with Some l => l | None => [MRefused] end)
      | None => if neg (45 :: c :: r) || has_char 32 (45 :: c :: r) then Word else Marks [MUnknown]
      end.
Proof. intros neg c r N. unfold meaning_of. destruct c as [|p]; [reflexivity|]. repeat (try reflexivity; destruct p as [p|p|]; try reflexivity; try congruence). Qed.
Lemma short_tuples : forall c r, c <> 45 -> option_tuples (45 :: c :: r) = match letter c with
      | Some MHelp => [OTuple (Some AHelp) [45; 104] (Some []) (Some r)]
      | Some MDump => [OTuple (Some ADump) [45; 100] (Some []) (Some r)]
      | _ => [] end.
Proof.
  intros c r N. assert (E : option_tuples (45 :: c :: r) = flat_map (fun x => if seqb (fst x) (firstn 2 (45 :: c :: r)) then [OTuple (Some (snd x)) (fst x) (Some []) (Some (skipn 2 (45 :: c :: r)))]
                         else if startswith (45 :: c :: r) (fst x) then [OTuple (Some (snd x)) (fst x) None None] else []) option_strings).
  { unfold option_tuples. destruct c as [|p]; [reflexivity|]. repeat (try reflexivity; destruct p as [p|p|]; try reflexivity; try congruence). }
  rewrite E, options_are. cbn [flat_map fst snd firstn skipn seqb startswith]. rewrite !N.eqb_refl. cbn [andb]. rewrite (proj2 (N.eqb_neq c 45) N), (N.eqb_sym 45 c), (proj2 (N.eqb_neq c 45) N), (N.eqb_sym 104 c), (N.eqb_sym 100 c). cbn [andb app]. rewrite !andb_true_r. unfold letter.
  destruct (N.eqb_spec c 104) as [->|N1]; [reflexivity|]. destruct (N.eqb_spec c 100) as [->|N2]; [reflexivity|reflexivity].
Qed.
Lemma long_get : forall r, dget (45 :: 45 :: r) option_strings = if seqb r (lit "help") then Some AHelp else if seqb r (lit "dump") then Some ADump else None.
Proof. intros r. rewrite options_are. cbn [dget]. change (lit "help") with [104; 101; 108; 112]. change (lit "dump") with [100; 117; 109; 112]. cbn [seqb]. rewrite !N.eqb_refl. cbn [andb N.eqb Pos.eqb]. reflexivity. Qed.
Lemma short_get_more : forall c x r, c <> 45 -> dget (45 :: c :: x :: r) option_strings = None.
Proof. intros c x r N. rewrite options_are. cbn [dget seqb]. rewrite !N.eqb_refl. rewrite (proj2 (N.eqb_neq c 45) N). cbn [andb]. rewrite !andb_false_r. reflexivity. Qed.
Lemma not_both : forall h, startswith h (lit "help") = true -> startswith h (lit "dump") = true -> h = [].
Proof. intros [|x h]; [reflexivity|]. change (lit "help") with [104; 101; 108; 112]. change (lit "dump") with [100; 117; 109; 112]. cbn [startswith]. intros A B. apply andb_prop in A as [A _]. apply andb_prop in B as [B _]. apply N.eqb_eq in A. apply N.eqb_eq in B. lia. Qed.
Lemma long_tuples : forall r, let h := take_while (fun x => negb (x =? 61)) r in let f := (length h <? length r)%nat in
  let t a o := OTuple (Some a) (lit o) (if f then Some [61] else None) (if f then Some (skipn (S (length h)) r) else None) in
  option_tuples (45 :: 45 :: r) = (if startswith h (lit "help") then [t AHelp "--help"%string] else []) ++ (if startswith h (lit "dump") then [t ADump "--dump"%string] else []).
Proof.
  intros r h f t. unfold option_tuples. cbn [partition]. change (45 =? 61) with false. cbn match. rewrite (cut_at 61 r). fold h f. cbv zeta beta iota. rewrite options_are. cbn [filter fst startswith]. rewrite !N.eqb_refl. cbn [andb N.eqb Pos.eqb].
  change (lit "help") with [104; 101; 108; 112]. change (lit "dump") with [100; 117; 109; 112]. destruct (startswith h [104; 101; 108; 112]), (startswith h [100; 117; 109; 112]); reflexivity.
Qed.
Lemma not_negative : forall r, negative_number (45 :: 45 :: r) = false.
Proof.
  intros r. assert (D : is_digit 45 = false) by reflexivity. unfold negative_number. set (look := fun r : str => all_digits r || match partition 46%N r with (a, true, b) => forallb is_digit a && all_digits b | _ => false end).
  assert (L : forall x, look (45 :: x) = false). { intros x. unfold look, all_digits. cbn [forallb]. rewrite D. cbn [andb orb partition]. change (45 =? 46) with false. cbn match. destruct (partition 46 x) as [[a b] c]. destruct b; [|reflexivity]. cbn [forallb]. now rewrite D. }
  change (look (45 :: r) || look (number_end (45 :: r)) = false). rewrite L. cbn [orb]. unfold number_end. cbn [rev]. destruct (rev r) as [|y l] eqn:E; [cbn [app]; apply L|]. cbn [app]. destruct (N.eq_dec y 10) as [->|NY].
  - rewrite rev_app_distr. cbn [rev app]. apply L.
  - assert (K : forall (X : Type) (a : str -> X) (b : X), match y :: l ++ [45] with 10 :: r0 => a r0 | _ => b end = b) by (intros; destruct y as [|p]; [reflexivity|]; repeat (try reflexivity; destruct p as [p|p|]; try reflexivity; try congruence)).
    rewrite (K str (@rev N) (45 :: r)). apply L.
Qed.
Lemma seqb_starts : forall a b, seqb a b = true -> startswith a b = true.
Proof. intros a b E. apply seqb_eq in E. subst b. induction a as [|x a IH]; [reflexivity|]. cbn [startswith]. now rewrite N.eqb_refl. Qed.
Ltac fin := eexists; split; [reflexivity|unfold optional; cbn [o_act o_arg o_str o_sep]; change (lit "--help") with (45 :: 45 :: lit "help"); change (lit "--dump") with (45 :: 45 :: lit "dump"); try match goal with H : forall a o sep t, cluster a _ _ _ _ = _ |- _ => rewrite ?H end; reflexivity].
Lemma one_argument : forall s, s <> lit "--" -> match parse_optional s with
  | Err _ => meaning_of negative_number s = Ambiguous
  | Ok k => agrees s k (meaning_of negative_number s)
  end.
Proof.
  intros s NS. destruct s as [|c0 r0]; [reflexivity|]. unfold parse_optional. destruct (N.eqb_spec c0 45) as [->|N0]; cbn [negb]; [|cbn [agrees]; now apply other_first].
  destruct r0 as [|c r]; [reflexivity|]. destruct (N.eq_dec c 45) as [->|NC].
  - (* long *) rewrite long_get. cbn [partition]. change (45 =? 61) with false. cbn match. rewrite (cut_at 61 r). pose proof (long_tuples r) as LT. cbv zeta in LT. rewrite LT. clear LT. rewrite not_negative.
    unfold meaning_of. cbv zeta. unfold long. rewrite !begins_with.
    set (h := take_while (fun x => negb (x =? 61)) r). set (f := (length h <? length r)%nat). set (after := skipn (S (length h)) r). rewrite (long_get h).
    assert (HR : f = false -> h = r). { unfold f, h. clear. intros H. apply Nat.ltb_ge in H. induction r as [|x r IH]; [reflexivity|]. cbn [take_while] in *. destruct (negb (x =? 61)); cbn [length] in H; [f_equal; apply IH; lia|lia]. }
    assert (FR : f = true -> exists a b, r = a ++ 61 :: b). { unfold f, h. clear. intros H. apply Nat.ltb_lt in H. induction r as [|x r IH]; [cbn in H; lia|]. cbn [take_while] in *. destruct (N.eqb_spec x 61) as [->|]; cbn [negb] in H; [exists [], r; reflexivity|]. cbn [length] in H. destruct IH as (a & b & ->); [lia|]. exists (x :: a), b. reflexivity. }
    assert (FE : f = true -> forall w, ~ In 61 w -> seqb r w = false). { intros H w NI. apply seqb_neq. intros ->. destruct (FR H) as (a & b & ->). apply NI. apply in_or_app. right. now left. }
    assert (N1 : ~ In 61 (lit "help")) by (vm_compute; intuition discriminate). assert (N2 : ~ In 61 (lit "dump")) by (vm_compute; intuition discriminate).
    clearbody after. assert (CE : forall a o sep t, cluster a (45 :: 45 :: o) sep after t = Err EValue) by (intros; destruct after; reflexivity).
    destruct f.
    + rewrite (FE eq_refl _ N1), (FE eq_refl _ N2). cbv zeta beta iota.
      destruct h as [|h0 h'] eqn:EH; [reflexivity|]. assert (HNE : h0 :: h' <> []) by discriminate. rewrite <- EH in *. clear EH.
      destruct (seqb h (lit "help")) eqn:S1; [rewrite (seqb_starts _ _ S1); fin|].
      destruct (seqb h (lit "dump")) eqn:S2.
      { apply seqb_eq in S2. rewrite S2. fin. }
      destruct (startswith h (lit "help")) eqn:T1; destruct (startswith h (lit "dump")) eqn:T2; cbn [app].
      * exfalso. now apply HNE, not_both.
      * fin.
      * fin.
      * destruct (has_char 32 (45 :: 45 :: r)); [reflexivity|]. fin.
    + specialize (HR eq_refl). cbv zeta beta iota. assert (HN : h <> []) by (rewrite HR; intros ->; apply NS; reflexivity). rewrite HR in *. clear HR h. destruct r as [|x r']; [congruence|]. cbv beta iota. set (r := x :: r') in *. clearbody r.
      destruct (seqb r (lit "help")) eqn:S1; [rewrite (seqb_starts _ _ S1); fin|].
      destruct (seqb r (lit "dump")) eqn:S2.
      { apply seqb_eq in S2. rewrite S2. fin. }
      destruct (startswith r (lit "help")) eqn:T1; destruct (startswith r (lit "dump")) eqn:T2; cbn [app].
      * exfalso. now apply HN, not_both.
      * fin.
      * fin.
      * destruct (has_char 32 (45 :: 45 :: r)); [reflexivity|]. fin.
  - (* short *) rewrite (short_meaning _ c r NC), (short_tuples c r NC).
    destruct r as [|x r].
    + rewrite (short_get c NC). cbn [partition]. change (45 =? 61) with false. cbn match. rewrite letters_cons. destruct (letter c) as [m|] eqn:LC.
      * destruct (letter_some _ _ LC) as (_ & _ & [-> | ->]); eexists; (split; [reflexivity|reflexivity]).
      * destruct (c =? 61); cbv zeta beta iota; (destruct (negative_number [45; c]); [reflexivity|]); cbn [orb]; (destruct (has_char 32 [45; c]); [reflexivity|]); eexists; split; reflexivity.
    + rewrite (short_get_more c x r NC). cbn [partition]. change (45 =? 61) with false. cbn match.
      destruct (letter c) as [m|] eqn:LC.
      * destruct (letter_some _ _ LC) as (_ & N61 & M). rewrite (proj2 (N.eqb_neq c 61) N61). rewrite letters_cons, LC.
        destruct (N.eqb_spec x 61) as [->|NX].
        { rewrite (short_get c NC), LC. destruct M as [-> | ->]; (eexists; split; [reflexivity|]); unfold optional; cbn [o_act o_arg o_str o_sep]; destruct r; unfold letter in LC; (destruct (N.eqb_spec c 104) as [->|]; [reflexivity|]); (destruct (N.eqb_spec c 100) as [->|]; [reflexivity|discriminate]). }
        destruct (partition 61 r) as [[h f] t]. assert (EB : (if f then dget (45 :: c :: x :: h) option_strings else None) = None) by (destruct f; [apply short_get_more; assumption|reflexivity]). rewrite EB.
        assert (C1 : exists a c1, match m with MHelp => [OTuple (Some AHelp) [45; 104] (Some []) (Some (x :: r))] | MDump => [OTuple (Some ADump) [45; 100] (Some []) (Some (x :: r))] | _ => [] end = [OTuple (Some a) [45; c1] (Some []) (Some (x :: r))] /\ mark_act a = m /\ c1 <> 45) by (destruct M as [-> | ->]; eexists; eexists; (split; [reflexivity|]); split; [reflexivity|lia| reflexivity|lia]).
        destruct C1 as (a & c1 & -> & EM & NC1). unfold agrees, optional. cbn [o_act o_arg o_str o_sep].
        pose proof (run_together (length (x :: r)) (x :: r) a c1 [] (Nat.le_refl _) NC1 ltac:(discriminate) ltac:(congruence)) as RT.
        destruct (hd_cases (x :: r)) as [(r1 & E)|[(r1 & E)|E]]; [injection E as -> ->|congruence|].
        { destruct (cluster a [45; c1] false (45 :: r1) []) as [[acts extra]|e]; [destruct RT as [RT _]; now elim (RT r1)|]. eexists; split; reflexivity. }
        rewrite (E (option (list mark)) None (option_map (cons m) (letters (x :: r)))).
        destruct (cluster a [45; c1] false (x :: r) []) as [[acts extra]|e].
        { destruct RT as (_ & acts' & -> & ->). eexists. split; [reflexivity|]. cbn. now rewrite EM. }
        { assert (LN : letters (x :: r) = None). { assert (N45 : x <> 45) by (intros ->; discriminate (E bool true false)). revert RT. clear -N45. destruct x as [|y]; [auto|]. repeat (auto; destruct y as [y|y|]; auto; try congruence). } rewrite LN. eexists; split; reflexivity. }
      * assert (NG : forall h, dget (45 :: c :: h) option_strings = None) by (intros [|y h]; [rewrite (short_get c NC), LC; reflexivity|now apply short_get_more]).
        assert (N1 : dget [45] option_strings = None) by reflexivity.
        destruct (c =? 61).
        { rewrite N1. destruct (negative_number (45 :: c :: x :: r)); [reflexivity|]. cbn [orb]. destruct (has_char 32 (45 :: c :: x :: r)); [reflexivity|]. eexists; split; reflexivity. }
        { destruct (x =? 61); [|destruct (partition 61 r) as [[h f] t]]; rewrite NG; try (replace (if f then @None act else None) with (@None act) by now destruct f);
          (destruct (negative_number (45 :: c :: x :: r)); [reflexivity|]); cbn [orb]; (destruct (has_char 32 (45 :: c :: x :: r)); [reflexivity|]); eexists; split; reflexivity. }
Qed.
End A.
