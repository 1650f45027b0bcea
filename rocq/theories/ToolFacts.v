(** Shipped themes. *)
From Verif Require Import BaseFacts UrlFacts.
From Verif Require Export AnsiSpec Themes.

(** ** Checking the settings of a rule *)
Definition hexb (c : N) : option N :=
  if ((48 <=? c) && (c <=? 57))%N then Some (c - 48)%N
  else if ((65 <=? c) && (c <=? 70))%N then Some (c - 55)%N
  else if ((97 <=? c) && (c <=? 102))%N then Some (c - 87)%N else None.
Lemma hexb_hex : forall c n, hexb c = Some n -> hex c n.
Proof.
  intros c n. unfold hexb, hex. destruct (N.leb_spec 48 c), (N.leb_spec c 57); cbn [andb]; [intros E; injection E as <-; lia| | |];
    (destruct (N.leb_spec 65 c), (N.leb_spec c 70); cbn [andb]; [intros E; injection E as <-; lia| | |];
     (destruct (N.leb_spec 97 c), (N.leb_spec c 102); cbn [andb]; [intros E; injection E as <-; lia| | |]; discriminate)).
Qed.
Fixpoint name_index (s : str) (l : list string) : option nat :=
  match l with
  | [] => None
  | x :: r => if seqb s (lit x) then Some 0%nat else option_map S (name_index s r)
  end.
Lemma name_index_sound : forall s l k, name_index s l = Some k -> exists x, nth_error l k = Some x /\ s = lit x.
Proof.
  induction l as [|x l IH]; intros k H; [discriminate|]. cbn [name_index] in H. destruct (seqb_spec s (lit x)) as [E|_].
  - injection H as <-. exists x. auto.
  - destruct (name_index s l) as [j|]; [|discriminate]. injection H as <-. apply IH; auto.
Qed.
Definition hex_colour (s : str) : option colour :=
  match s with
  | [h; a; b; c; d; e; f] =>
      if (h =? 35)%N then
        match hexb a, hexb b, hexb c, hexb d, hexb e, hexb f with
        | Some a, Some b, Some c, Some d, Some e, Some f => Some (CRgb (16 * a + b) (16 * c + d) (16 * e + f))
        | _, _, _, _, _, _ => None
        end
      else None
  | [h; a; b; c] =>
      if (h =? 35)%N then
        match hexb a, hexb b, hexb c with
        | Some a, Some b, Some c => Some (CRgb (17 * a) (17 * b) (17 * c))
        | _, _, _ => None
        end
      else None
  | _ => None
  end.
Definition colour_of (v : val) : option colour :=
  match v with
  | VNone => Some CDefault
  | VInt z => if ((0 <? z) && (z <=? 255))%Z then Some (CPalette (Z.to_N z)) else None
  | VStr s => match name_index s colour_names with Some k => Some (CBasic (N.of_nat k)) | None => hex_colour s end
  | _ => None
  end.
Lemma hex_colour_sound : forall s c, hex_colour s = Some c -> colour_value (VStr s) c.
Proof.
  intros s c H. unfold hex_colour in H.
  destruct s as [|h s]; [discriminate|]. destruct s as [|c1 s]; [discriminate|]. destruct s as [|c2 s]; [discriminate|]. destruct s as [|c3 s]; [discriminate|].
  destruct s as [|c4 s].
  - destruct (N.eqb_spec h 35) as [->|]; [|discriminate].
    destruct (hexb c1) eqn:E1; [|discriminate]. destruct (hexb c2) eqn:E2; [|discriminate]. destruct (hexb c3) eqn:E3; [|discriminate]. injection H as <-.
    apply (cv_hex3 (lit "#") c1 c2 c3); auto using hexb_hex.
  - destruct s as [|c5 s]; [discriminate|]. destruct s as [|c6 s]; [discriminate|]. destruct s as [|]; [|discriminate].
    destruct (N.eqb_spec h 35) as [->|]; [|discriminate].
    destruct (hexb c1) eqn:E1; [|discriminate]. destruct (hexb c2) eqn:E2; [|discriminate]. destruct (hexb c3) eqn:E3; [|discriminate].
    destruct (hexb c4) eqn:E4; [|discriminate]. destruct (hexb c5) eqn:E5; [|discriminate]. destruct (hexb c6) eqn:E6; [|discriminate]. injection H as <-.
    apply (cv_hex6 (lit "#") c1 c2 c3 c4 c5 c6); auto using hexb_hex.
Qed.
Lemma colour_of_sound : forall v c, colour_of v = Some c -> colour_value v c /\ v <> VInt 0.
Proof.
  intros v c H. destruct v; cbn [colour_of] in H; try discriminate.
  - injection H as <-. split; [constructor|discriminate].
  - destruct (Z.ltb_spec 0 z), (Z.leb_spec z 255); try discriminate. injection H as <-. split; [constructor; lia|]. intros E. injection E as ->. lia.
  - split; [|discriminate]. destruct (name_index s colour_names) as [k|] eqn:E.
    + injection H as <-. destruct (name_index_sound _ _ _ E) as (x & X & ->). now constructor.
    + now apply hex_colour_sound.
Qed.
Fixpoint keyedb (s : settings) : bool :=
  match s with [] => true | (k, _) :: r => match dget k r with Some _ => false | None => keyedb r end end.
Lemma keyedb_sound : forall s, keyedb s = true -> NoDup (map fst s).
Proof.
  induction s as [|[k v] s IH]; intros H; [constructor|]. cbn [keyedb] in H. destruct (dget k s) eqn:E; [discriminate|].
  constructor; [|apply IH; exact H]. intros I. apply (dget_In_keys s k) in I. auto.
Qed.
Definition span_ok (l : settings) : option (colour * colour) :=
  match colour_of (setting l "foreground_colour" VNone), colour_of (setting l "background_colour" VNone) with
  | Some f, Some b =>
      if (keyedb l && match dget (lit "template") l with None => true | _ => false end
          && match dget (lit "capitalized") l with None => true | _ => false end
          && match dget (lit "font") l with None => true | _ => false end)%bool then Some (f, b) else None
  | _, _ => None
  end.
Lemma span_ok_sound : forall l f b, span_ok l = Some (f, b) -> span_settings l f b.
Proof.
  intros l f b H. unfold span_ok in H. destruct (colour_of (setting l "foreground_colour" VNone)) eqn:E1; [|discriminate].
  destruct (colour_of (setting l "background_colour" VNone)) eqn:E2; [|discriminate]. destruct (keyedb l) eqn:E3; [|discriminate].
  destruct (dget (lit "template") l) eqn:E4; [discriminate|]. destruct (dget (lit "capitalized") l) eqn:E5; [discriminate|].
  destruct (dget (lit "font") l) eqn:E6; [discriminate|]. injection H as -> ->. apply colour_of_sound in E1, E2.
  unfold span_settings. split; [now apply keyedb_sound|]. unfold setting at 1 2 3. rewrite E4, E5, E6. tauto.
Qed.
Definition row_ok (r : str * (list selector * rspec rcls)) : bool :=
  match r with
  | (_, (_, RPair (Some c) (Some l))) => match rc_kind c with KAnsi => match span_ok l with Some _ => true | None => false end | _ => false end
  | _ => false
  end.
