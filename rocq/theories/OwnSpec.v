(** Renderer classes written by the caller: when two classes are
    interchangeable.  What a caller's class makes of an element is part of the
    looks of elements ([pi_own], [pi_own_block] in StyleSpec), and what its
    exceptions do part of TripSpec ([tr_own], [tr_own_block]). *)
From Verif Require Export StyleSpec Feed.
Open Scope Z_scope.

Section S.
Context `{U : Uni}.

(** ** Classes that behave alike *)
(** For every tag and every context: making an object raises the same exception,
    or gives objects with the same box that answer [render] alike. *)
Definition alike (c c' : rcls) : Prop :=
  forall d i x,
    match instantiate d c i x, instantiate d c' i x with
    | Ok r, Ok r' => i_block r = i_block r' /\ i_box r = i_box r'
                     /\ forall content, render_inst d r content = render_inst d r' content
    | Err e, Err e' => e = e'
    | _, _ => False
    end.
Definition both_alike (c c' : option rcls) : Prop :=
  match c, c' with Some c, Some c' => alike c c' | None, None => True | _, _ => False end.
Definition same_entry (r r' : rspec rcls) : Prop :=
  match r, r' with
  | RPlain c, RPlain c' => both_alike c c'
  | RPair c s, RPair c' s' => both_alike c c' /\ s = s'
  | _, _ => False
  end.
(** Tables and options that differ in classes that behave alike only. *)
Definition same_table (t t' : table) : Prop :=
  Forall2 (fun x y => fst x = fst y /\ fst (snd x) = fst (snd y) /\ same_entry (snd (snd x)) (snd (snd y))) t t'.
Definition same_options (o o' : options) : Prop :=
  o_width o = o_width o' /\ o_box o = o_box o' /\ same_table (o_renderers o) (o_renderers o') /\ same_table (o_ext o) (o_ext o')
  /\ o_format o = o_format o' /\ o_link o = o_link o' /\ o_image o = o_image o' /\ o_host o = o_host o' /\ o_port o = o_port o'
  /\ o_optimise o = o_optimise o'.
(** A parser made with options and used: what each call raised, and [parsed]. *)
Definition used (o : options) (l : list call) : res (list (option exn) * str) :=
  match construct o with
  | Err e => Err e
  | Ok g => let '(h, es) := do_calls g l parser0 in Ok (es, p_out (h_p h))
  end.

End S.
Close Scope Z_scope.
