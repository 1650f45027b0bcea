(** The same events with text delivered in more pieces. *)
From Verif Require Export TreeSpec.

(** White space is on one side of the cut at most. *)
Definition seam (a b : str) : Prop := space_last a = false \/ space_first b = false.

(** [resplit before h h']: after the events [before], [h'] is [h] with texts cut
    in pieces.  Outside pre a cut does not separate white space from white space,
    and the text is not directly in a numbered list. *)
Inductive resplit : list op -> list op -> list op -> Prop :=
| rs_nil : forall before, resplit before [] []
| rs_keep : forall before o h h', resplit (before ++ [o]) h h' -> resplit before (o :: h) (o :: h')
| rs_cut : forall before a b h h', inside_pre before = true \/ seam a b ->
    hd_error (open_after before) <> Some (lit "ol") ->
    resplit before (OData b :: h) h' -> resplit before (OData (a ++ b) :: h) (OData a :: h').

(** ** Source text in pieces *)
(** A cut between [x] and [y]: one side is neither white space nor the end of a
    reference that may stand for it. *)
Definition calm (x y : str) : Prop :=
  (forall a c, x = a ++ [c] -> is_space c = false /\ c <> 59%N)
  \/ (forall c a, y = c :: a -> is_space c = false /\ c <> 38%N).
(** Every cut of the pieces [l] is such. *)
Definition calm_pieces (l : list str) : Prop :=
  forall l1 l2, l = l1 ++ l2 -> calm (concat l1) (concat l2).
(** After the events [before], the text directly in numbered lists is white
    space. *)
Definition blank_in_ol (before h : list op) : Prop :=
  forall h1 m h2, h = h1 ++ OData m :: h2 ->
    hd_error (open_after (before ++ h1)) = Some (lit "ol") -> all_space m = true.
