(** Specification vocabulary: how html.parser (with the expressions of RegexSpec)
    reads any text whatever: what counts as markup, what it stands for, and what
    is left for later.  [b] is the text before a place, nearest character first;
    only look-behinds could see it. *)
From Verif Require Export RefSpec.
From Verif Require Import RegexSpec Tokenizer.
Open Scope N_scope.

(** ** Shapes of text *)
(** [parted c s x r]: [s] is [x], then the first [c], then [r]. *)
Definition parted (c : N) (s x r : str) : Prop := s = x ++ c :: r /\ ~ In c x.

Section M.
Context `{U : Uni}.

(** ** Attributes *)
(** Python's test for a value in quotes: it starts and ends with the same one. *)
Inductive unquoted : str -> str -> Prop :=
| uq_quotes : forall q v, quote_mark q -> unquoted (q :: v ++ [q]) v
| uq_bare : forall v, (forall q r, quote_mark q -> v <> q :: r) -> unquoted v v.
Inductive value_read : spot -> option str -> Prop :=
| vr_none : forall m, group 2 m = None -> value_read m None
| vr_some : forall m w v t, group 2 m <> None -> group 3 m = Some w -> unquoted w v -> decoded (items charref_re v) t -> value_read m (Some t).
(** The attributes between a place and the end of the tag, and where reading
    them stopped. *)
Inductive attributes (stop : str) : str -> str -> list (str * option str) -> str -> Prop :=
| at_end : forall b s, (length s <= length stop)%nat -> attributes stop b s [] s
| at_none : forall b s, (length stop < length s)%nat -> match_at attrfind_tolerant b s = None -> attributes stop b s [] s
| at_one : forall b s m nm v l k, (length stop < length s)%nat -> match_at attrfind_tolerant b s = Some m ->
    group 1 m = Some nm -> value_read m v -> attributes stop (seen m) (ahead m) l k ->
    attributes stop b s ((lower nm, v) :: l) k.
(** Some attribute holds a decimal reference of more than 4300 digits. *)
Inductive attributes_fail (stop : str) : str -> str -> Prop :=
| af_here : forall b s m w v, (length stop < length s)%nat -> match_at attrfind_tolerant b s = Some m ->
    group 2 m <> None -> group 3 m = Some w -> unquoted w v -> (forall t, ~ decoded (items charref_re v) t) -> attributes_fail stop b s
| af_later : forall b s m nm v, (length stop < length s)%nat -> match_at attrfind_tolerant b s = Some m ->
    group 1 m = Some nm -> value_read m v -> attributes_fail stop (seen m) (ahead m) -> attributes_fail stop b s.

(** ** Start tags *)
(** What may follow the name and attributes of a tag, and the text after the tag. *)
Inductive tag_ends : str -> str -> Prop :=
| te_plain : forall r, tag_ends (62 :: r) r
| te_closed : forall r, tag_ends (47 :: 62 :: r) r
| te_junk : forall c r, c <> 62 -> c <> 47 -> c <> 61 -> ~ ascii_letter c -> tag_ends (c :: r) (c :: r).
(** [s] without its part [r] at the end. *)
Definition without (s r : str) : str := firstn (length s - length r) s.
Definition raw_name (t : str) : option str := if seqb t (lit "script") || seqb t (lit "style") then Some t else None.
(** [s] starts with [<] and a letter. *)
Inductive start_tag (b s : str) : mark -> Prop :=
| sg_wait : forall m, match_at locatestarttagend_tolerant b s = Some m -> (forall r, ~ tag_ends (ahead m) r) -> start_tag b s MWait
| sg_fail : forall m stop m1, match_at locatestarttagend_tolerant b s = Some m -> tag_ends (ahead m) stop ->
    match_at tagfind_tolerant (60 :: b) (tl s) = Some m1 -> attributes_fail stop (seen m1) (ahead m1) -> start_tag b s (MFail EValue)
| sg_plain : forall m stop m1 nm l k, match_at locatestarttagend_tolerant b s = Some m -> tag_ends (ahead m) stop ->
    match_at tagfind_tolerant (60 :: b) (tl s) = Some m1 -> group 1 m1 = Some nm -> attributes stop (seen m1) (ahead m1) l k ->
    strip (without k stop) = lit ">" -> start_tag b s (MGo [OStart (lower nm) l] (raw_name (lower nm)) stop)
| sg_closed : forall m stop m1 nm l k, match_at locatestarttagend_tolerant b s = Some m -> tag_ends (ahead m) stop ->
    match_at tagfind_tolerant (60 :: b) (tl s) = Some m1 -> group 1 m1 = Some nm -> attributes stop (seen m1) (ahead m1) l k ->
    strip (without k stop) = lit "/>" -> start_tag b s (MGo [OStart (lower nm) l; OEnd (lower nm)] None stop)
| sg_junk : forall m stop m1 nm l k, match_at locatestarttagend_tolerant b s = Some m -> tag_ends (ahead m) stop ->
    match_at tagfind_tolerant (60 :: b) (tl s) = Some m1 -> group 1 m1 = Some nm -> attributes stop (seen m1) (ahead m1) l k ->
    strip (without k stop) <> lit ">" -> strip (without k stop) <> lit "/>" -> start_tag b s (MGo [OData (without s stop)] None stop).

(** ** End tags: [</] and [t] *)
Inductive end_tag (raw : option str) (b t : str) : mark -> Prop :=
| et_wait : ~ In 62 t -> end_tag raw b t MWait
| et_inside : forall e x r, raw = Some e -> parted 62 t x r ->
    (forall m nm, match_at endtagfind b (60 :: 47 :: t) = Some m -> group 1 m = Some nm -> lower nm <> e) ->
    end_tag raw b t (MGo [OData (60 :: 47 :: x ++ [62])] raw r)
| et_close : forall m nm x r, match_at endtagfind b (60 :: 47 :: t) = Some m -> group 1 m = Some nm -> parted 62 t x r ->
    (raw = None \/ raw = Some (lower nm)) -> end_tag raw b t (MGo [OEnd (lower nm)] None r)
| et_odd : forall m nm x r, raw = None -> match_at endtagfind b (60 :: 47 :: t) = None -> parted 62 t x r ->
    match_at tagfind_tolerant (47 :: 60 :: b) t = Some m -> group 1 m = Some nm -> end_tag raw b t (MGo [OEnd (lower nm)] None r)
| et_bogus : forall x r, raw = None -> match_at endtagfind b (60 :: 47 :: t) = None -> parted 62 t x r ->
    match_at tagfind_tolerant (47 :: 60 :: b) t = None -> end_tag raw b t (MGo [] None r).

(** ** Comments, processing instructions, declarations: they say nothing *)
Inductive up_to_gt (raw : option str) (t : str) : mark -> Prop :=
| ug_wait : ~ In 62 t -> up_to_gt raw t MWait
| ug_done : forall x r, parted 62 t x r -> up_to_gt raw t (MGo [] raw r).
Inductive up_to_match (close : re) (raw : option str) (b t : str) : mark -> Prop :=
| um_wait : search_from close b t = None -> up_to_match close raw b t MWait
| um_done : forall x m, search_from close b t = Some (x, m) -> up_to_match close raw b t (MGo [] raw (ahead m)).
(** [<![] and [t] *)
Definition sections : list string := ["temp"; "cdata"; "ignore"; "include"; "rcdata"]%string.
Definition conditions : list string := ["if"; "else"; "endif"]%string.
Inductive marked_section (b t : str) : mark -> Prop :=
| ms_empty : t = [] -> marked_section b t MWait
| ms_no_name : t <> [] -> match_at declname b t = None -> marked_section b t (MFail EAssert)
| ms_wait : forall m, match_at declname b t = Some m -> ahead m = [] -> marked_section b t MWait
| ms_section : forall m x k, match_at declname b t = Some m -> ahead m <> [] -> In k sections ->
    lower (strip (eaten (Spot b t []) m)) = lit k -> up_to_match markedsectionclose None b t x -> marked_section b t x
| ms_condition : forall m x k, match_at declname b t = Some m -> ahead m <> [] -> In k conditions ->
    lower (strip (eaten (Spot b t []) m)) = lit k -> up_to_match msmarkedsectionclose None b t x -> marked_section b t x
| ms_unknown : forall m, match_at declname b t = Some m -> ahead m <> [] ->
    (forall k, In k (sections ++ conditions) -> lower (strip (eaten (Spot b t []) m)) <> lit k) -> marked_section b t (MFail EAssert).

(** ** What stands at a [<] that is not the last character.  (Inside a raw text
    element reading stops at [</] only.) *)
Inductive markup (raw : option str) (b : str) : str -> mark -> Prop :=
| mu_start : forall c t x, ascii_letter c -> start_tag b (60 :: c :: t) x -> markup raw b (60 :: c :: t) x
| mu_end : forall t x, end_tag raw b t x -> markup raw b (60 :: 47 :: t) x
| mu_comment : forall t x, up_to_match commentclose raw (45 :: 45 :: 33 :: 60 :: b) t x -> markup raw b (60 :: 33 :: 45 :: 45 :: t) x
| mu_pi : forall t x, up_to_gt raw t x -> markup raw b (60 :: 63 :: t) x
| mu_section : forall t x, raw = None -> marked_section (91 :: 33 :: 60 :: b) t x -> markup raw b (60 :: 33 :: 91 :: t) x
| mu_decl : forall t x, raw = None -> (forall r, t <> 45 :: 45 :: r) -> (forall r, t <> 91 :: r) -> up_to_gt raw t x -> markup raw b (60 :: 33 :: t) x
| mu_lone : forall c t, ~ ascii_letter c -> c <> 47 -> c <> 63 -> c <> 33 -> markup raw b (60 :: c :: t) (MGo [OData [60]] raw (c :: t)).
(** Markup that is unfinished when no more text will come: the part taken as
    text, and the rest. *)
Inductive given_up : str -> str -> str -> Prop :=
| gu_gt : forall t x r, parted 62 t x r -> given_up (60 :: t) (60 :: x ++ [62]) r
| gu_lt : forall t x r, ~ In 62 t -> parted 60 t x r -> given_up (60 :: t) (60 :: x) (60 :: r)
| gu_none : forall t, ~ In 62 t -> ~ In 60 t -> given_up (60 :: t) [60] t.

(** ** Reading a text *)
(** A text outside raw elements is said with its references replaced. *)
Inductive said (a : str) (k : trace) : trace -> Prop :=
| sa_text : forall u, decoded (items charref_re a) u -> said a k (TEv (OData u) k)
| sa_fail : (forall u, ~ decoded (items charref_re a) u) -> said a k (TErr EValue).
(** A reference may be cut in half: after the last ampersand, which is among the
    last 34 characters, there is neither white space nor a semicolon. *)
Definition cut_reference (s : str) : Prop :=
  exists p q, s = p ++ 38 :: q /\ (length q < 34)%nat /\ ~ In 38 q /\ ~ In 59 q /\ Forall (fun c => is_space c = false) q.
(** [reads fin raw b s t]: reading [s]; [fin]: no more will come; [raw]: the raw
    text element that is open. *)
Inductive reads (fin : bool) : option str -> str -> trace -> Prop :=
| rd_nothing : forall raw, reads fin raw [] (TStop raw [])
| rd_text : forall s t, s <> [] -> ~ In 60 s -> ~ cut_reference s -> said s (TStop None []) t -> reads fin None s t
| rd_keep : forall s, ~ In 60 s -> cut_reference s -> fin = false -> reads fin None s (TStop None s)
| rd_flush : forall s t, ~ In 60 s -> cut_reference s -> fin = true -> said s (TStop None []) t -> reads fin None s t
| rd_mark : forall r t, at_lt fin None [] (60 :: r) t -> reads fin None (60 :: r) t
| rd_before : forall s a r k t, parted 60 s a r -> a <> [] -> at_lt fin None (rev a) (60 :: r) k -> said a k t -> reads fin None s t
| rd_raw_wait : forall e s, s <> [] -> search_from (raw_close_re e) [] s = None -> reads fin (Some e) s (TStop (Some e) s)
| rd_raw_mark : forall e s m t, search_from (raw_close_re e) [] s = Some ([], m) -> at_lt fin (Some e) [] s t -> reads fin (Some e) s t
| rd_raw_before : forall e s a r m k, search_from (raw_close_re e) [] s = Some (a, m) -> a <> [] -> s = a ++ r ->
    at_lt fin (Some e) (rev a) r k -> reads fin (Some e) s (TEv (OData a) k)
with at_lt (fin : bool) : option str -> str -> str -> trace -> Prop :=
| al_last : forall raw b, fin = false \/ raw <> None -> at_lt fin raw b [60] (TStop raw [60])
| al_last_said : forall b, fin = true -> at_lt fin None b [60] (TEv (OData [60]) (TStop None []))
| al_go : forall raw b s evs raw' r k, markup raw b s (MGo evs raw' r) -> reads fin raw' r k -> at_lt fin raw b s (fold_right TEv k evs)
| al_fail : forall raw b s e, markup raw b s (MFail e) -> at_lt fin raw b s (TErr e)
| al_wait : forall raw b s, fin = false -> markup raw b s MWait -> at_lt fin raw b s (TStop raw s)
| al_give_up : forall b s a r k t, fin = true -> markup None b s MWait -> given_up s a r -> reads fin None r k -> said a k t -> at_lt fin None b s t
| al_give_up_raw : forall e b s a r k, fin = true -> markup (Some e) b s MWait -> given_up s a r -> reads fin (Some e) r k ->
    at_lt fin (Some e) b s (TEv (OData a) k).
(** ** A text that is fed whole to a new parser, which is then closed: the calls
    of handlers, and the exception that ends the reading, if any. *)
Definition calls (evs : list op) (k : trace) : trace := fold_right TEv k evs.
Inductive source (src : str) : list op -> option exn -> Prop :=
| so_read : forall evs raw r evs' raw' r', reads false None src (calls evs (TStop raw r)) ->
    reads true raw r (calls evs' (TStop raw' r')) -> source src (evs ++ evs') None
| so_feed : forall evs e, reads false None src (calls evs (TErr e)) -> source src evs (Some e)
| so_close : forall evs raw r evs' e, reads false None src (calls evs (TStop raw r)) ->
    reads true raw r (calls evs' (TErr e)) -> source src (evs ++ evs') (Some e).
End M.
Close Scope N_scope.
