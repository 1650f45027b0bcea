(** Specification vocabulary: what one parser does with any sequence of calls of
    feed, close and reset, exceptions caught by the caller.  Everything is said in
    terms of the document read so far (a tree), the elements still open, the text
    not yet read, and what closing has put together. *)
From Verif Require MarkupSpec.
From Verif Require Export Feed TripSpec.
Open Scope Z_scope.

Section S.
Context `{U : Uni}.

(** ** What a parser has in front of it *)
Record desk := Desk {
  dk_tree : list tree;   (* what was read since the last reset *)
  dk_open : list str;    (* the elements still open, innermost first *)
  dk_pre : bool;         (* texts are kept as they are: the last tag of a pre element was a start tag *)
  dk_text : str;         (* what closing put together since the last reset *)
  dk_parsed : str }.     (* the attribute [parsed] *)
Definition desk0 : desk := Desk [] [] false [] [].
Definition count_nodes (F : list tree) : nat := length (flat_map preorder F).

(** A tag or a text is read.  A start tag that raises is not there, except that
    a pre tag still makes the texts after it verbatim. *)
Definition hear (g : cfg) (o : op) (k : desk) : desk * option exn :=
  let depth := length (dk_open k) in
  let next := count_nodes (dk_tree k) in
  match o with
  | OStart t a =>
      let pre := if seqb t (lit "pre") then true else dk_pre k in
      match start_error g (dk_open k) t a with
      | Some e => (Desk (dk_tree k) (dk_open k) pre (dk_text k) (dk_parsed k), Some e)
      | None => (Desk (add_at depth (Tag next t a []) (dk_tree k)) (if void t then dk_open k else t :: dk_open k) pre (dk_text k) (dk_parsed k), None)
      end
  | OEnd t =>
      if void t then (k, None)
      else (Desk (dk_tree k)
              (match dk_open k with x :: r => if seqb x t then r else dk_open k | [] => [] end)
              (if seqb t (lit "pre") then false else dk_pre k) (dk_text k) (dk_parsed k), None)
  | OData x =>
      (Desk (add_at depth (Text next (if dk_pre k then x else normalise x)) (dk_tree k)) (dk_open k) (dk_pre k) (dk_text k) (dk_parsed k), None)
  | OClose | OReset => (k, None)
  end.

(** ** Closing *)
(** [laid g F x e]: laying out the page of [F] gives the text [x], and raises [e],
    if anything: all of it; nothing, because a selector raises; the body up to the
    place where something goes wrong; the body and the list at its foot up to
    there. *)
Inductive laid (g : cfg) (F : list tree) : str -> option exn -> Prop :=
| la_page : forall parts entries,
    let foot := if seqb (g_link g) (lit "footer") then filter (listed_at g "footer") (all_places [] [] F) else [] in
    untroubled g F ->
    Forall2 (fun z o => shows g F false z (g_box g) o) (spots [] [] F) parts ->
    Forall2 (fun z o => shows g F true z (g_box g) o) foot entries ->
    laid g F (concat parts ++ (match foot with [] => [] | _ => nl end) ++ concat entries) None
| la_trouble : forall e, trouble g F e -> laid g F [] (Some e)
| la_body : forall ys y rest parts e, untroubled g F ->
    spots [] [] F = ys ++ y :: rest ->
    Forall2 (fun z o => shows g F false z (g_box g) o) ys parts -> breaks g F false y (g_box g) e ->
    laid g F (concat parts) (Some e)
| la_foot : forall ys y rest parts entries e, untroubled g F -> g_link g = lit "footer" ->
    Forall2 (fun z o => shows g F false z (g_box g) o) (spots [] [] F) parts ->
    filter (listed_at g "footer") (all_places [] [] F) = ys ++ y :: rest ->
    Forall2 (fun z o => shows g F true z (g_box g) o) ys entries -> breaks g F true y (g_box g) e ->
    laid g F (concat parts ++ nl ++ concat entries) (Some e).
(** Closing ends all open elements and lays out the whole document once more, after
    what was laid out before.  [parsed] changes only if nothing is raised. *)
Inductive finishes (g : cfg) (k : desk) : desk -> option exn -> Prop :=
| fi_done : forall x, laid g (dk_tree k) x None ->
    finishes g k (Desk (dk_tree k) [] (dk_pre k) (dk_text k ++ x) (finished g (dk_text k ++ x))) None
| fi_raise : forall x e, laid g (dk_tree k) x (Some e) ->
    finishes g k (Desk (dk_tree k) [] (dk_pre k) (dk_text k ++ x) (dk_parsed k)) (Some e).

(** ** Calls *)
Record session := Session {
  ss_kept : str;          (* text that was fed and not read yet *)
  ss_raw : option str;    (* the script or style element that is open *)
  ss_desk : desk }.
Definition session0 : session := Session [] None desk0.
(** The tags and texts of [whole] are read one after the other; if one raises, all
    of [whole] is kept, to be read again. *)
Inductive takes (g : cfg) (whole : str) : trace -> desk -> session -> option exn -> Prop :=
| tk_stop : forall raw r k, takes g whole (TStop raw r) k (Session r raw k) None
| tk_fail : forall e k, takes g whole (TErr e) k (Session whole None k) (Some e)
| tk_go : forall o t k k' z e, hear g o k = (k', None) -> takes g whole t k' z e -> takes g whole (TEv o t) k z e
| tk_raise : forall o t k k' e, hear g o k = (k', Some e) -> takes g whole (TEv o t) k (Session whole None k') (Some e).
Inductive does (g : cfg) (z : session) : call -> session -> option exn -> Prop :=
| do_feed : forall x t z' e, MarkupSpec.reads false (ss_raw z) (ss_kept z ++ x) t ->
    takes g (ss_kept z ++ x) t (ss_desk z) z' e -> does g z (CFeed x) z' e
| do_close_unread : forall t z' e, MarkupSpec.reads true (ss_raw z) (ss_kept z) t ->
    takes g (ss_kept z) t (ss_desk z) z' (Some e) -> does g z CClose z' (Some e)
| do_close : forall t z' k e, MarkupSpec.reads true (ss_raw z) (ss_kept z) t ->
    takes g (ss_kept z) t (ss_desk z) z' None -> finishes g (ss_desk z') k e ->
    does g z CClose (Session (ss_kept z') (ss_raw z') k) e
| do_reset : does g z CReset (Session [] None (Desk [] [] (dk_pre (ss_desk z)) [] [])) None.
Inductive does_all (g : cfg) : session -> list call -> session -> list (option exn) -> Prop :=
| da_nil : forall z, does_all g z [] z []
| da_cons : forall z c z1 e r z2 es, does g z c z1 e -> does_all g z1 r z2 es -> does_all g z (c :: r) z2 (e :: es).

(** ** Tables whose rules last *)
(** A document to which tags and texts may have been added. *)
Inductive grown : list tree -> list tree -> Prop :=
| gw_same : forall F, grown F F
| gw_more : forall F F' k x, grown F F' -> kids_of x = [] -> grown F (add_at k x F').
Definition node_of (z : site) : option nat := match z with x :: _ => Some (tid (sp_here x)) | [] => None end.
(** An element that no rule of [rules] gives a renderer was not given one when the
    document was shorter. *)
Definition rules_last (rules : list (rule rcls)) : Prop :=
  forall F F' z z', grown F F' -> NoDup (flat_map preorder F') ->
    In z (all_places [] [] F) -> In z' (all_places [] [] F') -> node_of z = node_of z' ->
    silent rules z' rule_renderer -> silent rules z rule_renderer.
(** Closing twice: an element whose renderer is the default, given without
    settings, keeps the settings of an earlier closing; so that must not happen. *)
Definition lasting (g : cfg) : Prop :=
  ((exists c s, g_default g = RPair c s) \/ rules_last (g_rules g))
  /\ ((exists c s, g_ext_a g = Some (RPair c s)) \/ rules_last (g_ext_rules g)).
(** A selector that does not ask what comes after an element. *)
Fixpoint looks_back (s : sel) : bool :=
  match s with
  | SElement _ | SOther => true
  | SClass s1 _ | SHash s1 _ | SAttrib s1 _ _ _ => looks_back s1
  | SPseudo s1 p => looks_back s1 && negb (seqb p (lit "last-child"))
  | SFunction _ _ _ => false
  | SNegation s1 s2 | SCombined s1 _ s2 => looks_back s1 && looks_back s2
  end.
(** A table that gives renderers (not only settings) to such selectors only. *)
Definition back_table (t : table) : bool :=
  forallb (fun row => match rule_renderer (snd (snd row)) with
                      | Some _ => forallb (fun s => looks_back (sl_tree s)) (fst (snd row))
                      | None => true
                      end) t.
End S.
Close Scope Z_scope.
