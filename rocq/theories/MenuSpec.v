(** The menu at the end of a gophermap page: one record for each link. *)
From Verif Require Export PageSpec HrefSpec.
Open Scope Z_scope.

(** A tree and everything in it, in document order. *)
Fixpoint parts_of (t : tree) : list tree :=
  match t with Tag _ _ _ kids => t :: flat_map parts_of kids | Text _ _ => [t] end.
Definition is_link_to (t : tree) : bool := match t with Tag _ tg _ _ => seqb tg (lit "a") | Text _ _ => false end.
Definition links_of (F : list tree) : list tree := filter is_link_to (flat_map parts_of F).

(** What a link says for itself: its title, or else the text in it, with the markers of
    emphasis, cut to ten characters.  [says]: only for links with a title or with nothing
    but text and emphasis. *)
Inductive wording : list tree -> str -> Prop :=
| wo_none : wording [] []
| wo_text : forall i s kids c, wording kids c -> wording (Text i s :: kids) (s ++ c)
| wo_marked : forall i tg a m inner b kids c, lookup tg markers = Some m -> wording inner b -> wording kids c ->
    wording (Tag i tg a inner :: kids) (lit m ++ b ++ lit m ++ c).
Definition says (t : tree) (desc : str) : Prop :=
  exists i tg a kids, t = Tag i tg a kids /\
    match attr "title" a with
    | Some x => desc = x
    | None => exists c, wording kids c /\ desc = firstn 10 (strip c) ++ (if 10 <? len c then lit "..." else [])
    end.
Definition href_of (t : tree) : option str := match t with Tag _ _ a _ => attr "href" a | Text _ _ => None end.

(** No tabs or newlines in what it says and in its address; an address with
    characters beyond ASCII is not one of another gopher host. *)
Definition neat `{U : Uni} (g : cfg) (t : tree) : Prop :=
  (exists desc, says t desc /\ one_field desc)
  /\ forall hr, href_of t = Some hr ->
       one_field hr /\ (Forall (fun c => (c < 128)%N) hr \/ forall l, leads (Some hr) (g_host g) (g_port g) (Ok l) -> gl_host l = Some (g_host g)).
(** The record of a link: item type, number and description; selector; host; port. *)
Definition record_of `{U : Uni} (g : cfg) (number : Z) (t : tree) (line : str) : Prop :=
  ~ In 10%N line /\ exists desc to, says t desc /\ leads (href_of t) (g_host g) (g_port g) (Ok to)
    /\ split_on 9%N line = [gl_type to ++ lit "[" ++ str_of_Z number ++ lit "] " ++ desc; gl_selector to;
                            match gl_host to with Some h => h | None => lit "None" end;
                            match gl_port to with Some p => str_of_Z p | None => lit "None" end].
(** The text above the menu: what the elements show, each link with its number. *)
Definition text_above `{U : Uni} (g : cfg) (F : list tree) (text : str) : Prop :=
  exists x y, body g (fun i => rank i (map tid (links_of F))) F = Ok x /\ y = newlines (sd_top (b_margin (g_box g))) ++ x
    /\ text = if g_optimise g then join nl (map rstrip (split_on 10%N y)) else y.
(** The whole page: the text, a new line, and one line for each link, numbered 1, 2, 3...;
    without links only the text; last the empty lines of the margin. *)
Definition with_menu `{U : Uni} (g : cfg) (F : list tree) (page : str) : Prop :=
  exists text lines, text_above g F text
    /\ page = text ++ (match links_of F with [] => [] | _ => nl ++ concat (map (fun l => l ++ nl) lines) end) ++ newlines (sd_bottom (b_margin (g_box g)))
    /\ length lines = length (links_of F)
    /\ forall k t line, nth_error (links_of F) k = Some t -> nth_error lines k = Some line -> record_of g (Z.of_nat k + 1) t line.

(** ** The list of references at the foot of a page of text *)
(** A reference: number, text of the link cut to ten characters, address, and the title
    if it has one, without blanks at the end.  Only for links with nothing but text and emphasis. *)
Definition reference_of_link (number : Z) (t : tree) (line : str) : Prop :=
  exists i tg a kids c, t = Tag i tg a kids /\ wording kids c
    /\ line = rstrip (lit "[" ++ str_of_Z number ++ lit "] " ++ (firstn 10 (strip c) ++ (if 10 <? len c then lit "..." else [])) ++ lit ": "
                      ++ (match attr "href" a with Some h => h | None => lit "None" end)
                      ++ (match attr "title" a with Some (x :: t) => lit " " ++ [34%N] ++ (x :: t) ++ [34%N] | _ => [] end)).
(** Nothing but text and emphasis in it, and no newlines in its text, address and title. *)
Definition one_line_link (t : tree) : Prop :=
  exists i tg a kids c, t = Tag i tg a kids /\ wording kids c /\ ~ In 10%N c
    /\ (forall x, attr "href" a = Some x -> ~ In 10%N x) /\ (forall x, attr "title" a = Some x -> ~ In 10%N x).
(** The whole page: the text, an empty line, and one line for each link; last the margin. *)
Definition with_references `{U : Uni} (g : cfg) (F : list tree) (page : str) : Prop :=
  exists text lines, text_above g F text
    /\ page = text ++ (match links_of F with [] => [] | _ => nl ++ nl ++ join nl lines end) ++ newlines (sd_bottom (b_margin (g_box g)))
    /\ length lines = length (links_of F)
    /\ forall k t line, nth_error (links_of F) k = Some t -> nth_error lines k = Some line -> reference_of_link (Z.of_nat k + 1) t line.
Close Scope Z_scope.
