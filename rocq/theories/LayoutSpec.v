(** Specification vocabulary: how the wrapper lays out a text, step by step. *)
From Verif Require Export MungeSpec.
Open Scope Z_scope.

Section Layout.
Context `{U : Uni}.

(** ** Where a text may be broken *)
Definition white (c : N) : Prop := In c [9; 10; 11; 12; 13; 32]%N.
Definition dash : N := 45%N.
(** A letter: a word character that is not a digit. *)
Definition a_letter (c : N) : Prop := is_word c = true /\ is_digit c = false.
(** The characters that tie a dash to the word before it. *)
Definition ties (c : N) : Prop := is_word c = true \/ In c [33; 34; 39; 38; 46; 44; 63]%N.
(** Two letters, with or without a hyphen between them. *)
Inductive two_letters : str -> Prop :=
| tl_two : forall x y, a_letter x -> a_letter y -> two_letters [x; y]
| tl_hyphen : forall x y, a_letter x -> a_letter y -> two_letters [x; dash; y].
(** [space_break before after]: where white space starts or ends. *)
Inductive space_break : str -> str -> Prop :=
| sb_start : forall b x y a, ~ white x -> white y -> space_break (b ++ [x]) (y :: a)
| sb_end : forall b x y a, white x -> ~ white y -> space_break (b ++ [x]) (y :: a).
(** With hyphens: also after a hyphen between letters, and around a dash (two or
    more hyphens) between words. *)
Inductive hyphen_place : str -> str -> Prop :=
| hp_space : forall b a, space_break b a -> hyphen_place b a
| hp_hyphen : forall b l r a, two_letters l -> two_letters r -> hyphen_place (b ++ l ++ [dash]) (r ++ a)
| hp_before : forall b x n y a, ties x -> (2 <= n)%nat -> is_word y = true ->
    hyphen_place (b ++ [x]) (repeat dash n ++ y :: a)
| hp_after : forall b x n y a, ties x -> (2 <= n)%nat -> is_word y = true ->
    hyphen_place (b ++ x :: repeat dash n) (y :: a).
(** [cut_at P s ps]: [ps] are the pieces of [s] cut at all the places [P] and no
    others. *)
Definition cut_at (P : str -> str -> Prop) (s : str) (ps : list str) : Prop :=
  concat ps = s /\ Forall (fun p => p <> []) ps
  /\ forall b a, s = b ++ a -> b <> [] -> a <> [] ->
     (P b a <-> exists l r, ps = l ++ r /\ concat l = b /\ concat r = a).

(** ** The space after a sentence *)
Definition small_letter (c : N) : Prop := (97 <= c <= 122)%N.
Definition sentence_end (t : str) : Prop :=
  exists b c p q, t = b ++ c :: p :: q /\ small_letter c /\ In p [46; 33; 63]%N
    /\ (q = [] \/ exists x, q = [x] /\ In x [34; 39]%N).
(** [spaced before ps qs]: the pieces [ps], which follow the text [before], with
    two spaces for a single space after the end of a sentence. *)
Inductive spaced : str -> list str -> list str -> Prop :=
| sp_nil : forall b, spaced b [] []
| sp_wide : forall b ps qs, sentence_end b -> spaced (b ++ lit " ") ps qs ->
    spaced b (lit " " :: ps) (lit "  " :: qs)
| sp_same : forall b p ps qs, ~ (p = lit " " /\ sentence_end b) -> spaced (b ++ p) ps qs ->
    spaced b (p :: ps) (p :: qs).

(** ** Lines *)
Definition blank_piece (p : str) : Prop := forall c, In c p -> is_space c = true.
Definition columns (ps : list str) : Z := fold_right (fun p n => vlen p + n) 0 ps.
(** As many of the pieces as fit in [w] columns. *)
Definition as_many (w : Z) (ps on rest : list str) : Prop :=
  ps = on ++ rest /\ (on <> [] -> columns on <= w)
  /\ match rest with [] => True | p :: _ => columns on + vlen p > w end.
(** A piece too wide for any line is cut after [room] characters, or after the
    last hyphen before that has anything but hyphens in front of it. *)
Definition after_hyphen (room : Z) (p front back : str) : Prop :=
  p = front ++ back /\ len front <= room
  /\ exists x, front = x ++ [dash] /\ exists c, In c x /\ c <> dash.
Definition word_cut (hyphens : bool) (room : Z) (p front back : str) : Prop :=
  let at_hyphen f b := hyphens = true /\ len p > room /\ after_hyphen room p f b in
  (at_hyphen front back /\ forall f b, at_hyphen f b -> len f <= len front)
  \/ ((forall f b, ~ at_hyphen f b) /\ p = front ++ back /\ len front = Z.min room (len p)).
(** [overlong cfg w on rest on' rest']: what becomes of a next piece that is
    wider than the line. *)
Inductive overlong (cfg : wcfg) (w : Z) : list str -> list str -> list str -> list str -> Prop :=
| ol_none : forall on, overlong cfg w on [] on []
| ol_fits : forall on p r, vlen p <= w -> overlong cfg w on (p :: r) on (p :: r)
| ol_cut : forall on p r front back, vlen p > w -> w_blw cfg = true ->
    word_cut (w_boh cfg) (if w <? 1 then 1 else w - columns on) p front back ->
    overlong cfg w on (p :: r) (on ++ [front]) (back :: r)
| ol_whole : forall p r, vlen p > w -> w_blw cfg = false -> overlong cfg w [] (p :: r) [p] r
| ol_later : forall on p r, vlen p > w -> w_blw cfg = false -> on <> [] -> overlong cfg w on (p :: r) on (p :: r).
(** A blank piece at the start of a line (but the first) and one at its end are
    dropped, if that is asked for. *)
Inductive without_first (d : bool) : list str -> list str -> Prop :=
| wf_drop : forall p r, d = true -> blank_piece p -> without_first d (p :: r) r
| wf_keep : forall ps, ~ (d = true /\ exists p r, ps = p :: r /\ blank_piece p) -> without_first d ps ps.
Inductive without_last (d : bool) : list str -> list str -> Prop :=
| wl_drop : forall p r, d = true -> blank_piece p -> without_last d (r ++ [p]) r
| wl_keep : forall ps, ~ (d = true /\ exists p r, ps = r ++ [p] /\ blank_piece p) -> without_last d ps ps.
Definition indent (cfg : wcfg) (done : list str) : str := match done with [] => w_init cfg | _ => w_subs cfg end.
(** [a_line cfg done ps on rest]: after the lines [done], the pieces [on] are the
    next line of the text [ps]. *)
Definition a_line (cfg : wcfg) (done ps on rest : list str) : Prop :=
  let w := w_width cfg - len (indent cfg done) in
  exists ps1 on1 rest1 on2,
    (if (0 <? Z.of_nat (length done)) then without_first (w_drop cfg) ps ps1 else ps1 = ps)
    /\ as_many w ps1 on1 rest1 /\ overlong cfg w on1 rest1 on2 rest /\ without_last (w_drop cfg) on2 on.
(** With a limit: the line may be the last one, or more than blank space follows. *)
Definition within_limit (cfg : wcfg) (done on rest : list str) : Prop :=
  match w_max_lines cfg with
  | None => True
  | Some m => Z.of_nat (length done) + 1 < m
      \/ ((rest = [] \/ (w_drop cfg = true /\ exists p, rest = [p] /\ blank_piece p))
          /\ columns on <= w_width cfg - len (indent cfg done))
  end.
(** A line ending with the placeholder: as much of it as leaves room for that. *)
Definition shortened (cfg : wcfg) (w : Z) (on keep : list str) : Prop :=
  exists drop p l, on = keep ++ drop /\ keep = l ++ [p] /\ ~ blank_piece p
    /\ columns keep + len (w_placeholder cfg) <= w.
Definition abridged (cfg : wcfg) (done on lines : list str) : Prop :=
  let w := w_width cfg - len (indent cfg done) in
  let mark := w_placeholder cfg in
  (exists keep, shortened cfg w on keep /\ (forall k, shortened cfg w on k -> (length k <= length keep)%nat)
     /\ lines = done ++ [indent cfg done ++ concat keep ++ mark])
  \/ ((forall k, ~ shortened cfg w on k)
      /\ ((exists d p, done = d ++ [p] /\ vlen (rstrip p) + len mark <= w_width cfg /\ lines = d ++ [rstrip p ++ mark])
          \/ (~ (exists d p, done = d ++ [p] /\ vlen (rstrip p) + len mark <= w_width cfg)
              /\ lines = done ++ [indent cfg done ++ lstrip mark]))).
(** [laid cfg done ps lines]: the lines of a text of which [done] are laid and the
    pieces [ps] remain. *)
Inductive laid (cfg : wcfg) : list str -> list str -> list str -> Prop :=
| ld_end : forall done, laid cfg done [] done
| ld_nothing : forall done ps rest lines, ps <> [] -> a_line cfg done ps [] rest ->
    laid cfg done rest lines -> laid cfg done ps lines
| ld_line : forall done ps on rest lines, ps <> [] -> a_line cfg done ps on rest -> on <> [] ->
    within_limit cfg done on rest ->
    laid cfg (done ++ [indent cfg done ++ concat on]) rest lines -> laid cfg done ps lines
| ld_limit : forall done ps on rest lines, ps <> [] -> a_line cfg done ps on rest -> on <> [] ->
    ~ within_limit cfg done on rest -> abridged cfg done on lines -> laid cfg done ps lines.

(** ** The layout of a text *)
Definition room_for_limit (cfg : wcfg) : Prop :=
  forall m, w_max_lines cfg = Some m ->
    len (if m >? 1 then w_subs cfg else w_init cfg) + len (lstrip (w_placeholder cfg)) <= w_width cfg.
Definition layout (cfg : wcfg) (text : str) (lines : list str) : Prop :=
  0 < w_width cfg /\ room_for_limit cfg
  /\ exists t ps qs,
       (if w_expand cfg then tabs_out (w_tabsize cfg) 0 text t else t = text)
       /\ cut_at (if w_boh_true cfg then hyphen_place else space_break) (if w_replace cfg then map blanked t else t) ps
       /\ (if w_fixse cfg then spaced [] ps qs else qs = ps)
       /\ laid cfg [] qs lines.
End Layout.
Close Scope Z_scope.
