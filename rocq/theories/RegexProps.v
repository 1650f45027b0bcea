(** C72: character references mean what HTML says.  C73: markup, references,
    break points and escapes are what the regular expressions say. *)
From Verif Require Import Textwrap Tokenizer Fixture.
From Verif Require Import RegexFacts RegexText RefSpec RegexRefs RegexTags MarkupFacts RegexSpec.
Open Scope N_scope.

(** C72: unescaping a text replaces each reference by what it stands for. *)
Theorem C72_references : forall s t, unescape s = Ok t <-> decoded (items charref_re s) t.
Proof. exact unescape_re. Qed.
Print Assumptions C72_references.
(** C72: it raises ValueError just when a decimal reference has more digits than
    [int] converts. *)
Theorem C72_failure : forall s e, unescape s = Err e <-> e = EValue /\ Exists too_long (items charref_re s).
Proof. exact unescape_fails. Qed.
Print Assumptions C72_failure.
(** C72: a reference stands for one text. *)
Theorem C72_one_meaning : forall g t t', stands_for g t -> stands_for g t' -> t = t'.
Proof. exact stands_one. Qed.
Print Assumptions C72_one_meaning.

Section P.
Context `{U : Uni}.
(** C73: where a text may be broken: the pieces are what [split] with the
    expression of the wrapper gives, without the empty ones. *)
Theorem C73_break_points : forall cfg s, split_chunks cfg s = filter full (split_re (if w_boh_true cfg then wordsep_re else wordsep_simple_re) s).
Proof. exact chunks_re. Qed.
(** C73: which pieces end a sentence. *)
Theorem C73_sentence_end : forall s, sent_end s = true <-> search_from sentence_end_re [] s <> None.
Proof. exact sentence_re. Qed.
(** C73: which characters have no width: [sub] of the escape expression by
    nothing, and length of the rest. *)
Theorem C73_escapes : forall s, strip_esc s = sub_re escape_re (fun _ => []) s.
Proof. exact escapes_re. Qed.
(** C73: [sub] of runs of spaces and tabs. *)
Theorem C73_blanks : forall s, squeeze false s = sub_re blanks_re (fun _ => [32]) s.
Proof. exact blanks_sub. Qed.
(** C73: an attribute of a tag: the whole match, the name and the value. *)
Theorem C73_attribute : forall b s, match attr_here (hd 0 b) s with
  | None => match_at attrfind_tolerant b s = None
  | Some (nm, v, p, r) => exists w m, s = w ++ r /\ w <> [] /\ match_at attrfind_tolerant b s = Some m /\ seen m = rev w ++ b /\ ahead m = r /\ p = hd 0 (seen m)
      /\ group 1 m = Some nm /\ group 3 m = v /\ match v with None => group 2 m = None | Some _ => exists x y, group 2 m = Some (x :: y) end
  end.
Proof. exact attr_via. Qed.
(** C73: the end of a start tag. *)
Theorem C73_start_tag : forall b s, match match_at locatestarttagend_tolerant b (60 :: s) with
  | Some m => whole_start_tag s = tag_stop (ahead m) /\ exists w, 60 :: s = w ++ ahead m
  | None => forall c t, s = c :: t -> is_alpha_ascii c = false
  end.
Proof. exact start_match. Qed.
(** C73: the name of an end tag. *)
Theorem C73_end_tag : forall b t, match end_tag_name t with
  | Some nm => exists m, match_at endtagfind b (60 :: 47 :: t) = Some m /\ group 1 m = Some nm
  | None => match_at endtagfind b (60 :: 47 :: t) = None
  end.
Proof. exact end_match. Qed.
(** C73: the ends of comments and marked sections, searched from any place. *)
Theorem C73_comment : forall s b, search comment_close s = match search_from commentclose b s with Some (_, m) => Some (ahead m) | None => None end.
Proof. exact (search_re _ _ comment_re). Qed.
Theorem C73_section : forall s b, search section_close s = match search_from markedsectionclose b s with Some (_, m) => Some (ahead m) | None => None end.
Proof. exact (search_re _ _ section_re). Qed.
Theorem C73_condition : forall s b, search ms_close s = match search_from msmarkedsectionclose b s with Some (_, m) => Some (ahead m) | None => None end.
Proof. exact (search_re _ _ ms_re). Qed.
(** C73: the end of a script or style element. *)
Theorem C73_raw : forall e, In e [lit "script"; lit "style"] -> forall s, match cdata_text e s with
  | Some (a, r) => exists m, search_from (raw_close_re e) [] s = Some (a, m) /\ s = a ++ r
  | None => search_from (raw_close_re e) [] s = None
  end.
Proof. intros e H s. destruct (raw_letters e) as [FL NE]; [destruct H as [<-|[<-|[]]]; unfold raw_ok; auto|exact (raw_search e FL NE s [])]. Qed.
(** C73: the name of a marked section. *)
Theorem C73_declared_name : forall b s, match s with
  | c :: _ => if is_alpha_ascii c then exists m, match_at declname b s = Some m /\ ahead m = drop_while is_space (drop_while decl_name_char s)
                /\ eaten (Spot b s []) m = take_while decl_name_char s ++ take_while is_space (drop_while decl_name_char s)
              else match_at declname b s = None
  | [] => match_at declname b s = None end.
Proof. exact decl_match. Qed.
End P.
Print Assumptions C73_break_points.
Print Assumptions C73_sentence_end.
Print Assumptions C73_escapes.
Print Assumptions C73_blanks.
Print Assumptions C73_attribute.
Print Assumptions C73_start_tag.
Print Assumptions C73_end_tag.
Print Assumptions C73_comment.
Print Assumptions C73_section.
Print Assumptions C73_condition.
Print Assumptions C73_raw.
Print Assumptions C73_declared_name.

(** ** Cases *)
Local Existing Instance U0.
Example named : decoded (items charref_re (lit "R&ampD &notit; &eacute;&#65;&#x41 &#128;&#0;&#1;& &x")) (lit "R&D " ++ [172] ++ lit "it; " ++ [233; 65; 65; 32; 8364; 65533] ++ lit "& &x").
Proof. apply C72_references. vm_compute. reflexivity. Qed.
Example long_one : unescape (lit "&#" ++ repeat 49 (N.to_nat 4301)) = Err EValue.
Proof. vm_compute. reflexivity. Qed.
Example long_case : Exists too_long (items charref_re (lit "&#" ++ repeat 49 (N.to_nat 4301))).
Proof. apply (C72_failure _ EValue). exact long_one. Qed.
Example pieces_case : filter full (split_re wordsep_re (lit "a well-known trick--it's 10-20, x-ray -o")) =
  map lit ["a"; " "; "well-"; "known"; " "; "trick"; "--"; "it's"; " "; "10-20,"; " "; "x-ray"; " "; "-o"]%string.
Proof. vm_compute. reflexivity. Qed.
Example escape_case : sub_re escape_re (fun _ => []) ([27] ++ lit "[1;31mred" ++ [27] ++ lit "[0m" ++ [27] ++ lit "[x") = lit "red" ++ [27] ++ lit "[x".
Proof. vm_compute. reflexivity. Qed.
Example attribute_case : exists m, match_at attrfind_tolerant [32] (lit "href = 'a b' / x>") = Some m /\ group 1 m = Some (lit "href") /\ group 3 m = Some (lit "'a b'") /\ ahead m = lit "x>".
Proof. eexists. split; [vm_compute; reflexivity|]. vm_compute. auto. Qed.
Example raw_case : exists m, search_from (raw_close_re (lit "script")) [] (lit "a<b</p></ SCRIPT >z") = Some (lit "a<b</p>", m) /\ ahead m = lit "z".
Proof. eexists. split; [vm_compute; reflexivity|reflexivity]. Qed.
Close Scope N_scope.
