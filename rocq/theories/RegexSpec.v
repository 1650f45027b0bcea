(** Specification vocabulary: Python regular expressions.  The expressions used by
    the code, as written there, and what a backtracking matcher makes of them. *)
From Verif Require Export PyBase.
From Verif Require Import PyStr.
Open Scope N_scope.

(** ** Expressions *)
Inductive re :=
| Cls (p : N -> bool)            (* one character of a class *)
| Emp                            (* nothing *)
| Seq (a b : re)                 (* ab *)
| Alt (a b : re)                 (* a|b *)
| Many (a : re)                  (* a*  *)
| Few (a : re)                   (* a*? *)
| Ahead (a : re)                 (* (?=a) *)
| NotAhead (a : re)              (* (?!a) *)
| Behind (l : list (N -> bool))  (* (?<=...), a row of classes *)
| AtEnd                          (* \Z *)
| Grp (n : nat) (a : re).        (* (a), the n-th group *)

(** Where the matcher is: the characters before (nearest first), those to come,
    and what the groups matched (latest first). *)
Record spot := Spot { seen : str; ahead : str; groups : list (nat * str) }.
Fixpoint rowed (l : list (N -> bool)) (s : str) : bool :=
  match l, s with
  | [], _ => true
  | p :: l', c :: s' => p c && rowed l' s'
  | _ :: _, [] => false
  end.
Definition eaten (a b : spot) : str := firstn (length (ahead a) - length (ahead b)) (ahead a).

(** All ways to match, the preferred one first.  A repetition goes on only if it
    made progress, so the length of the text bounds it. *)
Section Loops.
Variable body : spot -> list spot.
Definition progress (a b : spot) : bool := Nat.ltb (length (ahead b)) (length (ahead a)).
Fixpoint greedy (n : nat) (s : spot) : list spot :=
  match n with
  | O => [s]
  | S m => flat_map (fun t => if progress s t then greedy m t else []) (body s) ++ [s]
  end.
Fixpoint lazy (n : nat) (s : spot) : list spot :=
  match n with
  | O => [s]
  | S m => s :: flat_map (fun t => if progress s t then lazy m t else []) (body s)
  end.
End Loops.
Fixpoint ways (r : re) (s : spot) : list spot :=
  match r with
  | Cls p => match ahead s with
             | c :: t => if p c then [Spot (c :: seen s) t (groups s)] else []
             | [] => []
             end
  | Emp => [s]
  | Seq a b => flat_map (ways b) (ways a s)
  | Alt a b => ways a s ++ ways b s
  | Many a => greedy (ways a) (length (ahead s)) s
  | Few a => lazy (ways a) (length (ahead s)) s
  | Ahead a => match ways a s with [] => [] | _ => [s] end
  | NotAhead a => match ways a s with [] => [s] | _ => [] end
  | Behind l => if rowed (rev l) (seen s) then [s] else []
  | AtEnd => match ahead s with [] => [s] | _ => [] end
  | Grp n a => map (fun t => Spot (seen t) (ahead t) ((n, eaten s t) :: groups t)) (ways a s)
  end.
(** [pattern.match] at a place. *)
Definition match_at (r : re) (before s : str) : option spot := hd_error (ways r (Spot before s [])).
(** [m.group(n)] *)
Definition group (n : nat) (m : spot) : option str :=
  match find (fun g => Nat.eqb (fst g) n) (groups m) with Some (_, x) => Some x | None => None end.

(** [pattern.search]: the first place with a match; [before]: what is before it. *)
Fixpoint search_from (r : re) (before s : str) : option (str * spot) :=
  match match_at r before s with
  | Some m => Some (rev before, m)
  | None => match s with [] => None | c :: t => search_from r (c :: before) t end
  end.
(** The matches in a text and the characters in no match, in order.  (The
    expressions this is used for never match nothing.) *)
Inductive item := Other (c : N) | Found (m : str) (g : list (nat * str)).
Fixpoint scan (r : re) (fuel : nat) (before s : str) : list item :=
  match fuel, s with
  | S f, c :: t =>
      match match_at r before s with
      | Some m => Found (eaten (Spot before s []) m) (groups m) :: scan r f (seen m) (ahead m)
      | None => Other c :: scan r f (c :: before) t
      end
  | _, _ => []
  end.
Definition items (r : re) (s : str) : list item := scan r (length s) [] s.
(** [pattern.sub] *)
Definition sub_re (r : re) (f : list (nat * str) -> str) (s : str) : str :=
  concat (map (fun i => match i with Other c => [c] | Found _ g => f g end) (items r s)).
(** [pattern.split], for an expression that is one group as a whole. *)
Fixpoint gaps (l : list item) (gap : str) : list str :=
  match l with
  | [] => [rev gap]
  | Other c :: r => gaps r (c :: gap)
  | Found m _ :: r => rev gap :: m :: gaps r []
  end.
Definition split_re (r : re) (s : str) : list str := gaps (items r s) [].

(** ** Notation for expressions *)
Definition chr (c : N) : re := Cls (N.eqb c).
Definition one_of (s : str) (c : N) : bool := existsb (N.eqb c) s.
Definition none_of (s : str) (c : N) : bool := negb (one_of s c).
Definition span (a b c : N) : bool := (a <=? c) && (c <=? b).
Definition either (p q : N -> bool) (c : N) : bool := p c || q c.
Definition neither (p q : N -> bool) (c : N) : bool := negb (p c || q c).
Fixpoint seqs (l : list re) : re := match l with [] => Emp | [a] => a | a :: r => Seq a (seqs r) end.
Fixpoint alts (l : list re) : re := match l with [] => NotAhead Emp | [a] => a | a :: r => Alt a (alts r) end.
Definition word (s : str) : re := seqs (map chr s).
Definition some_of (a : re) : re := Seq a (Many a).         (* a+  *)
Definition few_of (a : re) : re := Seq a (Few a).           (* a+? *)
Definition opt (a : re) : re := Alt a Emp.                  (* a?  *)
Fixpoint up_to (n : nat) (a : re) : re := match n with O => Emp | S m => Alt (Seq a (up_to m a)) Emp end. (* a{0,n} *)
Definition two_more (a : re) : re := Seq a (Seq a (Many a)). (* a{2,} *)

(** ** The expressions *)
Definition az (c : N) : bool := span 97 122 c || span 65 90 c.   (* [a-zA-Z] *)
Definition d09 : N -> bool := span 48 57.                        (* [0-9] *)
Definition quotes : N -> bool := one_of [39; 34].                (* both quotes *)

Section P.
Context `{U : Uni}.
Definition blank_re : re := Many (Cls is_space).                 (* \s* *)

(** _textwrap.py:14-21: [\x1b \[ [;\d]* m] *)
Definition escape_re : re := seqs [chr 27; chr 91; Many (Cls (either (N.eqb 59) is_digit)); chr 109].
(** _parser.py:271: [[ \t]+] *)
Definition blanks_re : re := some_of (Cls (one_of [32; 9])).

(** textwrap.py:78-102 *)
Definition ws : N -> bool := one_of [9; 10; 11; 12; 13; 32].
Definition nws : N -> bool := none_of [9; 10; 11; 12; 13; 32].
Definition wp : N -> bool := either is_word (one_of [33; 34; 39; 38; 46; 44; 63]).
Definition letr (c : N) : bool := negb (is_digit c || negb (is_word c)).
Definition wordsep_re : re :=
  Grp 1 (alts [
    some_of (Cls ws);
    seqs [Behind [wp]; two_more (chr 45); Ahead (Cls is_word)];
    Seq (few_of (Cls nws)) (alts [
      seqs [chr 45;
            Alt (Behind [letr; letr; N.eqb 45]) (Behind [letr; N.eqb 45; letr; N.eqb 45]);
            Ahead (seqs [Cls letr; opt (chr 45); Cls letr])];
      Ahead (Alt (Cls ws) AtEnd);
      Seq (Behind [wp]) (Ahead (Seq (two_more (chr 45)) (Cls is_word)))])]).
Definition wordsep_simple_re : re := Grp 1 (some_of (Cls ws)).
(** textwrap.py:107-110: a small letter, one of . ! ?, perhaps a quote, the end *)
Definition sentence_end_re : re := seqs [Cls (span 97 122); Cls (one_of [46; 33; 63]); opt (Cls (one_of [34; 39])); AtEnd].

(** html/__init__.py:118-120 *)
Definition charref_re : re :=
  Seq (chr 38) (Grp 1 (alts [
    seqs [chr 35; some_of (Cls d09); opt (chr 59)];
    seqs [chr 35; Cls (one_of [120; 88]); some_of (Cls (fun c => span 48 57 c || span 97 102 c || span 65 70 c)); opt (chr 59)];
    seqs [Cls (none_of [9; 10; 12; 32; 60; 38; 35; 59]); up_to 31 (Cls (none_of [9; 10; 12; 32; 60; 38; 35; 59])); opt (chr 59)]])).

(** html/parser.py:31-56 *)
Definition commentclose : re := seqs [chr 45; chr 45; blank_re; chr 62].
Definition tag_name : re := Seq (Cls az) (Many (Cls (none_of [9; 10; 13; 12; 32; 47; 62; 0]))).
Definition misc : re := Many (Alt (Cls is_space) (Seq (chr 47) (NotAhead (chr 62)))).
Definition tagfind_tolerant : re := Seq (Grp 1 tag_name) misc.
Definition attr_name : re :=
  seqs [Behind [either quotes (either is_space (N.eqb 47))];
        Cls (neither is_space (one_of [47; 62])); Many (Cls (neither is_space (one_of [47; 61; 62])))].
Definition quoted (q : N) : re := seqs [chr q; Many (Cls (none_of [q])); chr q].
Definition attr_text : re :=
  alts [quoted 39; quoted 34; Seq (NotAhead (Cls quotes)) (Many (Cls (neither (N.eqb 62) is_space)))].
Definition attrfind_tolerant : re :=
  seqs [Grp 1 attr_name;
        opt (Grp 2 (seqs [blank_re; some_of (chr 61); blank_re; Grp 3 attr_text]));
        misc].
Definition locatestarttagend_tolerant : re :=
  seqs [chr 60; tag_name;
        opt (Seq (Many (Cls (either is_space (N.eqb 47))))
                 (Many (seqs [attr_name;
                              opt (seqs [blank_re; some_of (chr 61); blank_re; attr_text; blank_re]);
                              misc])));
        blank_re].
Definition endtagfind : re :=
  seqs [chr 60; chr 47; blank_re;
        Grp 1 (Seq (Cls az) (Many (Cls (fun c => one_of [45; 46; 58; 95] c || az c || d09 c))));
        blank_re; chr 62].
(** html/parser.py:121, for [elem] = script or style, with re.I: dotless and
    dotted i and long s are the same letters to it. *)
Definition any_case (c x : N) : bool :=
  (x =? c) || (span 97 122 c && (x + 32 =? c)) || ((c =? 105) && one_of [304; 305] x) || ((c =? 115) && (x =? 383)).
Definition raw_close_re (elem : str) : re :=
  seqs [chr 60; chr 47; blank_re; seqs (map (fun c => Cls (any_case c)) elem); blank_re; chr 62].

(** _markupbase.py:10-17 *)
Definition declname : re := seqs [Cls az; Many (Cls (fun c => one_of [45; 95; 46] c || az c || d09 c)); blank_re].
Definition markedsectionclose : re := seqs [chr 93; blank_re; chr 93; blank_re; chr 62].
Definition msmarkedsectionclose : re := seqs [chr 93; blank_re; chr 62].
End P.
Close Scope N_scope.
