(** Writing a document out: one fixed way for each document. *)
From Verif Require Export SourceSpec SplitSpec.
Open Scope N_scope.

Definition escape (m : str) : str :=
  flat_map (fun c => if c =? 38 then lit "&amp;" else if c =? 60 then lit "&lt;"
                     else if c =? 62 then lit "&gt;" else if c =? 34 then lit "&quot;" else [c]) m.
Definition print_attr (kv : str * option str) : str :=
  32 :: fst kv ++ match snd kv with None => [] | Some v => [61; 34] ++ escape v ++ [34] end.
(** The text in script and style is not escaped. *)
Fixpoint print_html (raw : bool) (h : html) : str :=
  match h with
  | HText m => if raw then m else escape m
  | HTag t a kids =>
      60 :: t ++ flat_map print_attr a ++ [62]
      ++ (if void t then []
          else flat_map (print_html (seqb t (lit "script") || seqb t (lit "style"))) kids ++ [60; 47] ++ t ++ [62])
  end.
Definition print_doc (doc : list html) : str := flat_map (print_html false) doc.

(** Names in lower case. *)
Definition tag_name (t : str) : Prop := spells t t.
Definition attr_name (k : str) : Prop := k <> [] /\ Forall name_part k /\ map small k = k.
(** No text is empty or next to another text. *)
Fixpoint texts_apart (l : list html) : Prop :=
  match l with
  | HText m :: r => m <> [] /\ (match r with HText _ :: _ => False | _ => True end) /\ texts_apart r
  | HTag _ _ _ :: r => texts_apart r
  | [] => True
  end.
(** Documents that can be written out. *)
Inductive printable : html -> Prop :=
| pr_text : forall m, printable (HText m)
| pr_void : forall t a, void t = true -> tag_name t -> Forall (fun kv => attr_name (fst kv)) a -> printable (HTag t a [])
| pr_raw : forall t a s, raw_element t -> raw_text s -> Forall (fun kv => attr_name (fst kv)) a ->
    printable (HTag t a (match s with [] => [] | _ => [HText s] end))
| pr_tag : forall t a kids, void t = false -> ~ raw_element t -> tag_name t -> Forall (fun kv => attr_name (fst kv)) a ->
    Forall printable kids -> texts_apart kids -> printable (HTag t a kids).

(** Text directly in a numbered list is white space. *)
Fixpoint tidy (in_ol : bool) (h : html) : bool :=
  match h with
  | HText s => negb in_ol || all_space s
  | HTag t _ kids => forallb (tidy (seqb t (lit "ol"))) kids
  end.
Close Scope N_scope.
