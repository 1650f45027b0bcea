(** The expectations of /repo/tests as examples on the model (generated by
    tools/mktests.py; these are tests of the model, not proofs of properties). *)
From Verif Require Import Parser Fixture.
Local Existing Instance U0.
Open Scope Z_scope.

(** The matches of a selector group on a list of nodes. *)
Definition holds (d : dom) (l : list selector) (ids : list nat) (want : list bool) : bool :=
  Nat.eqb (length ids) (length want) &&
  forallb (fun p => match tag_matches d (ONode (fst p)) l with
                    | Ok (b, _) => Bool.eqb b (snd p)
                    | Err _ => false
                    end) (combine ids want).

(** /repo/tests/test_selectors.py, test_basic_element_match. *)
Definition test_basic_element_match_doc : dom := Dom [
  Node (Some (lit "p")) PRoot []%nat false [] [] None None None [];
  Node (Some (lit "p")) PRoot []%nat false [] [] None None None []
  ] [0; 1]%nat.
Example test_basic_element_match : forallb (fun c => holds test_basic_element_match_doc (fst (fst c)) (snd (fst c)) (snd c)) [
  ([Selector (SElement (Some (lit "p"))) false], [1]%nat, [true]);
  ([Selector (SElement (Some (lit "div"))) false], [1]%nat, [false])
  ] = true.
Proof. vm_compute. reflexivity. Qed.

(** /repo/tests/test_selectors.py, test_id_match. *)
Definition test_id_match_doc : dom := Dom [
  Node (Some (lit "p")) PRoot []%nat false [] [] None None None [];
  Node None PRoot []%nat false [] [] None (Some [10%N]) None [];
  Node (Some (lit "p")) PRoot []%nat false [(lit "id", AvStr (lit "para1"))] [] (Some (lit "para1")) None None [];
  Node (Some (lit "p")) PRoot []%nat false [(lit "id", AvStr (lit "para2"))] [] (Some (lit "para2")) None None [];
  Node (Some (lit "div")) PRoot []%nat false [(lit "id", AvStr (lit "div1"))] [] (Some (lit "div1")) None None [];
  Node (Some (lit "div")) PRoot []%nat false [] [] None None None []
  ] [0; 1; 2; 3; 4; 5]%nat.
Example test_id_match : forallb (fun c => holds test_id_match_doc (fst (fst c)) (snd (fst c)) (snd c)) [
  ([Selector (SHash (SElement None) (lit "nothing")) false], [0; 1; 2; 3; 4; 5]%nat, [false; false; false; false; false; false]);
  ([Selector (SHash (SElement None) (lit "para1")) false], [0; 1; 2; 3; 4; 5]%nat, [false; false; true; false; false; false]);
  ([Selector (SHash (SElement (Some (lit "p"))) (lit "para1")) false], [0; 1; 2; 3; 4; 5]%nat, [false; false; true; false; false; false]);
  ([Selector (SHash (SElement (Some (lit "div"))) (lit "para1")) false], [0; 1; 2; 3; 4; 5]%nat, [false; false; false; false; false; false]);
  ([Selector (SHash (SElement None) (lit "div1")) false], [0; 1; 2; 3; 4; 5]%nat, [false; false; false; false; true; false]);
  ([Selector (SHash (SElement (Some (lit "div"))) (lit "div1")) false], [0; 1; 2; 3; 4; 5]%nat, [false; false; false; false; true; false]);
  ([Selector (SElement (Some (lit "div"))) false], [0; 1; 2; 3; 4; 5]%nat, [false; false; false; false; true; true])
  ] = true.
Proof. vm_compute. reflexivity. Qed.

(** /repo/tests/test_selectors.py, test_class_match. *)
Definition test_class_match_doc : dom := Dom [
  Node (Some (lit "p")) PRoot []%nat false [] [] None None None [];
  Node None PRoot []%nat false [] [] None (Some [10%N]) None [];
  Node (Some (lit "p")) PRoot []%nat false [(lit "id", AvStr (lit "para1")); (lit "class", AvList [lit "c1"])] [lit "c1"] (Some (lit "para1")) None None [];
  Node (Some (lit "p")) PRoot []%nat false [(lit "id", AvStr (lit "para2")); (lit "class", AvList [lit "c1"; lit "c2"])] [lit "c1"; lit "c2"] (Some (lit "para2")) None None [];
  Node (Some (lit "div")) PRoot []%nat false [(lit "id", AvStr (lit "div1"))] [] (Some (lit "div1")) None None [];
  Node (Some (lit "div")) PRoot []%nat false [(lit "class", AvList [lit "c2"])] [lit "c2"] None None None []
  ] [0; 1; 2; 3; 4; 5]%nat.
Example test_class_match : forallb (fun c => holds test_class_match_doc (fst (fst c)) (snd (fst c)) (snd c)) [
  ([Selector (SClass (SElement None) (lit "nothing")) false], [0; 1; 2; 3; 4; 5]%nat, [false; false; false; false; false; false]);
  ([Selector (SClass (SElement None) (lit "c1")) false], [0; 1; 2; 3; 4; 5]%nat, [false; false; true; true; false; false]);
  ([Selector (SHash (SClass (SElement None) (lit "c2")) (lit "para2")) false], [0; 1; 2; 3; 4; 5]%nat, [false; false; false; true; false; false]);
  ([Selector (SClass (SElement (Some (lit "div"))) (lit "c2")) false], [0; 1; 2; 3; 4; 5]%nat, [false; false; false; false; false; true]);
  ([Selector (SClass (SHash (SElement None) (lit "div1")) (lit "c1")) false], [0; 1; 2; 3; 4; 5]%nat, [false; false; false; false; false; false]);
  ([Selector (SClass (SElement None) (lit "div1")) false], [0; 1; 2; 3; 4; 5]%nat, [false; false; false; false; false; false]);
  ([Selector (SElement (Some (lit "div"))) false], [0; 1; 2; 3; 4; 5]%nat, [false; false; false; false; true; true])
  ] = true.
Proof. vm_compute. reflexivity. Qed.

(** /repo/tests/test_selectors.py, test_negation_match. *)
Definition test_negation_match_doc : dom := Dom [
  Node (Some (lit "p")) PRoot []%nat false [] [] None None None [];
  Node None PRoot []%nat false [] [] None (Some [10%N]) None [];
  Node (Some (lit "p")) PRoot []%nat false [(lit "id", AvStr (lit "para1")); (lit "class", AvList [lit "c1"])] [lit "c1"] (Some (lit "para1")) None None [];
  Node (Some (lit "p")) PRoot []%nat false [(lit "id", AvStr (lit "para2")); (lit "class", AvList [lit "c1"; lit "c2"])] [lit "c1"; lit "c2"] (Some (lit "para2")) None None [];
  Node (Some (lit "div")) PRoot []%nat false [(lit "id", AvStr (lit "div1"))] [] (Some (lit "div1")) None None [];
  Node (Some (lit "div")) PRoot []%nat false [(lit "class", AvList [lit "c2"])] [lit "c2"] None None None []
  ] [0; 1; 2; 3; 4; 5]%nat.
Example test_negation_match : forallb (fun c => holds test_negation_match_doc (fst (fst c)) (snd (fst c)) (snd c)) [
  ([Selector (SNegation (SElement None) (SElement (Some (lit "span")))) false], [0; 1; 2; 3; 4; 5]%nat, [true; false; true; true; true; true]);
  ([Selector (SNegation (SElement (Some (lit "p"))) (SClass (SElement None) (lit "c2"))) false], [0; 1; 2; 3; 4; 5]%nat, [true; false; true; false; false; false]);
  ([Selector (SNegation (SElement (Some (lit "p"))) (SHash (SElement None) (lit "para1"))) false], [0; 1; 2; 3; 4; 5]%nat, [true; false; false; true; false; false]);
  ([Selector (SNegation (SClass (SElement None) (lit "c1")) (SClass (SElement None) (lit "c2"))) false], [0; 1; 2; 3; 4; 5]%nat, [false; false; true; false; false; false]);
  ([Selector (SNegation (SElement None) (SElement (Some (lit "p")))) false], [0; 1; 2; 3; 4; 5]%nat, [false; false; false; false; true; true])
  ] = true.
Proof. vm_compute. reflexivity. Qed.

(** /repo/tests/test_selectors.py, test_multiple_selectors_match. *)
Definition test_multiple_selectors_match_doc : dom := Dom [
  Node (Some (lit "p")) PRoot []%nat false [] [] None None None [];
  Node None PRoot []%nat false [] [] None (Some [10%N]) None [];
  Node (Some (lit "p")) PRoot []%nat false [(lit "id", AvStr (lit "para1")); (lit "class", AvList [lit "c1"])] [lit "c1"] (Some (lit "para1")) None None [];
  Node (Some (lit "p")) PRoot []%nat false [(lit "id", AvStr (lit "para2")); (lit "class", AvList [lit "c1"; lit "c2"])] [lit "c1"; lit "c2"] (Some (lit "para2")) None None [];
  Node (Some (lit "div")) PRoot []%nat false [(lit "id", AvStr (lit "div1"))] [] (Some (lit "div1")) None None [];
  Node (Some (lit "div")) PRoot []%nat false [(lit "class", AvList [lit "c2"])] [lit "c2"] None None None []
  ] [0; 1; 2; 3; 4; 5]%nat.
Example test_multiple_selectors_match : forallb (fun c => holds test_multiple_selectors_match_doc (fst (fst c)) (snd (fst c)) (snd c)) [
  ([Selector (SElement (Some (lit "p"))) false; Selector (SHash (SElement (Some (lit "p"))) (lit "para1")) false; Selector (SHash (SElement None) (lit "para2")) false; Selector (SClass (SElement None) (lit "c1")) false; Selector (SElement (Some (lit "div"))) false], [0; 1; 2; 3; 4; 5]%nat, [true; false; true; true; true; true]);
  ([Selector (SClass (SElement (Some (lit "p"))) (lit "c2")) false; Selector (SHash (SElement (Some (lit "div"))) (lit "div1")) false], [0; 1; 2; 3; 4; 5]%nat, [false; false; false; true; true; false]);
  ([Selector (SElement (Some (lit "div"))) false; Selector (SHash (SElement (Some (lit "div"))) (lit "div1")) false], [0; 1; 2; 3; 4; 5]%nat, [false; false; false; false; true; true])
  ] = true.
Proof. vm_compute. reflexivity. Qed.

(** /repo/tests/test_selectors.py, test_child. *)
Definition test_child_doc : dom := Dom [
  Node (Some (lit "h1")) PRoot []%nat false [(lit "id", AvStr (lit "bigheader"))] [] (Some (lit "bigheader")) None None [];
  Node None PRoot []%nat false [] [] None (Some [10%N]) None [];
  Node (Some (lit "section")) PRoot [4; 5; 6; 7]%nat false [(lit "id", AvStr (lit "section1")); (lit "class", AvList [lit "docsec"])] [lit "docsec"] (Some (lit "section1")) None None [];
  Node (Some (lit "section")) PRoot [8; 9; 10; 11]%nat false [(lit "id", AvStr (lit "section2")); (lit "class", AvList [lit "docsec"])] [lit "docsec"] (Some (lit "section2")) None None [];
  Node (Some (lit "h2")) (PNode 2) []%nat false [(lit "class", AvList [lit "sectionheader"])] [lit "sectionheader"] None None None [];
  Node None PRoot []%nat false [] [] None (Some [10%N]) None [];
  Node (Some (lit "p")) (PNode 2) []%nat false [] [] None None None [];
  Node (Some (lit "p")) (PNode 2) []%nat false [] [] None None None [];
  Node (Some (lit "h2")) (PNode 3) []%nat false [(lit "class", AvList [lit "sectionheader"])] [lit "sectionheader"] None None None [];
  Node None PRoot []%nat false [] [] None (Some [10%N]) None [];
  Node (Some (lit "p")) (PNode 3) []%nat false [(lit "id", AvStr (lit "special"))] [] (Some (lit "special")) None None [];
  Node (Some (lit "div")) (PNode 3) []%nat false [] [] None None None []
  ] [0; 1; 2; 3]%nat.
Example test_child : forallb (fun c => holds test_child_doc (fst (fst c)) (snd (fst c)) (snd c)) [
  ([Selector (SCombined (SElement (Some (lit "section"))) (lit ">") (SElement (Some (lit "h1")))) false], [0; 1; 2; 3]%nat, [false; false; false; false]);
  ([Selector (SCombined (SElement (Some (lit "section"))) (lit ">") (SElement (Some (lit "p")))) false], [0; 1; 2; 3]%nat, [false; false; false; false]);
  ([Selector (SCombined (SElement (Some (lit "div"))) (lit ">") (SElement (Some (lit "p")))) false], [0; 1; 2; 3]%nat, [false; false; false; false]);
  ([Selector (SCombined (SElement (Some (lit "section"))) (lit ">") (SClass (SElement None) (lit "sectionheader"))) false], [0; 1; 2; 3]%nat, [false; false; false; false]);
  ([Selector (SCombined (SElement (Some (lit "section"))) (lit ">") (SElement (Some (lit "div")))) false], [0; 1; 2; 3]%nat, [false; false; false; false]);
  ([Selector (SCombined (SElement (Some (lit "h1"))) (lit ">") (SElement (Some (lit "section")))) false], [0; 1; 2; 3]%nat, [false; false; false; false]);
  ([Selector (SCombined (SHash (SElement None) (lit "nothing")) (lit ">") (SElement (Some (lit "h1")))) false], [0; 1; 2; 3]%nat, [false; false; false; false]);
  ([Selector (SCombined (SClass (SElement None) (lit "sectionheader")) (lit ">") (SElement (Some (lit "h1")))) false], [0; 1; 2; 3]%nat, [false; false; false; false]);
  ([Selector (SCombined (SElement (Some (lit "section"))) (lit ">") (SElement (Some (lit "h2")))) false], [4; 5; 6; 7]%nat, [true; false; false; false]);
  ([Selector (SCombined (SElement (Some (lit "section"))) (lit ">") (SElement (Some (lit "p")))) false], [4; 5; 6; 7]%nat, [false; false; true; true]);
  ([Selector (SCombined (SElement (Some (lit "div"))) (lit ">") (SElement (Some (lit "p")))) false], [4; 5; 6; 7]%nat, [false; false; false; false]);
  ([Selector (SCombined (SElement (Some (lit "section"))) (lit ">") (SClass (SElement None) (lit "sectionheader"))) false], [4; 5; 6; 7]%nat, [true; false; false; false]);
  ([Selector (SCombined (SElement (Some (lit "section"))) (lit ">") (SElement (Some (lit "div")))) false], [4; 5; 6; 7]%nat, [false; false; false; false]);
  ([Selector (SCombined (SElement (Some (lit "section"))) (lit ">") (SElement (Some (lit "h2")))) false], [8; 9; 10; 11]%nat, [true; false; false; false]);
  ([Selector (SCombined (SElement (Some (lit "section"))) (lit ">") (SElement (Some (lit "p")))) false], [8; 9; 10; 11]%nat, [false; false; true; false]);
  ([Selector (SCombined (SElement (Some (lit "div"))) (lit ">") (SElement (Some (lit "p")))) false], [8; 9; 10; 11]%nat, [false; false; false; false]);
  ([Selector (SCombined (SElement (Some (lit "section"))) (lit ">") (SClass (SElement None) (lit "sectionheader"))) false], [8; 9; 10; 11]%nat, [true; false; false; false]);
  ([Selector (SCombined (SElement (Some (lit "section"))) (lit ">") (SElement (Some (lit "div")))) false], [8; 9; 10; 11]%nat, [false; false; false; true]);
  ([Selector (SCombined (SElement (Some (lit "section"))) (lit ">") (SHash (SElement None) (lit "special"))) false], [8; 9; 10; 11]%nat, [false; false; true; false]);
  ([Selector (SCombined (SElement (Some (lit "section"))) (lit ">") (SHash (SElement (Some (lit "p"))) (lit "special"))) false], [8; 9; 10; 11]%nat, [false; false; true; false])
  ] = true.
Proof. vm_compute. reflexivity. Qed.

(** /repo/tests/test_selectors.py, test_general_sibling. *)
Definition test_general_sibling_doc : dom := Dom [
  Node (Some (lit "h1")) PRoot []%nat false [(lit "id", AvStr (lit "bigheader"))] [] (Some (lit "bigheader")) None None [];
  Node None PRoot [4; 5; 6; 7]%nat false [] [] None (Some [10%N]) None [];
  Node (Some (lit "section")) PRoot [8; 9; 10; 11]%nat false [(lit "id", AvStr (lit "section1")); (lit "class", AvList [lit "docsec"])] [lit "docsec"] (Some (lit "section1")) None None [];
  Node (Some (lit "section")) PRoot []%nat false [(lit "id", AvStr (lit "section2")); (lit "class", AvList [lit "docsec"])] [lit "docsec"] (Some (lit "section2")) None None [];
  Node (Some (lit "h2")) (PNode 1) []%nat false [(lit "class", AvList [lit "sectionheader"])] [lit "sectionheader"] None None None [];
  Node None PRoot []%nat false [] [] None (Some [10%N]) None [];
  Node (Some (lit "p")) (PNode 1) []%nat false [] [] None None None [];
  Node (Some (lit "p")) (PNode 1) []%nat false [(lit "class", AvList [lit "last"])] [lit "last"] None None None [];
  Node (Some (lit "h2")) (PNode 2) []%nat false [(lit "class", AvList [lit "sectionheader"])] [lit "sectionheader"] None None None [];
  Node None PRoot []%nat false [] [] None (Some [10%N]) None [];
  Node (Some (lit "p")) (PNode 2) []%nat false [(lit "id", AvStr (lit "special"))] [] (Some (lit "special")) None None [];
  Node (Some (lit "div")) (PNode 2) []%nat false [] [] None None None []
  ] [0; 1; 2; 3]%nat.
Example test_general_sibling : forallb (fun c => holds test_general_sibling_doc (fst (fst c)) (snd (fst c)) (snd c)) [
  ([Selector (SCombined (SElement (Some (lit "section"))) (lit "~") (SElement (Some (lit "h1")))) false], [0; 1; 2; 3]%nat, [false; false; false; false]);
  ([Selector (SCombined (SElement (Some (lit "h1"))) (lit "~") (SElement (Some (lit "section")))) false], [0; 1; 2; 3]%nat, [false; false; true; true]);
  ([Selector (SCombined (SElement (Some (lit "div"))) (lit "~") (SElement (Some (lit "p")))) false], [0; 1; 2; 3]%nat, [false; false; false; false]);
  ([Selector (SCombined (SHash (SElement None) (lit "bigheader")) (lit "~") (SHash (SElement None) (lit "section1"))) false], [0; 1; 2; 3]%nat, [false; false; true; false]);
  ([Selector (SCombined (SHash (SElement None) (lit "bigheader")) (lit "~") (SHash (SElement None) (lit "section2"))) false], [0; 1; 2; 3]%nat, [false; false; false; true]);
  ([Selector (SCombined (SHash (SElement None) (lit "bigheader")) (lit "~") (SClass (SElement None) (lit "docsec"))) false], [0; 1; 2; 3]%nat, [false; false; true; true]);
  ([Selector (SCombined (SElement (Some (lit "h1"))) (lit "~") (SClass (SElement None) (lit "docsec"))) false], [0; 1; 2; 3]%nat, [false; false; true; true]);
  ([Selector (SCombined (SClass (SElement None) (lit "sectionheader")) (lit "~") (SClass (SElement None) (lit "docsec"))) false], [0; 1; 2; 3]%nat, [false; false; false; false]);
  ([Selector (SCombined (SElement (Some (lit "h2"))) (lit "~") (SElement (Some (lit "p")))) false], [4; 5; 6; 7]%nat, [false; false; true; true]);
  ([Selector (SCombined (SElement (Some (lit "section"))) (lit "~") (SElement (Some (lit "p")))) false], [4; 5; 6; 7]%nat, [false; false; false; false]);
  ([Selector (SCombined (SElement (Some (lit "p"))) (lit "~") (SElement (Some (lit "p")))) false], [4; 5; 6; 7]%nat, [false; false; false; true]);
  ([Selector (SCombined (SClass (SElement None) (lit "sectionheader")) (lit "~") (SElement (Some (lit "p")))) false], [4; 5; 6; 7]%nat, [false; false; true; true]);
  ([Selector (SCombined (SElement (Some (lit "h2"))) (lit "~") (SClass (SElement None) (lit "last"))) false], [4; 5; 6; 7]%nat, [false; false; false; true]);
  ([Selector (SCombined (SClass (SElement None) (lit "sectionheader")) (lit "~") (SClass (SElement None) (lit "last"))) false], [4; 5; 6; 7]%nat, [false; false; false; true]);
  ([Selector (SCombined (SClass (SElement None) (lit "sectionheader")) (lit "~") (SClass (SElement (Some (lit "p"))) (lit "last"))) false], [4; 5; 6; 7]%nat, [false; false; false; true]);
  ([Selector (SCombined (SElement (Some (lit "section"))) (lit "~") (SElement (Some (lit "h2")))) false], [8; 9; 10; 11]%nat, [false; false; false; false]);
  ([Selector (SCombined (SElement (Some (lit "div"))) (lit "~") (SElement (Some (lit "p")))) false], [8; 9; 10; 11]%nat, [false; false; false; false]);
  ([Selector (SCombined (SElement (Some (lit "p"))) (lit "~") (SElement (Some (lit "div")))) false], [8; 9; 10; 11]%nat, [false; false; false; true]);
  ([Selector (SCombined (SElement (Some (lit "h2"))) (lit "~") (SElement (Some (lit "div")))) false], [8; 9; 10; 11]%nat, [false; false; false; true]);
  ([Selector (SCombined (SClass (SElement (Some (lit "h2"))) (lit "sectionheader")) (lit "~") (SHash (SElement None) (lit "special"))) false], [8; 9; 10; 11]%nat, [false; false; true; false])
  ] = true.
Proof. vm_compute. reflexivity. Qed.

(** /repo/tests/test_selectors.py, test_adjacent_sibling. *)
Definition test_adjacent_sibling_doc : dom := Dom [
  Node (Some (lit "h1")) PRoot []%nat false [(lit "id", AvStr (lit "bigheader"))] [] (Some (lit "bigheader")) None None [];
  Node None PRoot [4; 5; 6; 7]%nat false [] [] None (Some [10%N]) None [];
  Node (Some (lit "section")) PRoot [8; 9; 10; 11]%nat false [(lit "id", AvStr (lit "section1")); (lit "class", AvList [lit "docsec"])] [lit "docsec"] (Some (lit "section1")) None None [];
  Node (Some (lit "section")) PRoot []%nat false [(lit "id", AvStr (lit "section2")); (lit "class", AvList [lit "docsec"])] [lit "docsec"] (Some (lit "section2")) None None [];
  Node (Some (lit "h2")) (PNode 1) []%nat false [(lit "class", AvList [lit "sectionheader"])] [lit "sectionheader"] None None None [];
  Node None PRoot []%nat false [] [] None (Some [10%N]) None [];
  Node (Some (lit "p")) (PNode 1) []%nat false [] [] None None None [];
  Node (Some (lit "p")) (PNode 1) []%nat false [(lit "class", AvList [lit "last"])] [lit "last"] None None None [];
  Node (Some (lit "h2")) (PNode 2) []%nat false [(lit "class", AvList [lit "sectionheader"])] [lit "sectionheader"] None None None [];
  Node None PRoot []%nat false [] [] None (Some [10%N]) None [];
  Node (Some (lit "p")) (PNode 2) []%nat false [(lit "id", AvStr (lit "special"))] [] (Some (lit "special")) None None [];
  Node (Some (lit "div")) (PNode 2) []%nat false [] [] None None None []
  ] [0; 1; 2; 3]%nat.
Example test_adjacent_sibling : forallb (fun c => holds test_adjacent_sibling_doc (fst (fst c)) (snd (fst c)) (snd c)) [
  ([Selector (SCombined (SElement (Some (lit "section"))) (lit "+") (SElement (Some (lit "h1")))) false], [0; 1; 2; 3]%nat, [false; false; false; false]);
  ([Selector (SCombined (SElement (Some (lit "h1"))) (lit "+") (SElement (Some (lit "section")))) false], [0; 1; 2; 3]%nat, [false; false; true; false]);
  ([Selector (SCombined (SHash (SElement None) (lit "section1")) (lit "+") (SHash (SElement None) (lit "section2"))) false], [0; 1; 2; 3]%nat, [false; false; false; true]);
  ([Selector (SCombined (SHash (SElement None) (lit "bigheader")) (lit "+") (SElement (Some (lit "section")))) false], [0; 1; 2; 3]%nat, [false; false; true; false]);
  ([Selector (SCombined (SHash (SElement None) (lit "section1")) (lit "+") (SElement (Some (lit "section")))) false], [0; 1; 2; 3]%nat, [false; false; false; true]);
  ([Selector (SCombined (SElement (Some (lit "h1"))) (lit "+") (SClass (SElement None) (lit "docsec"))) false], [0; 1; 2; 3]%nat, [false; false; true; false]);
  ([Selector (SCombined (SElement (Some (lit "h2"))) (lit "+") (SElement (Some (lit "p")))) false], [4; 5; 6; 7]%nat, [false; false; true; false]);
  ([Selector (SCombined (SElement (Some (lit "p"))) (lit "+") (SElement (Some (lit "p")))) false], [4; 5; 6; 7]%nat, [false; false; false; true]);
  ([Selector (SCombined (SClass (SElement None) (lit "sectionheader")) (lit "+") (SHash (SElement None) (lit "special"))) false], [4; 5; 6; 7]%nat, [false; false; false; false]);
  ([Selector (SCombined (SElement (Some (lit "h2"))) (lit "+") (SClass (SElement None) (lit "last"))) false], [4; 5; 6; 7]%nat, [false; false; false; false]);
  ([Selector (SCombined (SElement (Some (lit "h2"))) (lit "+") (SElement (Some (lit "div")))) false], [8; 9; 10; 11]%nat, [false; false; false; false]);
  ([Selector (SCombined (SElement (Some (lit "p"))) (lit "+") (SElement (Some (lit "div")))) false], [8; 9; 10; 11]%nat, [false; false; false; true]);
  ([Selector (SCombined (SElement (Some (lit "div"))) (lit "+") (SElement (Some (lit "p")))) false], [8; 9; 10; 11]%nat, [false; false; false; false]);
  ([Selector (SCombined (SElement (Some (lit "h2"))) (lit "+") (SElement (Some (lit "div")))) false], [8; 9; 10; 11]%nat, [false; false; false; false]);
  ([Selector (SCombined (SClass (SElement None) (lit "sectionheader")) (lit "+") (SHash (SElement None) (lit "special"))) false], [8; 9; 10; 11]%nat, [false; false; true; false])
  ] = true.
Proof. vm_compute. reflexivity. Qed.

(** /repo/tests/test_selectors.py, test_descendant. *)
Definition test_descendant_doc : dom := Dom [
  Node (Some (lit "h1")) PRoot []%nat false [(lit "id", AvStr (lit "bigheader"))] [] (Some (lit "bigheader")) None None [];
  Node None PRoot []%nat false [] [] None (Some [10%N]) None [];
  Node (Some (lit "section")) PRoot [3; 4; 5; 6; 7]%nat false [(lit "id", AvStr (lit "section1")); (lit "class", AvList [lit "docsec"])] [lit "docsec"] (Some (lit "section1")) None None [];
  Node (Some (lit "h2")) (PNode 2) []%nat false [(lit "class", AvList [lit "sectionheader"])] [lit "sectionheader"] None None None [];
  Node None PRoot []%nat false [] [] None (Some [10%N]) None [];
  Node (Some (lit "p")) (PNode 2) []%nat false [] [] None None None [];
  Node None PRoot []%nat false [] [] None (Some [10%N]) None [];
  Node (Some (lit "div")) (PNode 2) [8; 9; 10; 11; 12]%nat false [(lit "class", AvList [lit "last"])] [lit "last"] None None None [];
  Node (Some (lit "h2")) (PNode 7) []%nat false [(lit "class", AvList [lit "sectionheader"])] [lit "sectionheader"] None None None [];
  Node None PRoot []%nat false [] [] None (Some [10%N]) None [];
  Node (Some (lit "p")) (PNode 7) []%nat false [(lit "id", AvStr (lit "special"))] [] (Some (lit "special")) None None [];
  Node None PRoot []%nat false [] [] None (Some [10%N]) None [];
  Node (Some (lit "div")) (PNode 7) []%nat false [] [] None None None []
  ] [0; 1; 2]%nat.
Example test_descendant : forallb (fun c => holds test_descendant_doc (fst (fst c)) (snd (fst c)) (snd c)) [
  ([Selector (SCombined (SElement (Some (lit "section"))) (lit " ") (SElement (Some (lit "h1")))) false], [0; 1; 2]%nat, [false; false; false]);
  ([Selector (SCombined (SElement (Some (lit "h1"))) (lit " ") (SElement (Some (lit "section")))) false], [0; 1; 2]%nat, [false; false; false]);
  ([Selector (SCombined (SElement (Some (lit "section"))) (lit " ") (SElement (Some (lit "p")))) false], [3; 4; 5; 6; 7]%nat, [false; false; true; false; false]);
  ([Selector (SCombined (SClass (SElement None) (lit "docsec")) (lit " ") (SElement (Some (lit "p")))) false], [3; 4; 5; 6; 7]%nat, [false; false; true; false; false]);
  ([Selector (SCombined (SHash (SElement None) (lit "section1")) (lit " ") (SElement (Some (lit "p")))) false], [3; 4; 5; 6; 7]%nat, [false; false; true; false; false]);
  ([Selector (SCombined (SElement (Some (lit "h1"))) (lit " ") (SElement (Some (lit "p")))) false], [3; 4; 5; 6; 7]%nat, [false; false; false; false; false]);
  ([Selector (SCombined (SClass (SElement None) (lit "docsec")) (lit " ") (SClass (SElement None) (lit "last"))) false], [3; 4; 5; 6; 7]%nat, [false; false; false; false; true]);
  ([Selector (SCombined (SElement (Some (lit "section"))) (lit " ") (SElement (Some (lit "p")))) false], [8; 9; 10; 11; 12]%nat, [false; false; true; false; false]);
  ([Selector (SCombined (SClass (SElement None) (lit "docsec")) (lit " ") (SElement (Some (lit "p")))) false], [8; 9; 10; 11; 12]%nat, [false; false; true; false; false]);
  ([Selector (SCombined (SHash (SElement None) (lit "section1")) (lit " ") (SElement (Some (lit "p")))) false], [8; 9; 10; 11; 12]%nat, [false; false; true; false; false]);
  ([Selector (SCombined (SHash (SElement None) (lit "section1")) (lit " ") (SElement (Some (lit "h2")))) false], [8; 9; 10; 11; 12]%nat, [true; false; false; false; false]);
  ([Selector (SCombined (SHash (SElement None) (lit "section1")) (lit " ") (SHash (SElement (Some (lit "p"))) (lit "special"))) false], [8; 9; 10; 11; 12]%nat, [false; false; true; false; false]);
  ([Selector (SCombined (SElement (Some (lit "h1"))) (lit " ") (SElement (Some (lit "p")))) false], [8; 9; 10; 11; 12]%nat, [false; false; false; false; false]);
  ([Selector (SCombined (SClass (SElement None) (lit "docsec")) (lit " ") (SClass (SElement None) (lit "last"))) false], [8; 9; 10; 11; 12]%nat, [false; false; false; false; false])
  ] = true.
Proof. vm_compute. reflexivity. Qed.

(** /repo/tests/test_selectors.py, test_first_child. *)
Definition test_first_child_doc : dom := Dom [
  Node None PRoot []%nat false [] [] None (Some [10%N]) None [];
  Node (Some (lit "h1")) PRoot []%nat false [(lit "id", AvStr (lit "bigheader"))] [] (Some (lit "bigheader")) None None [];
  Node None PRoot []%nat false [] [] None (Some [10%N]) None [];
  Node (Some (lit "section")) PRoot [4; 5; 6; 7]%nat false [(lit "id", AvStr (lit "section1")); (lit "class", AvList [lit "docsec"])] [lit "docsec"] (Some (lit "section1")) None None [];
  Node None PRoot []%nat false [] [] None (Some [10%N]) None [];
  Node (Some (lit "h2")) (PNode 3) []%nat false [(lit "class", AvList [lit "sectionheader"])] [lit "sectionheader"] None None None [];
  Node (Some (lit "p")) (PNode 3) []%nat false [] [] None None None [];
  Node (Some (lit "div")) (PNode 3) [8; 9; 10; 11]%nat false [(lit "class", AvList [lit "last"])] [lit "last"] None None None [];
  Node None PRoot []%nat false [] [] None (Some [10%N]) None [];
  Node (Some (lit "h2")) (PNode 7) []%nat false [(lit "class", AvList [lit "sectionheader"])] [lit "sectionheader"] None None None [];
  Node (Some (lit "p")) (PNode 7) []%nat false [(lit "id", AvStr (lit "special"))] [] (Some (lit "special")) None None [];
  Node (Some (lit "div")) (PNode 7) []%nat false [] [] None None None []
  ] [0; 1; 2; 3]%nat.
Example test_first_child : forallb (fun c => holds test_first_child_doc (fst (fst c)) (snd (fst c)) (snd c)) [
  ([Selector (SPseudo (SElement (Some (lit "h1"))) (lit "first-child")) false], [0; 1; 2; 3]%nat, [false; true; false; false]);
  ([Selector (SPseudo (SElement (Some (lit "section"))) (lit "first-child")) false], [0; 1; 2; 3]%nat, [false; false; false; false]);
  ([Selector (SPseudo (SElement None) (lit "first-child")) false], [0; 1; 2; 3]%nat, [false; true; false; false]);
  ([Selector (SPseudo (SHash (SElement None) (lit "bigheader")) (lit "first-child")) false], [0; 1; 2; 3]%nat, [false; true; false; false]);
  ([Selector (SPseudo (SClass (SElement None) (lit "docsec")) (lit "first-child")) false], [0; 1; 2; 3]%nat, [false; false; false; false]);
  ([Selector (SPseudo (SElement None) (lit "first-child")) false], [4; 5; 6; 7]%nat, [false; true; false; false]);
  ([Selector (SPseudo (SElement (Some (lit "h2"))) (lit "first-child")) false], [4; 5; 6; 7]%nat, [false; true; false; false]);
  ([Selector (SPseudo (SElement (Some (lit "p"))) (lit "first-child")) false], [4; 5; 6; 7]%nat, [false; false; false; false]);
  ([Selector (SPseudo (SClass (SElement None) (lit "last")) (lit "first-child")) false], [4; 5; 6; 7]%nat, [false; false; false; false]);
  ([Selector (SCombined (SClass (SElement None) (lit "last")) (lit ">") (SPseudo (SClass (SElement None) (lit "sectionheader")) (lit "first-child"))) false], [8; 9; 10; 11]%nat, [false; true; false; false]);
  ([Selector (SCombined (SClass (SElement None) (lit "last")) (lit ">") (SPseudo (SHash (SElement None) (lit "special")) (lit "first-child"))) false], [8; 9; 10; 11]%nat, [false; false; false; false]);
  ([Selector (SCombined (SElement (Some (lit "div"))) (lit ">") (SPseudo (SElement (Some (lit "h2"))) (lit "first-child"))) false], [8; 9; 10; 11]%nat, [false; true; false; false])
  ] = true.
Proof. vm_compute. reflexivity. Qed.

(** /repo/tests/test_selectors.py, test_last_child. *)
Definition test_last_child_doc : dom := Dom [
  Node (Some (lit "h1")) PRoot []%nat false [(lit "id", AvStr (lit "bigheader"))] [] (Some (lit "bigheader")) None None [];
  Node (Some (lit "section")) PRoot [3; 4; 5; 6]%nat false [(lit "id", AvStr (lit "section1")); (lit "class", AvList [lit "docsec"])] [lit "docsec"] (Some (lit "section1")) None None [];
  Node None PRoot []%nat false [] [] None (Some [10%N]) None [];
  Node (Some (lit "h2")) (PNode 1) []%nat false [(lit "class", AvList [lit "sectionheader"])] [lit "sectionheader"] None None None [];
  Node (Some (lit "p")) (PNode 1) []%nat false [] [] None None None [];
  Node (Some (lit "div")) (PNode 1) [7; 8; 9; 10]%nat false [(lit "class", AvList [lit "last"])] [lit "last"] None None None [];
  Node None PRoot []%nat false [] [] None (Some [10%N]) None [];
  Node (Some (lit "h2")) (PNode 5) []%nat false [(lit "class", AvList [lit "sectionheader"])] [lit "sectionheader"] None None None [];
  Node (Some (lit "p")) (PNode 5) []%nat false [(lit "id", AvStr (lit "special"))] [] (Some (lit "special")) None None [];
  Node (Some (lit "div")) (PNode 5) []%nat false [] [] None None None [];
  Node None PRoot []%nat false [] [] None (Some [10%N]) None []
  ] [0; 1; 2]%nat.
Example test_last_child : forallb (fun c => holds test_last_child_doc (fst (fst c)) (snd (fst c)) (snd c)) [
  ([Selector (SPseudo (SElement (Some (lit "h1"))) (lit "last-child")) false], [0; 1; 2]%nat, [false; false; false]);
  ([Selector (SPseudo (SElement (Some (lit "section"))) (lit "last-child")) false], [0; 1; 2]%nat, [false; true; false]);
  ([Selector (SPseudo (SElement None) (lit "last-child")) false], [0; 1; 2]%nat, [false; true; false]);
  ([Selector (SPseudo (SClass (SElement None) (lit "docsec")) (lit "last-child")) false], [0; 1; 2]%nat, [false; true; false]);
  ([Selector (SPseudo (SHash (SElement None) (lit "bigheader")) (lit "last-child")) false], [0; 1; 2]%nat, [false; false; false]);
  ([Selector (SPseudo (SElement None) (lit "last-child")) false], [3; 4; 5; 6]%nat, [false; false; true; false]);
  ([Selector (SPseudo (SElement (Some (lit "h2"))) (lit "last-child")) false], [3; 4; 5; 6]%nat, [false; false; false; false]);
  ([Selector (SPseudo (SElement (Some (lit "p"))) (lit "last-child")) false], [3; 4; 5; 6]%nat, [false; false; false; false]);
  ([Selector (SPseudo (SElement (Some (lit "div"))) (lit "last-child")) false], [3; 4; 5; 6]%nat, [false; false; true; false]);
  ([Selector (SPseudo (SClass (SElement None) (lit "last")) (lit "last-child")) false], [3; 4; 5; 6]%nat, [false; false; true; false]);
  ([Selector (SCombined (SClass (SElement None) (lit "last")) (lit ">") (SPseudo (SClass (SElement None) (lit "sectionheader")) (lit "last-child"))) false], [7; 8; 9; 10]%nat, [false; false; false; false]);
  ([Selector (SCombined (SClass (SElement None) (lit "last")) (lit ">") (SPseudo (SHash (SElement None) (lit "special")) (lit "last-child"))) false], [7; 8; 9; 10]%nat, [false; false; false; false]);
  ([Selector (SCombined (SClass (SElement None) (lit "last")) (lit ">") (SPseudo (SElement (Some (lit "div"))) (lit "last-child"))) false], [7; 8; 9; 10]%nat, [false; false; true; false])
  ] = true.
Proof. vm_compute. reflexivity. Qed.

(** /repo/tests/test_selectors.py, test_nth_child. *)
Definition test_nth_child_doc : dom := Dom [
  Node (Some (lit "h1")) PRoot []%nat false [(lit "id", AvStr (lit "bigheader"))] [] (Some (lit "bigheader")) None None [];
  Node None PRoot []%nat false [] [] None (Some [10%N]) None [];
  Node (Some (lit "section")) PRoot [3; 4; 5; 6]%nat false [(lit "id", AvStr (lit "section1")); (lit "class", AvList [lit "docsec"])] [lit "docsec"] (Some (lit "section1")) None None [];
  Node (Some (lit "h2")) (PNode 2) []%nat false [(lit "class", AvList [lit "sectionheader"])] [lit "sectionheader"] None None None [];
  Node None PRoot []%nat false [] [] None (Some [10%N]) None [];
  Node (Some (lit "p")) (PNode 2) []%nat false [] [] None None None [];
  Node (Some (lit "div")) (PNode 2) [7; 8; 9; 10]%nat false [(lit "class", AvList [lit "last"])] [lit "last"] None None None [];
  Node (Some (lit "h2")) (PNode 6) []%nat false [(lit "class", AvList [lit "sectionheader"])] [lit "sectionheader"] None None None [];
  Node None PRoot []%nat false [] [] None (Some [10%N]) None [];
  Node (Some (lit "p")) (PNode 6) []%nat false [(lit "id", AvStr (lit "special"))] [] (Some (lit "special")) None None [];
  Node (Some (lit "div")) (PNode 6) []%nat false [] [] None None None []
  ] [0; 1; 2]%nat.
Example test_nth_child : forallb (fun c => holds test_nth_child_doc (fst (fst c)) (snd (fst c)) (snd c)) [
  ([Selector (SFunction (SElement (Some (lit "h1"))) (lit "nth-child") [lit "1"]) false], [0; 1; 2]%nat, [true; false; false]);
  ([Selector (SFunction (SElement (Some (lit "section"))) (lit "nth-child") [lit "1"]) false], [0; 1; 2]%nat, [false; false; false]);
  ([Selector (SFunction (SElement (Some (lit "section"))) (lit "nth-child") [lit "2"]) false], [0; 1; 2]%nat, [false; false; true]);
  ([Selector (SFunction (SElement None) (lit "nth-child") [lit "2"]) false], [0; 1; 2]%nat, [false; false; true]);
  ([Selector (SFunction (SClass (SElement None) (lit "docsec")) (lit "nth-child") [lit "2"]) false], [0; 1; 2]%nat, [false; false; true]);
  ([Selector (SFunction (SHash (SElement None) (lit "bigheader")) (lit "nth-child") [lit "2"]) false], [0; 1; 2]%nat, [false; false; false]);
  ([Selector (SFunction (SElement None) (lit "nth-child") [lit "3"]) false], [3; 4; 5; 6]%nat, [false; false; false; true]);
  ([Selector (SFunction (SElement None) (lit "nth-child") [lit "2"]) false], [3; 4; 5; 6]%nat, [false; false; true; false]);
  ([Selector (SFunction (SElement None) (lit "nth-child") [lit "2"]) false; Selector (SFunction (SElement None) (lit "nth-child") [lit "3"]) false], [3; 4; 5; 6]%nat, [false; false; true; true]);
  ([Selector (SFunction (SElement (Some (lit "h2"))) (lit "nth-child") [lit "1"]) false], [3; 4; 5; 6]%nat, [true; false; false; false]);
  ([Selector (SFunction (SElement (Some (lit "p"))) (lit "nth-child") [lit "1"]) false], [3; 4; 5; 6]%nat, [false; false; false; false]);
  ([Selector (SFunction (SElement (Some (lit "div"))) (lit "nth-child") [lit "3"]) false], [3; 4; 5; 6]%nat, [false; false; false; true]);
  ([Selector (SFunction (SClass (SElement None) (lit "last")) (lit "nth-child") [lit "3"]) false], [3; 4; 5; 6]%nat, [false; false; false; true]);
  ([Selector (SCombined (SClass (SElement None) (lit "last")) (lit ">") (SFunction (SClass (SElement None) (lit "sectionheader")) (lit "nth-child") [lit "2"])) false], [7; 8; 9; 10]%nat, [false; false; false; false]);
  ([Selector (SCombined (SClass (SElement None) (lit "last")) (lit ">") (SFunction (SHash (SElement None) (lit "special")) (lit "nth-child") [lit "2"])) false], [7; 8; 9; 10]%nat, [false; false; true; false]);
  ([Selector (SCombined (SClass (SElement None) (lit "last")) (lit ">") (SFunction (SElement (Some (lit "div"))) (lit "nth-child") [lit "3"])) false], [7; 8; 9; 10]%nat, [false; false; false; true])
  ] = true.
Proof. vm_compute. reflexivity. Qed.

(** /repo/tests/test_selectors.py, test_nth_last_child. *)
Definition test_nth_last_child_doc : dom := Dom [
  Node (Some (lit "h1")) PRoot []%nat false [(lit "id", AvStr (lit "bigheader"))] [] (Some (lit "bigheader")) None None [];
  Node None PRoot []%nat false [] [] None (Some [10%N]) None [];
  Node (Some (lit "section")) PRoot [3; 4; 5; 6]%nat false [(lit "id", AvStr (lit "section1")); (lit "class", AvList [lit "docsec"])] [lit "docsec"] (Some (lit "section1")) None None [];
  Node (Some (lit "h2")) (PNode 2) []%nat false [(lit "class", AvList [lit "sectionheader"])] [lit "sectionheader"] None None None [];
  Node None PRoot []%nat false [] [] None (Some [10%N]) None [];
  Node (Some (lit "p")) (PNode 2) []%nat false [] [] None None None [];
  Node (Some (lit "div")) (PNode 2) [7; 8; 9; 10]%nat false [(lit "class", AvList [lit "last"])] [lit "last"] None None None [];
  Node (Some (lit "h2")) (PNode 6) []%nat false [(lit "class", AvList [lit "sectionheader"])] [lit "sectionheader"] None None None [];
  Node None PRoot []%nat false [] [] None (Some [10%N]) None [];
  Node (Some (lit "p")) (PNode 6) []%nat false [(lit "id", AvStr (lit "special"))] [] (Some (lit "special")) None None [];
  Node (Some (lit "div")) (PNode 6) []%nat false [] [] None None None []
  ] [0; 1; 2]%nat.
Example test_nth_last_child : forallb (fun c => holds test_nth_last_child_doc (fst (fst c)) (snd (fst c)) (snd c)) [
  ([Selector (SFunction (SElement (Some (lit "h1"))) (lit "nth-last-child") [lit "2"]) false], [0; 1; 2]%nat, [true; false; false]);
  ([Selector (SFunction (SElement (Some (lit "section"))) (lit "nth-last-child") [lit "2"]) false], [0; 1; 2]%nat, [false; false; false]);
  ([Selector (SFunction (SElement (Some (lit "section"))) (lit "nth-last-child") [lit "1"]) false], [0; 1; 2]%nat, [false; false; true]);
  ([Selector (SFunction (SElement None) (lit "nth-last-child") [lit "2"]) false], [0; 1; 2]%nat, [true; false; false]);
  ([Selector (SFunction (SClass (SElement None) (lit "docsec")) (lit "nth-last-child") [lit "1"]) false], [0; 1; 2]%nat, [false; false; true]);
  ([Selector (SFunction (SHash (SElement None) (lit "bigheader")) (lit "nth-last-child") [lit "2"]) false], [0; 1; 2]%nat, [true; false; false]);
  ([Selector (SFunction (SElement None) (lit "nth-last-child") [lit "3"]) false], [3; 4; 5; 6]%nat, [true; false; false; false]);
  ([Selector (SFunction (SElement None) (lit "nth-last-child") [lit "2"]) false], [3; 4; 5; 6]%nat, [false; false; true; false]);
  ([Selector (SFunction (SElement None) (lit "nth-last-child") [lit "2"]) false; Selector (SFunction (SElement None) (lit "nth-last-child") [lit "3"]) false], [3; 4; 5; 6]%nat, [true; false; true; false]);
  ([Selector (SFunction (SElement (Some (lit "h2"))) (lit "nth-last-child") [lit "1"]) false], [3; 4; 5; 6]%nat, [false; false; false; false]);
  ([Selector (SFunction (SElement (Some (lit "p"))) (lit "nth-last-child") [lit "1"]) false], [3; 4; 5; 6]%nat, [false; false; false; false]);
  ([Selector (SFunction (SElement (Some (lit "div"))) (lit "nth-last-child") [lit "1"]) false], [3; 4; 5; 6]%nat, [false; false; false; true]);
  ([Selector (SFunction (SClass (SElement None) (lit "last")) (lit "nth-last-child") [lit "3"]) false], [3; 4; 5; 6]%nat, [false; false; false; false]);
  ([Selector (SCombined (SClass (SElement None) (lit "last")) (lit ">") (SFunction (SClass (SElement None) (lit "sectionheader")) (lit "nth-last-child") [lit "3"])) false], [7; 8; 9; 10]%nat, [true; false; false; false]);
  ([Selector (SCombined (SClass (SElement None) (lit "last")) (lit ">") (SFunction (SHash (SElement None) (lit "special")) (lit "nth-last-child") [lit "2"])) false], [7; 8; 9; 10]%nat, [false; false; true; false]);
  ([Selector (SCombined (SClass (SElement None) (lit "last")) (lit ">") (SFunction (SElement (Some (lit "div"))) (lit "nth-last-child") [lit "1"])) false], [7; 8; 9; 10]%nat, [false; false; false; true])
  ] = true.
Proof. vm_compute. reflexivity. Qed.

(** Outputs and lines. *)
Definition render (opt : bool) (h : list op) : str :=
  match render_doc (Options 67 None [] [] (lit "text") (lit "footer") (lit "inline") [] 70 opt) h with
  | Ok s => s | Err _ => lit "error" end.
Definition lines (s : str) : list str := split_on 10%N s.
Definition line (k : nat) (s : str) : str := nth k (lines s) (lit "no such line").
Definition starts (p s : str) : bool := seqb (firstn (length p) s) p.
Definition ends (p s : str) : bool := seqb (skipn (length s - length p) s) p.
Definition wide (k : Z) (s : str) : bool := len s =? k.
Definition in_range (a b : nat) (f : nat -> bool) : bool := forallb f (seq a (b - a)).
Definition nlines (k : nat) (s : str) : bool := Nat.eqb (length (lines s)) k.

(** /repo/tests/test_html.py, p_short. *)
Example html_p_short :
  let o := render true [OStart (lit "p") []; OData (lit "Paragraph Text"); OEnd (lit "p")] in
  forallb (fun b => b) [ends nl o;
    nlines 3 o;
    seqb (strip (line 1 o)) (lit "Paragraph Text");
    len (line 1 o) =? len (strip (line 1 o));
    seqb (line 2 o) []] = true.
Proof. vm_compute. reflexivity. Qed.

(** /repo/tests/test_html.py, p_long. *)
Example html_p_long :
  let o := render false [OStart (lit "p") []; OData (lit "Paragraph Text Paragraph Text Paragraph Text Paragraph Text Paragraph Paragraph Text Paragraph Text Paragraph Text Paragraph Text Paragraph Paragraph Text Paragraph Text Paragraph Text Paragraph Text Paragraph Paragraph Text Paragraph Text Paragraph Text Paragraph Text Paragraph Paragraph Text Paragraph Text Paragraph Text Paragraph Text Paragraph Paragraph Text Paragraph Text Paragraph Text Paragraph Text Paragraph Text Paragraph Text Paragraph Text Paragraph Text"); OEnd (lit "p")] in
  forallb (fun b => b) [ends nl o;
    nlines 10 o;
    in_range 1 9 (fun k => wide 67 (line k o))] = true.
Proof. vm_compute. reflexivity. Qed.

(** /repo/tests/test_html.py, br. *)
Example html_br :
  let o := render true [OStart (lit "p") []; OData (lit "Paragraph"); OStart (lit "br") []; OData (lit "Text"); OEnd (lit "p")] in
  forallb (fun b => b) [ends nl o;
    nlines 4 o;
    seqb (line 1 o) (lit "Paragraph");
    seqb (line 2 o) (lit "Text")] = true.
Proof. vm_compute. reflexivity. Qed.

(** /repo/tests/test_html.py, closed_br. *)
Example html_closed_br :
  let o := render true [OStart (lit "p") []; OData (lit "Paragraph"); OStart (lit "br") []; OEnd (lit "br"); OData (lit "Text"); OEnd (lit "p")] in
  forallb (fun b => b) [ends nl o;
    nlines 4 o;
    seqb (line 1 o) (lit "Paragraph");
    seqb (line 2 o) (lit "Text")] = true.
Proof. vm_compute. reflexivity. Qed.

(** /repo/tests/test_html.py, h1. *)
Example html_h1 :
  let o := render false [OStart (lit "h1") []; OData (lit "Seventh"); OEnd (lit "h1")] in
  forallb (fun b => b) [seqb (strip o) (lit "# Seventh #");
    starts nl o;
    ends nl o;
    wide 69 o] = true.
Proof. vm_compute. reflexivity. Qed.

(** /repo/tests/test_html.py, h2. *)
Example html_h2 :
  let o := render false [OStart (lit "h2") []; OData (lit "Seventh"); OEnd (lit "h2")] in
  forallb (fun b => b) [seqb (strip o) (lit "## Seventh ##");
    starts nl o;
    ends nl o;
    wide 69 o] = true.
Proof. vm_compute. reflexivity. Qed.

(** /repo/tests/test_html.py, h3. *)
Example html_h3 :
  let o := render false [OStart (lit "h3") []; OData (lit "Seventh"); OEnd (lit "h3")] in
  forallb (fun b => b) [seqb (strip o) (lit "### Seventh ###");
    starts nl o;
    ends nl o;
    wide 69 o] = true.
Proof. vm_compute. reflexivity. Qed.

(** /repo/tests/test_html.py, h4. *)
Example html_h4 :
  let o := render false [OStart (lit "h4") []; OData (lit "Seventh"); OEnd (lit "h4")] in
  forallb (fun b => b) [seqb (strip o) (lit "#### Seventh ####");
    starts nl o;
    ends nl o;
    wide 69 o] = true.
Proof. vm_compute. reflexivity. Qed.

(** /repo/tests/test_html.py, h5. *)
Example html_h5 :
  let o := render false [OStart (lit "h5") []; OData (lit "Seventh"); OEnd (lit "h5")] in
  forallb (fun b => b) [seqb (strip o) (lit "##### Seventh #####");
    starts nl o;
    ends nl o;
    wide 69 o] = true.
Proof. vm_compute. reflexivity. Qed.

(** /repo/tests/test_html.py, h6. *)
Example html_h6 :
  let o := render false [OStart (lit "h6") []; OData (lit "Seventh"); OEnd (lit "h6")] in
  forallb (fun b => b) [seqb (strip o) (lit "###### Seventh ######");
    starts nl o;
    ends nl o;
    wide 69 o] = true.
Proof. vm_compute. reflexivity. Qed.

(** /repo/tests/test_html.py, code. *)
Example html_code :
  let o := render true [OStart (lit "code") []; OData (lit "ClassName"); OEnd (lit "code")] in
  forallb (fun b => b) [starts (lit "`") o;
    ends (lit "`") o;
    wide 11 o;
    nlines 1 o] = true.
Proof. vm_compute. reflexivity. Qed.

(** /repo/tests/test_html.py, em. *)
Example html_em :
  let o := render true [OStart (lit "em") []; OData (lit "ClassName"); OEnd (lit "em")] in
  forallb (fun b => b) [starts (lit "_") o;
    ends (lit "_") o;
    wide 11 o;
    nlines 1 o] = true.
Proof. vm_compute. reflexivity. Qed.

(** /repo/tests/test_html.py, strong. *)
Example html_strong :
  let o := render true [OStart (lit "strong") []; OData (lit "ClassName"); OEnd (lit "strong")] in
  forallb (fun b => b) [starts (lit "**") o;
    ends (lit "**") o;
    wide 13 o;
    nlines 1 o] = true.
Proof. vm_compute. reflexivity. Qed.

(** /repo/tests/test_html.py, u. *)
Example html_u :
  let o := render true [OStart (lit "u") []; OData (lit "ClassName"); OEnd (lit "u")] in
  forallb (fun b => b) [starts (lit "_") o;
    ends (lit "_") o;
    wide 11 o;
    nlines 1 o] = true.
Proof. vm_compute. reflexivity. Qed.

(** /repo/tests/test_html.py, s. *)
Example html_s :
  let o := render true [OStart (lit "s") []; OData (lit "ClassName"); OEnd (lit "s")] in
  forallb (fun b => b) [starts (lit "~~") o;
    ends (lit "~~") o;
    wide 13 o;
    nlines 1 o] = true.
Proof. vm_compute. reflexivity. Qed.

(** /repo/tests/test_html.py, ins. *)
Example html_ins :
  let o := render true [OStart (lit "ins") []; OData (lit "ClassName"); OEnd (lit "ins")] in
  forallb (fun b => b) [starts (lit "_") o;
    ends (lit "_") o;
    wide 11 o;
    nlines 1 o] = true.
Proof. vm_compute. reflexivity. Qed.

(** /repo/tests/test_html.py, del. *)
Example html_del :
  let o := render true [OStart (lit "del") []; OData (lit "ClassName"); OEnd (lit "del")] in
  forallb (fun b => b) [starts (lit "~~") o;
    ends (lit "~~") o;
    wide 13 o;
    nlines 1 o] = true.
Proof. vm_compute. reflexivity. Qed.

(** /repo/tests/test_html.py, code_span_in_p. *)
Example html_code_span_in_p :
  let o := render true [OStart (lit "p") []; OData (lit "This paragrah includes a "); OStart (lit "code") []; OData (lit "ClassName"); OEnd (lit "code"); OData (lit " in a code tag."); OEnd (lit "p")] in
  forallb (fun b => b) [seqb (strip o) (lit "This paragrah includes a `ClassName` in a code tag.")] = true.
Proof. vm_compute. reflexivity. Qed.

(** /repo/tests/test_html.py, code_block. *)
Example html_code_block :
  let o := render true [OStart (lit "pre") []; OStart (lit "code") []; OData [100%N;101%N;102%N;32%N;102%N;117%N;110%N;99%N;40%N;41%N;58%N;10%N;32%N;32%N;32%N;32%N;112%N;114%N;105%N;110%N;116%N;40%N;39%N;83%N;111%N;109%N;101%N;32%N;110%N;111%N;110%N;115%N;101%N;110%N;115%N;101%N;39%N;41%N;10%N;32%N;32%N;32%N;32%N;114%N;101%N;116%N;117%N;114%N;110%N;32%N;84%N;114%N;117%N;101%N]; OEnd (lit "code"); OEnd (lit "pre")] in
  forallb (fun b => b) [starts nl o;
    ends nl o;
    nlines 5 o;
    seqb (rstrip (line 1 o)) (lit "    def func():");
    seqb (rstrip (line 2 o)) (lit "        print('Some nonsense')")] = true.
Proof. vm_compute. reflexivity. Qed.

(** /repo/tests/test_html.py, blockquote. *)
Example html_blockquote :
  let o := render false [OStart (lit "blockquote") []; OStart (lit "p") []; OData (lit "One"); OEnd (lit "p"); OStart (lit "p") []; OData (lit "Two"); OEnd (lit "p"); OEnd (lit "blockquote")] in
  forallb (fun b => b) [starts nl o;
    ends nl o;
    nlines 5 o;
    in_range 1 4 (fun k => starts (lit "> ") (line k o) && wide 67 (line k o));
    seqb (strip (line 2 o)) (lit ">")] = true.
Proof. vm_compute. reflexivity. Qed.

(** /repo/tests/test_html.py, span. *)
Example html_span :
  let o := render true [OStart (lit "span") []; OData (lit "ClassName"); OEnd (lit "span")] in
  forallb (fun b => b) [starts (lit "C") o;
    ends (lit "e") o;
    wide 9 o;
    nlines 1 o] = true.
Proof. vm_compute. reflexivity. Qed.

(** /repo/tests/test_html.py, div. *)
Example html_div :
  let o := render false [OStart (lit "div") []; OData (lit "ClassName"); OEnd (lit "div")] in
  forallb (fun b => b) [starts (lit "C") o;
    ends (lit "e") (strip o);
    wide 67 o;
    nlines 1 o] = true.
Proof. vm_compute. reflexivity. Qed.

(** /repo/tests/test_html.py, ul. *)
Example html_ul :
  let o := render false [OStart (lit "ul") []; OStart (lit "li") []; OData (lit "One"); OEnd (lit "li"); OStart (lit "li") []; OData (lit "Two"); OEnd (lit "li"); OStart (lit "li") []; OData (lit "Three"); OEnd (lit "li"); OEnd (lit "ul")] in
  forallb (fun b => b) [starts nl o;
    ends nl o;
    nlines 5 o;
    in_range 1 4 (fun k => starts (lit "* ") (line k o) && wide 67 (line k o))] = true.
Proof. vm_compute. reflexivity. Qed.

(** /repo/tests/test_html.py, ol. *)
Example html_ol :
  let o := render false [OStart (lit "ol") []; OStart (lit "li") []; OData (lit "One"); OEnd (lit "li"); OStart (lit "li") []; OData (lit "Two"); OEnd (lit "li"); OStart (lit "li") []; OData (lit "Three"); OEnd (lit "li"); OEnd (lit "ol")] in
  forallb (fun b => b) [starts nl o;
    ends nl o;
    nlines 5 o;
    in_range 1 4 (fun k => starts (str_of_Z (Z.of_nat k) ++ lit ". ") (line k o) && wide 67 (line k o))] = true.
Proof. vm_compute. reflexivity. Qed.

(** /repo/tests/test_html.py, nested_lists. *)
Example html_nested_lists :
  let o := render false [OStart (lit "ol") []; OStart (lit "li") []; OData (lit "One"); OEnd (lit "li"); OStart (lit "li") []; OData (lit "Two"); OStart (lit "ul") []; OStart (lit "li") []; OData (lit "Two Point One"); OEnd (lit "li"); OStart (lit "li") []; OData (lit "Two Point Two"); OEnd (lit "li"); OEnd (lit "ul"); OEnd (lit "li"); OStart (lit "li") []; OData (lit "Three"); OEnd (lit "li"); OEnd (lit "ol")] in
  forallb (fun b => b) [starts nl o;
    ends nl o;
    nlines 7 o;
    in_range 1 3 (fun k => starts (str_of_Z (Z.of_nat k) ++ lit ". ") (line k o) && wide 67 (line k o));
    in_range 3 5 (fun k => starts (lit "   * ") (line k o) && wide 67 (line k o));
    starts (lit "3. ") (line 5 o);
    wide 67 (line 5 o)] = true.
Proof. vm_compute. reflexivity. Qed.

(** /repo/tests/test_html.py, whitespace. *)
Example html_whitespace :
  let o := render true [OStart (lit "p") []; OData [32%N;32%N;84%N;104%N;105%N;115%N;32%N;9%N;9%N;9%N;112%N;97%N;114%N;97%N;103%N;114%N;97%N;112%N;104%N;32%N;32%N;10%N;32%N;32%N;32%N;32%N;32%N;104%N;97%N;115%N;32%N;97%N;32%N;9%N;98%N;117%N;110%N;99%N;104%N;32%N;111%N;102%N;10%N;119%N;104%N;105%N;116%N;101%N;115%N;112%N;97%N;99%N;101%N;32%N;32%N;32%N;105%N;110%N;32%N;98%N;101%N;116%N;119%N;101%N;101%N;110%N;32%N;32%N;32%N;32%N;10%N;116%N;104%N;101%N;32%N;108%N;105%N;110%N;101%N;115%N;32%N;32%N]; OEnd (lit "p")] in
  forallb (fun b => b) [nlines 3 o;
    seqb (line 1 o) (lit "This paragraph has a bunch of whitespace in between the lines")] = true.
Proof. vm_compute. reflexivity. Qed.

(** /repo/tests/test_html.py, whitespace_around_tags. *)
Example html_whitespace_around_tags :
  let o := render true [OStart (lit "p") []; OData [65%N;32%N;102%N;105%N;114%N;115%N;116%N;32%N;108%N;105%N;110%N;101%N;44%N;10%N;97%N;110%N;32%N]; OStart (lit "em") []; OData (lit "emphasised"); OEnd (lit "em"); OData [32%N;115%N;101%N;99%N;111%N;110%N;100%N;46%N;10%N]; OStart (lit "strong") []; OData (lit "Strong start "); OEnd (lit "strong"); OData [116%N;111%N;32%N;97%N;32%N;116%N;104%N;105%N;114%N;100%N;46%N;10%N]; OEnd (lit "p")] in
  forallb (fun b => b) [nlines 3 o;
    seqb (line 1 o) (lit "A first line, an _emphasised_ second.  **Strong start **to a third.")] = true.
Proof. vm_compute. reflexivity. Qed.

(** /repo/tests/test_html.py, dl. *)
Example html_dl :
  let o := render false [OStart (lit "dl") []; OStart (lit "dt") []; OData (lit "One"); OEnd (lit "dt"); OStart (lit "dd") []; OData (lit "Definition One"); OEnd (lit "dd"); OStart (lit "dt") []; OData (lit "Two"); OEnd (lit "dt"); OStart (lit "dd") []; OData (lit "Definition Two One"); OEnd (lit "dd"); OStart (lit "dd") []; OData (lit "Definition Two Two"); OEnd (lit "dd"); OEnd (lit "dl")] in
  forallb (fun b => b) [starts nl o;
    ends nl o;
    nlines 8 o;
    starts (lit ": ") (line 2 o);
    in_range 5 7 (fun k => starts (lit ": ") (line k o) && wide 67 (line k o));
    in_range 1 7 (fun k => wide 67 (line k o))] = true.
Proof. vm_compute. reflexivity. Qed.

