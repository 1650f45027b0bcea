(** C47: a limit below zero, as for a slice in Python: that many characters are left out
    at the end, and the ellipsis is always there. *)
From Verif Require Import BaseFacts StrFacts Renderers.
Open Scope Z_scope.

Theorem C47_negative : forall max text, max < 0 ->
  exists kept dropped, strip text = kept ++ dropped /\ truncate max text = kept ++ lit "..." /\ (len dropped = - max \/ kept = [] /\ len dropped < - max).
Proof.
  intros max text M. unfold truncate, py_slice_to, slice_to. replace (max <? 0) with true by (symmetry; now apply Z.ltb_lt). replace (len text >? max) with true by (symmetry; rewrite Z.gtb_ltb; apply Z.ltb_lt; pose proof (len_nonneg text); lia).
  set (n := Z.to_nat (len (strip text) + max)). exists (firstn n (strip text)), (skipn n (strip text)). split; [symmetry; apply firstn_skipn|]. split; [reflexivity|].
  assert (L : len (skipn n (strip text)) = len (strip text) - Z.of_nat (Nat.min n (length (strip text)))) by (unfold len; rewrite skipn_length; lia).
  destruct (Z_lt_le_dec (len (strip text) + max) 0) as [H|H].
  - right. assert (E : n = 0%nat) by (unfold n; lia). rewrite E. split; [reflexivity|]. cbn [skipn]. lia.
  - left. rewrite L. unfold n. unfold len in *. lia.
Qed.
Example C47_negative_case : truncate (-3) (lit " description ") = lit "descript...".
Proof. vm_compute. reflexivity. Qed.
Close Scope Z_scope.
Print Assumptions C47_negative.
