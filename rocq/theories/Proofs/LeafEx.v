(** Slices as gradient leaves: x = (1, 2, -3), x[:2] and x[1:]. *)
From Verif.Proofs Require Export Leaf2 ProgEx.
From Verif.Model Require Import Exact Api.
#[local] Existing Instance Exact.

Definition lf_1 := ex_make ++ [OSlice (#0) (chars ":2")].
Definition lf_2 := lf_1 ++ [OSlice (#0) (chars "1:")].
Lemma lf_1_ok : program lf_1 [1; 0]%nat none (xafter lf_1).
Proof.
  apply (call_after ex_make); [exact ex_make_ok| |vm]. apply (CSlice _ _ 0%nat (xrec (xafter ex_make) 0)); [hand|].
  assert (shape (xrec (xafter ex_make) 0) = [3]) as -> by vm. small.
Qed.
Lemma lf_2_ok : program lf_2 [2; 1; 0]%nat none (xafter lf_2).
Proof.
  apply (call_after lf_1); [exact lf_1_ok| |vm]. apply (CSlice _ _ 0%nat (xrec (xafter lf_1) 0)); [hand|].
  assert (shape (xrec (xafter lf_1) 0) = [3]) as -> by vm. small.
Qed.
Lemma lf_inside idx : in_range [2] idx -> pos (contig [2]) idx < 2.
Proof. intros Hi. apply (proj1 (dense_contig [2] 2 ltac:(small) ltac:(vm) ltac:(unfold two63; lia)) idx Hi). Qed.
