(** Examples for float arithmetic. *)
From Coq Require Import QArith Qcanon Qabs Floats.SpecFloat.
From Verif.Proofs Require Export Round3 Decimal Samples Refute1.
From Verif.Model Require Import Ieee Exact Api.
#[local] Existing Instance Ieee.
Local Open Scope Z_scope.

Definition int_value (T : dtype) (v : @val Ieee) (z : Z) : bool :=
  match v with
  | VI y => negb (floating T) && (y =? z)
  | VF f => floating T && valid_binary (precision (fmt T)) (exp_limit (fmt T)) f && match sf_value f with Some a => Qeq_bool a (inject_Z z) | None => false end
  end.
Lemma int_value_ok T v z : int_value T v z = true -> value_of T v (inject_Z z).
Proof.
  destruct v as [y|f]; cbn [int_value value_of].
  - intros [H1 H2]%andb_true_iff. apply negb_true_iff in H1. apply Z.eqb_eq in H2 as ->. done.
  - intros [[H1 H2]%andb_true_iff H3]%andb_true_iff. split; [done|]. split; [done|]. destruct (sf_value f) as [a|]; [|done]. exists a. split; [done|]. by apply Qeq_bool_iff.
Qed.
Lemma small_repr t z : Z.abs z <? 2 ^ precision t = true -> representable t (inject_Z z).
Proof.
  intros H%Z.ltb_lt. exists z, 0. split; [split; [done|by destruct t]|]. unfold scale. change (Qpower 2 0) with 1%Q. ring.
Qed.
(** integer elements of two tensors of the sample heap, for a quotient *)
Definition ints_check (a b : nat) (x y : list Z -> Z) : bool :=
  let ra := rec a in let rb := rec b in let t := fmt (dt_join (t_dt ra) (t_dt rb)) in
  forallb (fun idx => int_value (t_dt ra) (arr a (bidx (shape ra) idx)) (x idx) && (Z.abs (x idx) <? 2 ^ precision t) &&
                      (int_value (t_dt rb) (arr b (bidx (shape rb) idx)) (y idx) && (Z.abs (y idx) <? 2 ^ precision t) && negb (y idx =? 0)))
    (indices (bshape (shape ra) (shape rb))).
Lemma ints_ok a b x y : ints_check a b x y = true -> forall o : aop,
  let ra := rec a in let rb := rec b in let D := dt_join (t_dt ra) (t_dt rb) in
  forall idx, in_range (bshape (shape ra) (shape rb)) idx ->
    value_of (t_dt ra) (arr a (bidx (shape ra) idx)) (inject_Z (x idx)) /\ representable (fmt D) (inject_Z (x idx)) /\
    value_of (t_dt rb) (arr b (bidx (shape rb) idx)) (inject_Z (y idx)) /\ representable (fmt D) (inject_Z (y idx)) /\
    (o = ADiv -> ~ inject_Z (y idx) == 0)%Q.
Proof.
  unfold ints_check. cbv zeta. rewrite forallb_forall. intros H o idx Hi. specialize (H idx). rewrite <- elem_of_list_In, elem_of_indices in H. specialize (H Hi).
  apply andb_true_iff in H as [[H1 H2]%andb_true_iff [[H3 H4]%andb_true_iff H5]%andb_true_iff].
  split; [by apply int_value_ok|]. split; [by apply small_repr|]. split; [by apply int_value_ok|]. split; [by apply small_repr|].
  intros _ E. apply negb_true_iff, Z.eqb_neq in H5. apply H5. unfold Qeq in E. cbn in E. lia.
Qed.
(** 2^53, 1, 1 *)
Definition big_heap : heap := Eval vm_compute in after [OFromBlob [f64 (2 ^ 53); f64 1; f64 1] [3] F64].
Definition big_elem (idx : list Z) : Z := nth (Z.to_nat (nth 0 idx 0)) [2 ^ 53; 1; 1] 0.
Lemma big_values idx : in_range (shape (rec_of big_heap 0)) idx -> value_of (t_dt (rec_of big_heap 0)) (contents big_heap (rec_of big_heap 0) idx) (inject_Z (big_elem idx)).
Proof.
  intros Hi. apply int_value_ok. assert (forallb (fun idx => int_value (t_dt (rec_of big_heap 0)) (contents big_heap (rec_of big_heap 0) idx) (big_elem idx)) (indices (shape (rec_of big_heap 0))) = true) as H by vm.
  rewrite forallb_forall in H. apply H. by rewrite <- elem_of_list_In, elem_of_indices.
Qed.
Definition fbits (t : fty) (v : option (@val Ieee)) : Z := match v with Some (VF x) => ieee_bits t x | _ => -1 end.
