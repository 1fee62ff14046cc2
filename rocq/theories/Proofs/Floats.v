(** Facts about the two instances of FOps. *)
From Verif.Proofs Require Import ElemLemmas.
From Verif.Model Require Import Ieee Exact.
From Coq Require Import Floats.SpecFloat Qcanon.

Lemma SFadd_comm p e x y : SFadd p e x y = SFadd p e y x.
Proof.
  destruct x as [[]|[]| |[] mx ex], y as [[]|[]| |[] my ey]; cbn [SFadd Bool.eqb]; try done;
    rewrite (Z.min_comm ey ex); f_equal; apply Z.add_comm.
Qed.
Lemma SFmul_comm p e x y : SFmul p e x y = SFmul p e y x.
Proof.
  destruct x as [[]|[]| |[] mx ex], y as [[]|[]| |[] my ey]; simpl; try done;
    rewrite (Pos.mul_comm my mx), (Z.add_comm ey ex); done.
Qed.
Lemma ieee_commutative : f_commutative Ieee.
Proof. intros p x y. split; [apply SFadd_comm|apply SFmul_comm]. Qed.
Lemma exact_commutative : f_commutative Exact.
Proof. intros p x y. split; [apply Qcplus_comm|apply Qcmult_comm]. Qed.
