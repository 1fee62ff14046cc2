(** NumPy broadcasting: shapes are aligned at the last dimension, missing leading
    dimensions count as 1, two sizes go together when equal or when one of them
    is 1. *)
From Verif.Spec Require Export Index.

Definition pad (n : nat) (ss : list Z) : list Z := replicate (n - length ss) 1 ++ ss.

Definition compatible (a b : list Z) : Prop :=
  let n := Nat.max (length a) (length b) in
  Forall2 (fun x y => x = y \/ x = 1 \/ y = 1) (pad n a) (pad n b).

Definition bshape (a b : list Z) : list Z :=
  let n := Nat.max (length a) (length b) in
  zip_with (fun x y => if x =? 1 then y else x) (pad n a) (pad n b).

(** pointwise maximum of the aligned shapes *)
Definition max_shape (a b : list Z) : list Z :=
  let n := Nat.max (length a) (length b) in zip_with Z.max (pad n a) (pad n b).

(** The element of an operand of shape [ss] used at result index [idx]: leading
    indices are dropped, dimensions of size 1 are read at 0. *)
Definition bidx (ss idx : list Z) : list Z :=
  zip_with (fun n i => if n =? 1 then 0 else i) ss (drop (length idx - length ss) idx).

(** no dimension pairs a size 0 with a size 1 *)
Definition no_zero_one (a b : list Z) : Prop :=
  forall k x y, rev a !! k = Some x -> rev b !! k = Some y ->
    ~ (x = 0 /\ y = 1) /\ ~ (x = 1 /\ y = 0).

Global Instance compatible_dec a b : Decision (compatible a b).
Proof. unfold compatible. apply Forall2_dec. intros; apply _. Defined.
