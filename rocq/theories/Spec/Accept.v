(** The operand shapes that elementwise operators accept. *)
From Verif.Spec Require Export Broadcast.

(** shapes aligned at the last dimension; the larger size of each pair, and the sizes that
    only one of them has *)
Fixpoint larger_rev (a b : list Z) : list Z :=
  match a, b with
  | x :: a', y :: b' => Z.max x y :: larger_rev a' b'
  | [], _ => b
  | _, [] => a
  end.
Definition larger_shape (a b : list Z) : list Z := rev (larger_rev (rev a) (rev b)).
(** accepted by the code: an empty result, or shapes that broadcast with no 0 against a 1 *)
Definition accepts (a b : list Z) : Prop :=
  0 ∈ larger_shape a b \/ (compatible a b /\ no_zero_one a b).
