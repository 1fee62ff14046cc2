(** The size vectors that reshape refuses. *)
From Verif.Spec Require Export Reshape.

(** for [n] elements; the code multiplies sizes modulo 2^64. With one -1 and a product of
    zero it divides by zero instead. *)
Definition refuses (xs : list Z) (n : Z) : Prop :=
  let g := given xs mod 2 ^ 64 in
  match wildcards xs with
  | O => g <> n
  | S O => g <> 0 /\ n mod g <> 0
  | _ => True
  end.
