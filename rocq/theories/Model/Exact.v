(** FOps instance: exact rational arithmetic (canonical fractions [Qc]); used for
    the gradient theorem, where rounding would hide the statement. Both formats are
    the same. The object representation is not meaningful here; it only
    distinguishes zero. *)
From Verif.Model Require Export Types.
From Coq Require Import QArith Qcanon.

Definition qc_of_Z (z : Z) : Qc := Q2Qc (inject_Z z).
Definition qc_str (x : Qc) : string :=
  pretty (Qnum x) +:+ "/" +:+ pretty (Zpos (Qden x)).

Global Instance Exact : FOps := {|
  F := Qc;
  f_zero := 0%Qc;
  f_of_Z _ := qc_of_Z;
  f_cvt _ x := x;
  f_add _ := Qcplus;
  f_sub _ := Qcminus;
  f_mul _ := Qcmult;
  f_div _ := Qcdiv;
  f_neg := Qcopp;
  f_lt a b := negb (Qle_bool b a);
  f_le a b := Qle_bool a b;
  f_eq a b := Qeq_bool a b;
  f_trunc x := Some (Z.quot (Qnum x) (Zpos (Qden x)));
  f_bytes t x := repeat (if Qeq_bool x 0 then 0%Z else 255%Z)
                   (match t with FT32 => 4 | FT64 => 8 end)%nat;
  f_str := qc_str
|}.
