(** FOps instance: IEEE 754 binary32/binary64 with round to nearest even, from the
    standard library's executable SpecFloat (no axioms). NaN payloads and the sign
    of NaN are not modelled. float operations are evaluated in float
    (FLT_EVAL_METHOD = 0). *)
From Verif.Model Require Export Types.
From Coq Require Import Floats.SpecFloat.

Definition fprec (t : fty) : Z := match t with FT32 => 24 | FT64 => 53 end.
Definition femax (t : fty) : Z := match t with FT32 => 128 | FT64 => 1024 end.

(** static_cast<float/double>(integer) *)
Definition ieee_of_Z (t : fty) (z : Z) : spec_float :=
  binary_normalize (fprec t) (femax t) z 0 false.
(** static_cast between float and double *)
Definition ieee_cvt (t : fty) (x : spec_float) : spec_float :=
  match x with
  | S754_finite s m e =>
      binary_normalize (fprec t) (femax t) (cond_Zopp s (Zpos m)) e s
  | _ => x
  end.
(** truncation toward zero *)
Definition ieee_trunc (x : spec_float) : option Z :=
  match x with
  | S754_zero _ => Some 0
  | S754_finite s m e =>
      let a := if 0 <=? e then Zpos m * 2 ^ e else Zpos m / 2 ^ (- e) in
      Some (cond_Zopp s a)
  | _ => None
  end.
(** the interchange format, as an integer *)
Definition ieee_bits (t : fty) (x : spec_float) : Z :=
  let p := fprec t in
  let width := match t with FT32 => 32 | FT64 => 64 end in
  let emin := 3 - femax t - p in
  let emask := 2 * femax t - 1 in
  let sgn (s : bool) := if s then 2 ^ (width - 1) else 0 in
  match x with
  | S754_zero s => sgn s
  | S754_infinity s => sgn s + emask * 2 ^ (p - 1)
  | S754_nan => emask * 2 ^ (p - 1) + 2 ^ (p - 2)
  | S754_finite s m e =>
      if Zpos m <? 2 ^ (p - 1) then sgn s + Zpos m
      else sgn s + (e - emin + 1) * 2 ^ (p - 1) + (Zpos m - 2 ^ (p - 1))
  end.
Definition ieee_bytes (t : fty) (x : spec_float) : list Z :=
  le_bytes (match t with FT32 => 4 | FT64 => 8 end)%nat (ieee_bits t x).

(** printf("%f"): exactly rounded to 6 decimals, ties to even (std::to_string) *)
Definition pad6 (s : string) : string :=
  String.substring (String.length s) 6 ("000000" +:+ s).
Definition ieee_str (x : spec_float) : string :=
  let sg (s : bool) := if s then "-" else "" in
  match x with
  | S754_zero s => sg s +:+ "0.000000"
  | S754_infinity s => sg s +:+ "inf"
  | S754_nan => "nan"
  | S754_finite s m e =>
      let n := Zpos m * 1000000 in
      let r := if 0 <=? e then n * 2 ^ e
               else let d := 2 ^ (- e) in
                    let q := n / d in let rm := n mod d in
                    if 2 * rm <? d then q
                    else if d <? 2 * rm then q + 1
                    else if Z.even q then q else q + 1 in
      sg s +:+ pretty (r / 1000000) +:+ "." +:+ pad6 (pretty (r mod 1000000))
  end.

Global Instance Ieee : FOps := {|
  F := spec_float;
  f_zero := S754_zero false;
  f_of_Z := ieee_of_Z;
  f_cvt := ieee_cvt;
  f_add t := SFadd (fprec t) (femax t);
  f_sub t := SFsub (fprec t) (femax t);
  f_mul t := SFmul (fprec t) (femax t);
  f_div t := SFdiv (fprec t) (femax t);
  f_neg := SFopp;
  f_lt := SFltb;
  f_le := SFleb;
  f_eq := SFeqb;
  f_trunc := ieee_trunc;
  f_bytes := ieee_bytes;
  f_str := ieee_str
|}.
