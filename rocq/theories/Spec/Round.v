(** The numbers of the IEEE formats and rounding to the nearest of them. *)
From Verif.Spec Require Export Watch Elem.
From Verif.Model Require Import Ieee.
From Coq Require Import Floats.SpecFloat QArith Qcanon Qabs.

(** m * 2^e *)
Definition scale (m e : Z) : Q := inject_Z m * Qpower 2 e.
(** The finite numbers of a format with [p] bits of precision and exponents below [x]: all
    m * 2^e with a significand of at most [p] bits and an exponent in range. *)
Definition number (p x m e : Z) : Prop := (Z.abs m < 2 ^ p /\ 3 - x - p <= e <= x - p)%Z.
Definition representable (t : fty) (q : Q) : Prop := exists m e, number (precision t) (exp_limit t) m e /\ q == scale m e.
(** [f] is finite and its value is [q] *)
Definition fval (f : spec_float) (q : Q) : Prop := exists v, sf_value f = Some v /\ v == q.
(** halfway between the largest finite number and the next power of two *)
Definition too_large (p x : Z) : Q := scale (2 ^ (p + 1) - 1) (x - p - 1).
Definition even_significand (f : spec_float) : Prop :=
  match f with S754_finite _ m _ => Z.even (Zpos m) = true | _ => True end.
(** [f] is [q] rounded to nearest, ties to even: no number of the format is nearer to [q], if
    another one is as near then the last bit of [f] is zero, and [f] is infinite, with the sign
    of [q], just when [q] is at least halfway from the largest finite number to the next power of two. *)
Definition nearest (p x : Z) (q : Q) (f : spec_float) : Prop :=
  valid_binary p x f = true /\
  match f with
  | S754_nan => False
  | S754_infinity s => too_large p x <= if s then - q else q
  | _ => Qabs q < too_large p x /\
         exists v, sf_value f = Some v /\ forall m e, number p x m e ->
           Qabs (v - q) <= Qabs (scale m e - q) /\
           (Qabs (v - q) == Qabs (scale m e - q) -> v == scale m e \/ even_significand f)
  end.
Definition rounds (t : fty) : Q -> spec_float -> Prop := nearest (precision t) (exp_limit t).

(** the exact value is kept just when it is a number of the format *)
Definition kept_iff (t : fty) (q : Qc) (w : @F Watch) : Prop := (representable t q -> w.2 = Some q) /\ (~ representable t q -> w.2 = None).

(** [q] is the exact value of the element [v] of type [T]; infinities and NaN have none *)
Definition value_of (T : dtype) (v : @val Ieee) (q : Q) : Prop :=
  match v with
  | VI z => floating T = false /\ q == inject_Z z
  | VF f => floating T = true /\ valid_binary (precision (fmt T)) (exp_limit (fmt T)) f = true /\ exists a, sf_value f = Some a /\ a == q
  end.
Definition exact_op (o : aop) (a b : Q) : Q :=
  match o with AAdd => a + b | ASub => a - b | AMul => a * b | ADiv => a / b end.
Definition qtotal (l : list Q) : Q := fold_right Qplus 0 l.
(** the largest relative error of one rounding to double *)
Definition half_ulp : Q := Qpower 2 (- 53).
(** (1 + 2^-53)^n *)
Definition growth (n : nat) : Q := Qpower (1 + half_ulp) (Z.of_nat n).
(** [f] is a sum of the numbers [l] in double arithmetic: at most one rounding per number but the
    first. It is infinite only if the sum is near the end of the range of double, and never NaN. *)
Definition sums_to (l : list Q) (f : spec_float) : Prop :=
  let A := qtotal (map Qabs l) in let g := growth (pred (length l)) in
  (exists s, sf_value f = Some s /\ Qabs (s - qtotal l) <= (g - 1) * A) \/
  (exists b, f = S754_infinity b /\ too_large 53 1024 <= g * A).
