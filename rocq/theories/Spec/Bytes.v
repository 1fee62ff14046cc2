(** The bytes of a buffer: two's complement integers and IEEE 754 interchange formats, least
    significant byte first. *)
From Verif.Spec Require Export Part.
From Verif.Model Require Import Ieee.
From Coq Require Import Floats.SpecFloat.

Definition fraction_bits (t : fty) : Z := match t with FT32 => 23 | FT64 => 52 end.
Definition exponent_bits (t : fty) : Z := match t with FT32 => 8 | FT64 => 11 end.
(** the number with the bit pattern [z]: sign, biased exponent, fraction *)
Definition decode (t : fty) (z : Z) : spec_float :=
  let fb := fraction_bits t in
  let eb := exponent_bits t in
  let f := z mod 2 ^ fb in
  let e := z / 2 ^ fb mod 2 ^ eb in
  let s := negb (z / 2 ^ (fb + eb) =? 0) in
  let bias := 2 ^ (eb - 1) - 1 in
  if e =? 0 then if f =? 0 then S754_zero s else S754_finite s (Z.to_pos f) (1 - bias - fb)
  else if e =? 2 ^ eb - 1 then if f =? 0 then S754_infinity s else S754_nan
  else S754_finite s (Z.to_pos (2 ^ fb + f)) (e - bias - fb).

(** [z] is the bit pattern of [v] in type [T]; a NaN has many *)
Definition pattern (T : dtype) (v : @val Ieee) (z : Z) : Prop :=
  0 <= z < 2 ^ (8 * size_of T) /\
  match v with
  | VI n => floating T = false /\ z = n mod 2 ^ (8 * size_of T)
  | VF x => floating T = true /\ x <> S754_nan /\ decode (match T with F32 => FT32 | _ => FT64 end) z = x
  end.
(** byte [p] of the buffer of [r] is [b] *)
Definition byte_is (h : @heap Ieee) (r : tensor) (p b : Z) : Prop :=
  exists cs v z, cells h (t_sto r) = Some cs /\ cs !! Z.to_nat (p / size_of (t_dt r)) = Some (Some v) /\
    pattern (t_dt r) v z /\ b = z / 256 ^ (p mod size_of (t_dt r)) mod 256.

(** reading the bytes [bs] one after the other as bool, until one is false: a byte other than 0
    and 1 is no bool *)
Fixpoint verdict (bs : list Z) : outcome ret :=
  match bs with
  | [] => Ok (RBool true)
  | b :: bs' => if b =? 1 then verdict bs' else if b =? 0 then Ok (RBool false) else UB BadBool
  end.
