(** Whole-tensor reductions. *)
From Verif.Spec Require Export Result.

Section with_fops.
Context {fo : FOps}.

(** the elements of an array in row-major order *)
Definition row_elems (ss : list Z) (v : list Z -> val) : list val := map v (indices ss).

(** integer and floating parts of an element *)
Definition int_of (v : val) : Z := match v with VI z => z | VF _ => 0 end.
Definition zsum (l : list Z) : Z := fold_right Z.add 0 l.
(** every partial sum, left to right, is a 64-bit value *)
Definition partial_sums_fit (l : list Z) : bool :=
  forallb (fun k => in_width 64 (zsum (take k l))) (seq 0 (S (length l))).
(** left-to-right sum in double precision, from 0 *)
Definition fsum (T : dtype) (l : list val) : F :=
  fold_left (fun a x => f_add FT64 a (to_float T F64 x)) l f_zero.

(** the sum of the elements of an array of type [T] and shape [ss]; None when a partial
    integer sum is not representable. The sum of a 0-dimensional array is its element. *)
Definition array_sum (T : dtype) (ss : list Z) (v : list Z -> val) : option val :=
  if floating T then
    Some (VF (match ss with
              | [] => to_float T F64 (v [])
              | _ => fsum T (row_elems ss v)
              end))
  else
    let l := map int_of (row_elems ss v) in
    if partial_sums_fit l then Some (VI (zsum l)) else None.

(** the sum divided by the number of elements; 0 for no elements *)
Definition array_mean (T : dtype) (ss : list Z) (v : list Z -> val) : option val :=
  let n := size_prod ss in
  match array_sum T ss v with
  | Some s =>
      Some (if n =? 0 then (if floating T then VF f_zero else VI 0)
            else match s with
                 | VF x => VF (f_div FT64 x (f_of_Z FT64 n))
                 | VI z => VI (Z.quot z n)
                 end)
  | None => None
  end.
Definition sum_type (T : dtype) : dtype := if floating T then F64 else I64.

(** order of two elements of one type *)
Definition val_le (a b : val) : bool :=
  match a, b with VI x, VI y => x <=? y | VF x, VF y => f_le x y | _, _ => false end.
(** the elements are totally ordered: no NaN among them *)
Definition ordered (l : list val) : Prop :=
  (forall x y, x ∈ l -> y ∈ l -> val_le x y = true \/ val_le y x = true) /\
  (forall x y z, x ∈ l -> y ∈ l -> z ∈ l ->
     val_le x y = true -> val_le y z = true -> val_le x z = true).
End with_fops.

Section with_fops.
Context {fo : FOps}.

(** Absolute value of an element of type [T]. Integers narrower than [int] are negated as
    [int] and stored back modulo 2^width; None when the negation leaves the arithmetic
    type. *)
Definition abs_val (T : dtype) (v : val) : option val :=
  match v with
  | VI x => if 0 <=? x then Some (VI x)
            else if in_width (common_width T I32) (- x) then Some (VI (reduce (width T) (- x)))
            else None
  | VF x => Some (VF (if f_le (f_of_Z (fmt T) 0) x then x else f_neg x))
  end.
(** 1 or -1 by sign, as an element of type [T] *)
Definition sign_val (T : dtype) (v : val) : val :=
  let s := if match v with VI x => 0 <=? x | VF x => f_le (f_of_Z (fmt T) 0) x end then 1 else -1 in
  if floating T then VF (f_of_Z (fmt T) s) else VI s.
End with_fops.
