(** Element arithmetic as the C++ standard defines it for the six element types:
    integer operands are computed exactly in [int] (64-bit if one operand is i64)
    and the result is undefined outside that type's range; if one operand is
    floating both are converted to the wider floating format. The result is then
    converted to the destination type: reduction modulo 2^width for integers. *)
From Verif.Model Require Export Types.

(** position in the order i8 < i16 < i32 < i64 < f32 < f64 *)
Definition rank (t : dtype) : Z :=
  match t with I8 => 0 | I16 => 1 | I32 => 2 | I64 => 3 | F32 => 4 | F64 => 5 end.
Definition dt_join (a b : dtype) : dtype := if rank a <? rank b then b else a.
Definition floating (t : dtype) : bool := match t with F32 | F64 => true | _ => false end.
Definition width (t : dtype) : Z :=
  match t with I8 => 8 | I16 => 16 | I32 => 32 | F32 => 32 | I64 => 64 | F64 => 64 end.
Definition fmt (t : dtype) : fty := match t with F32 => FT32 | _ => FT64 end.

(** [z] is a value of a signed type of [w] bits *)
Definition in_width (w z : Z) : bool := (- 2 ^ (w - 1) <=? z) && (z <? 2 ^ (w - 1)).
(** the value of the [w]-bit signed type congruent to [z] modulo 2^w *)
Definition reduce (w z : Z) : Z :=
  let m := z mod 2 ^ w in if m <? 2 ^ (w - 1) then m else m - 2 ^ w.

Section with_fops.
Context {fo : FOps}.

(** floating value of type [T] converted to floating type [D] *)
Definition conv (T D : dtype) (x : F) : F := if bool_decide (T = D) then x else f_cvt (fmt D) x.
(** [v : T] converted to floating type [D] *)
Definition to_float (T D : dtype) (v : val) : F :=
  match v with VI z => f_of_Z (fmt D) z | VF f => conv T D f end.

Definition fop (o : aop) (p : fty) : F -> F -> F :=
  match o with AAdd => f_add p | ASub => f_sub p | AMul => f_mul p | ADiv => f_div p end.
(** exact integer result; None for a division by zero *)
Definition zop (o : aop) (x y : Z) : option Z :=
  match o with
  | AAdd => Some (x + y) | ASub => Some (x - y) | AMul => Some (x * y)
  | ADiv => if y =? 0 then None else Some (Z.quot x y)
  end.

(** common type of two operands, one of them floating *)
Definition common_float (L R : dtype) : dtype :=
  match L, R with F64, _ => F64 | _, F64 => F64 | _, _ => F32 end.
(** width of the common integer type *)
Definition common_width (L R : dtype) : Z :=
  match L, R with I64, _ => 64 | _, I64 => 64 | _, _ => 32 end.

(** value of [D(a o b)] with [a : L], [b : R]; None if C++ leaves it undefined *)
Definition cpp_arith (o : aop) (L R D : dtype) (a b : val) : option val :=
  if floating L || floating R then
    let P := common_float L R in
    Some (VF (conv P D (fop o (fmt P) (to_float L P a) (to_float R P b))))
  else
    match a, b with
    | VI x, VI y =>
        match zop o x y with
        | Some z => if in_width (common_width L R) z
                    then Some (VI (reduce (width D) z)) else None
        | None => None
        end
    | _, _ => None
    end.

(** value of a comparison *)
Definition fcmp (c : cop) (x y : F) : bool :=
  match c with
  | CLt => f_lt x y | CGt => f_lt y x | CLe => f_le x y | CGe => f_le y x
  | CEq => f_eq x y | CNe => negb (f_eq x y) end.
Definition zcmp (c : cop) (x y : Z) : bool :=
  match c with
  | CLt => x <? y | CGt => y <? x | CLe => x <=? y | CGe => y <=? x
  | CEq => x =? y | CNe => negb (x =? y) end.
Definition cpp_cmp (c : cop) (L R : dtype) (a b : val) : bool :=
  if floating L || floating R then
    let P := common_float L R in fcmp c (to_float L P a) (to_float R P b)
  else match a, b with VI x, VI y => zcmp c x y | _, _ => false end.

(** conversion of [v : T] to type [D]; None when a floating value does not fit an
    integer type *)
Definition cpp_cvt (T D : dtype) (v : val) : option val :=
  if floating D then Some (VF (to_float T D v))
  else match v with
       | VI z => Some (VI (reduce (width D) z))
       | VF f => match f_trunc f with
                 | Some z => if in_width (width D) z then Some (VI z) else None
                 | None => None
                 end
       end.

(** Commutativity of floating addition and multiplication; true of IEEE 754 (up to
    NaN payloads, which are not modelled) and of exact arithmetic. *)
Definition f_commutative : Prop :=
  forall p x y, f_add p x y = f_add p y x /\ f_mul p x y = f_mul p y x.
End with_fops.
Arguments f_commutative : clear implicits.
