(** types.hpp: element types, promotion, and the C++ meaning of conversions,
    arithmetic and comparison on single elements. *)
From Verif.Model Require Export Machine.

(** types.hpp:27  enum types { i8, i16, i32, i64, f32, f64, Count } *)
Inductive dtype := I8 | I16 | I32 | I64 | F32 | F64.
Global Instance dtype_eq_dec : EqDecision dtype.
Proof. solve_decision. Defined.

(** numeric value of the enumerator *)
Definition tynum (t : dtype) : Z :=
  match t with I8 => 0 | I16 => 1 | I32 => 2 | I64 => 3 | F32 => 4 | F64 => 5 end.
(** types.hpp:28 *)
Definition float_type_idx_start : Z := 4.
(** types.hpp:51-58 size_of *)
Definition size_of (t : dtype) : Z :=
  match t with I8 => 1 | I16 => 2 | I32 => 4 | I64 => 8 | F32 => 4 | F64 => 8 end.
(** types.hpp:112 larger_type *)
Definition larger_type (a b : dtype) : dtype := if tynum b <=? tynum a then a else b.
(** types.hpp:113-114 *)
Definition is_int (t : dtype) : bool := tynum t <? float_type_idx_start.
Definition is_float (t : dtype) : bool := float_type_idx_start <=? tynum t.

(** The C++ usual arithmetic conversions restricted to the six element types:
    the type of [L{} + R{}] (integers narrower than int promote to int). *)
Definition prom (l r : dtype) : dtype :=
  if is_float l || is_float r then
    (if bool_decide (l = F64) || bool_decide (r = F64) then F64 else F32)
  else if bool_decide (l = I64) || bool_decide (r = I64) then I64 else I32.

(** types.hpp:121-131 innc_common_t<L,R> *)
Definition innc_common (l r : dtype) : dtype :=
  if is_int l && is_int r then (if size_of r <=? size_of l then l else r)
  else prom l r.

(** The two floating formats. *)
Inductive fty := FT32 | FT64.

(** Floating-point operations the compiler provides. All theorems are stated for
    an arbitrary [FOps] unless they name an instance (Ieee.v, Exact.v).
    [f_op ft a b] is the operation performed in format [ft] on operands of that
    format; [f_cvt ft] converts a value of either format to [ft]. *)
Class FOps := {
  F : Type;
  f_zero : F;                         (* the value whose bytes are all zero *)
  f_of_Z : fty -> Z -> F;             (* integer to floating conversion *)
  f_cvt : fty -> F -> F;
  f_add : fty -> F -> F -> F;
  f_sub : fty -> F -> F -> F;
  f_mul : fty -> F -> F -> F;
  f_div : fty -> F -> F -> F;
  f_neg : F -> F;
  f_lt : F -> F -> bool;
  f_le : F -> F -> bool;
  f_eq : F -> F -> bool;
  f_trunc : F -> option Z;            (* truncation; None for NaN and infinities *)
  f_bytes : fty -> F -> list Z;       (* little-endian object representation *)
  f_str : F -> string;                (* std::to_string *)
}.

Section with_fops.
Context {fo : FOps}.

(** An element value. Which constructor is used is determined by the dtype of the
    buffer (VI for i8..i64, VF for f32/f64). *)
Inductive val := VI (z : Z) | VF (f : F).

Definition bits_of (t : dtype) : Z := 8 * size_of t.
(** conversion of an integer to the signed integer type [t] (modular) *)
Definition wrap_int (t : dtype) (z : Z) : Z :=
  let h := 2 ^ (bits_of t - 1) in (z + h) mod (2 * h) - h.
Definition fits_int (t : dtype) (z : Z) : bool :=
  let h := 2 ^ (bits_of t - 1) in (- h <=? z) && (z <? h).
Definition fty_of (t : dtype) : fty := match t with F32 => FT32 | _ => FT64 end.

(** value-initialised / all-bytes-zero element of type [t] *)
Definition zero_val (t : dtype) : val := if is_int t then VI 0 else VF f_zero.

(** C++ conversion of an element value of type [from] to type [to]; between equal
    types there is none *)
Definition cvt (from to : dtype) (v : val) : outcome val :=
  match v with
  | VI z => if is_int to then Ok (VI (wrap_int to z)) else Ok (VF (f_of_Z (fty_of to) z))
  | VF f =>
      if is_int to then
        match f_trunc f with
        | Some z => if fits_int to z then Ok (VI z) else UB FloatRange
        | None => UB FloatRange
        end
      else if bool_decide (from = to) then Ok (VF f) else Ok (VF (f_cvt (fty_of to) f))
  end.

Inductive aop := AAdd | ASub | AMul | ADiv.

(** signed integer result at arithmetic type [p] (int or int64_t) *)
Definition int_chk (p : dtype) (z : Z) : outcome val :=
  if fits_int p z then Ok (VI z) else UB SignedOverflow.

(** arithmetic on two operands already of type [p] *)
Definition arith (o : aop) (p : dtype) (a b : val) : outcome val :=
  match a, b with
  | VI x, VI y =>
      match o with
      | AAdd => int_chk p (x + y)
      | ASub => int_chk p (x - y)
      | AMul => int_chk p (x * y)
      | ADiv => if y =? 0 then UB DivByZero else int_chk p (Z.quot x y)
      end
  | VF x, VF y =>
      Ok (VF (match o with
              | AAdd => f_add (fty_of p) x y
              | ASub => f_sub (fty_of p) x y
              | AMul => f_mul (fty_of p) x y
              | ADiv => f_div (fty_of p) x y
              end))
  | _, _ => UB BadType
  end.

(** [a o b] for [a : L], [b : R]: usual arithmetic conversions, then the operation.
    The result has type [prom L R]. *)
Definition binop (o : aop) (L R : dtype) (a b : val) : outcome val :=
  let p := prom L R in
  let? a' := cvt L p a in
  let? b' := cvt R p b in
  arith o p a' b'.

Inductive cop := CLt | CGt | CLe | CGe | CEq | CNe.

Definition compare_vals (c : cop) (a b : val) : outcome bool :=
  match a, b with
  | VI x, VI y =>
      Ok (match c with
          | CLt => x <? y | CGt => y <? x | CLe => x <=? y | CGe => y <=? x
          | CEq => x =? y | CNe => negb (x =? y) end)
  | VF x, VF y =>
      Ok (match c with
          | CLt => f_lt x y | CGt => f_lt y x | CLe => f_le x y | CGe => f_le y x
          | CEq => f_eq x y | CNe => negb (f_eq x y) end)
  | _, _ => UB BadType
  end.

(** [a c b] for [a : L], [b : R] *)
Definition cmpop (c : cop) (L R : dtype) (a b : val) : outcome bool :=
  let p := prom L R in
  let? a' := cvt L p a in
  let? b' := cvt R p b in
  compare_vals c a' b'.

(** unary minus on [a : T]; the result has type [prom T I32] *)
Definition negop (T : dtype) (a : val) : outcome val :=
  match a with
  | VI x => int_chk (prom T I32) (- x)
  | VF x => Ok (VF (f_neg x))
  end.

(** little-endian object representation of an element *)
Fixpoint le_bytes (n : nat) (z : Z) : list Z :=
  match n with O => [] | S k => z mod 256 :: le_bytes k (z / 256) end.
Definition val_bytes (t : dtype) (v : val) : list Z :=
  match v with
  | VI z => le_bytes (Z.to_nat (size_of t)) (z mod 2 ^ bits_of t)
  | VF f => f_bytes (fty_of t) f
  end.

(** std::to_string of an element (types.cpp:29-47) *)
Definition val_str (v : val) : string :=
  match v with VI z => pretty z | VF f => f_str f end.

(** [v] is a value an object of type [t] can hold *)
Definition has_ty (t : dtype) (v : val) : Prop :=
  match v with
  | VI z => is_int t = true /\ fits_int t z = true
  | VF _ => is_float t = true
  end.
End with_fops.
