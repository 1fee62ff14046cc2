(** Expressions over tensors, the arrays they denote, and the calls that compute them. *)
From Verif.Spec Require Export Law Inplace.

Section with_fops.
Context {fo : FOps}.

(** an array: element type, shape, whether it is tracked, and the elements *)
Record array := Arr { a_dt : dtype; a_ss : list Z; a_rg : bool; a_v : list Z -> val }.

Inductive expr :=
  | ELeaf (t : nat)
  | EArith (o : aop) (a b : expr) | ECmp (c : cop) (a b : expr) | ENeg (a : expr)
  | ECast (a : expr) (D : dtype) | ECopy (a : expr)
  | ESum (a : expr) | EMean (a : expr)
  | ETranspose (a : expr) (d0 d1 : Z)
  | ESlice (a : expr) (s : list ascii) (xs : list sub)   (* [s] is the text of [xs] *)
  | EReshape (a : expr) (xs : list Z) (ss : list Z)      (* [xs] asks for the shape [ss] *)
  | ECat (a b : expr) (d : nat).

(** ** the calls, operands first and from left to right *)
Definition call (o : op) : M heap nat := fun h =>
  match exec o h with
  | (Ok (RHandle (Some t)), h') => (Ok t, h') | (Ok _, h') => (Throw LogicError, h')
  | (Throw e, h') => (Throw e, h') | (UB u, h') => (UB u, h') | (Diverge, h') => (Diverge, h')
  end.
Fixpoint eval (e : expr) : M heap nat :=
  match e with
  | ELeaf t => mret t
  | EArith o a b => let! x := eval a in let! y := eval b in call (exec_arith o (Some x) (Some y))
  | ECmp c a b => let! x := eval a in let! y := eval b in call (OCmp c (Some x) (Some y))
  | ENeg a => let! x := eval a in call (ONeg (Some x))
  | ECast a D => let! x := eval a in call (OTypeTo (Some x) D)
  | ECopy a => let! x := eval a in call (OClone (Some x))
  | ESum a => let! x := eval a in call (OSum (Some x))
  | EMean a => let! x := eval a in call (OMean (Some x))
  | ETranspose a d0 d1 => let! x := eval a in call (OTranspose (Some x) d0 d1)
  | ESlice a s _ => let! x := eval a in call (OSlice (Some x) s)
  | EReshape a xs _ => let! x := eval a in call (OReshape (Some x) xs)
  | ECat a b d => let! x := eval a in let! y := eval b in call (OCat [Some x; Some y] (Z.of_nat d))
  end.

(** ** the denotation. None: the arithmetic of an element is undefined *)
Definition table (D : dtype) (ss : list Z) (rg : bool) (f : list Z -> option val) : option array :=
  if forallb (fun idx => match f idx with Some _ => true | None => false end) (indices ss)
  then Some (Arr D ss rg (fun idx => default (VI 0) (f idx))) else None.
Definition d_arith (o : aop) (A B : array) : option array :=
  let D := dt_join (a_dt A) (a_dt B) in
  table D (bshape (a_ss A) (a_ss B)) (a_rg A || a_rg B)
    (fun idx => cpp_arith o (a_dt A) (a_dt B) D (a_v A (bidx (a_ss A) idx)) (a_v B (bidx (a_ss B) idx))).
Definition d_cmp (c : cop) (A B : array) : option array :=
  Some (Arr I8 (bshape (a_ss A) (a_ss B)) false (fun idx =>
    VI (if cpp_cmp c (a_dt A) (a_dt B) (a_v A (bidx (a_ss A) idx)) (a_v B (bidx (a_ss B) idx)) then 1 else 0))).
(** 0 - x with the C++ int 0 *)
Definition d_neg (A : array) : option array :=
  let D := dt_join I32 (a_dt A) in table D (a_ss A) (a_rg A) (fun idx => cpp_arith ASub I32 (a_dt A) D (VI 0) (a_v A idx)).
Definition d_cast (D : dtype) (A : array) : option array := table D (a_ss A) (a_rg A) (fun idx => cpp_cvt (a_dt A) D (a_v A idx)).
Definition d_sum (A : array) : option array :=
  match array_sum (a_dt A) (a_ss A) (a_v A) with Some x => Some (Arr (sum_type (a_dt A)) [] (a_rg A) (fun _ => x)) | None => None end.
Definition d_mean (A : array) : option array :=
  match array_mean (a_dt A) (a_ss A) (a_v A) with Some x => Some (Arr (sum_type (a_dt A)) [] (a_rg A) (fun _ => x)) | None => None end.
Definition d_transpose (d0 d1 : Z) (A : array) : option array :=
  let f := exchange (Z.to_nat d0) (Z.to_nat d1) in Some (Arr (a_dt A) (f (a_ss A)) (a_rg A) (fun idx => a_v A (f idx))).
Definition d_slice (xs : list sub) (A : array) : option array :=
  Some (Arr (a_dt A) (out_shape (a_ss A) xs) (a_rg A) (fun idx => a_v A (src_index (a_ss A) xs idx))).
Definition d_reshape (ss : list Z) (A : array) : option array :=
  Some (Arr (a_dt A) ss (a_rg A) (fun idx => nth (Z.to_nat (row_major ss idx)) (map (a_v A) (indices (a_ss A))) (VI 0))).
Definition d_cat (d : nat) (A B : array) : option array :=
  let D := dt_join (a_dt A) (a_dt B) in let n := nth d (a_ss A) 0 in
  table D (<[d := n + nth d (a_ss B) 0]> (a_ss A)) (a_rg A || a_rg B)
    (fun idx => let i := nth d idx 0 in
       if i <? n then cpp_cvt (a_dt A) D (a_v A idx) else cpp_cvt (a_dt B) D (a_v B (<[d := i - n]> idx))).

Definition bind1 (x : option array) (f : array -> option array) : option array := match x with Some A => f A | None => None end.
Definition bind2 (x y : option array) (f : array -> array -> option array) : option array :=
  bind1 x (fun A => bind1 y (f A)).
Section den.
(** the arrays of the leaves *)
Context (env : nat -> option array).
Fixpoint den (e : expr) : option array :=
  match e with
  | ELeaf t => env t
  | EArith o a b => bind2 (den a) (den b) (d_arith o)
  | ECmp c a b => bind2 (den a) (den b) (d_cmp c)
  | ENeg a => bind1 (den a) d_neg
  | ECast a D => bind1 (den a) (d_cast D)
  | ECopy a => den a
  | ESum a => bind1 (den a) d_sum
  | EMean a => bind1 (den a) d_mean
  | ETranspose a d0 d1 => bind1 (den a) (d_transpose d0 d1)
  | ESlice a _ xs => bind1 (den a) (d_slice xs)
  | EReshape a _ ss => bind1 (den a) (d_reshape ss)
  | ECat a b d => bind2 (den a) (den b) (d_cat d)
  end.

(** ** expressions the library accepts *)
(** a tensor of this type and shape can be allocated, and is not half of the address space *)
Definition room (D : dtype) (ss : list Z) : Prop := fits D ss /\ size_prod ss < 2 ^ 62.
(** subscripts and reshape apply to anything but the result of a reshape to zero dimensions *)
Fixpoint ready (e : expr) : bool :=
  match e with ECast a _ | ETranspose a _ _ | ESlice a _ _ => ready a | EReshape _ _ [] => false | _ => true end.
Definition on1 (e : expr) (P : array -> Prop) : Prop := forall A, den e = Some A -> P A.
Definition on2 (a b : expr) (P : array -> array -> Prop) : Prop := forall A B, den a = Some A -> den b = Some B -> P A B.
Fixpoint accepted (e : expr) : Prop :=
  match e with
  | ELeaf t => env t <> None
  | EArith _ a b => accepted a /\ accepted b /\ on2 a b (fun A B =>
      compatible (a_ss A) (a_ss B) /\ no_zero_one (a_ss A) (a_ss B) /\ room (dt_join (a_dt A) (a_dt B)) (bshape (a_ss A) (a_ss B)))
  | ECmp _ a b => accepted a /\ accepted b /\ on2 a b (fun A B =>
      compatible (a_ss A) (a_ss B) /\ no_zero_one (a_ss A) (a_ss B) /\ room I8 (bshape (a_ss A) (a_ss B)))
  | ENeg a => accepted a /\ on1 a (fun A => room (dt_join I32 (a_dt A)) (a_ss A))
  | ECast a D => accepted a /\ on1 a (fun A => room D (a_ss A) /\ (a_rg A = true -> floating D = true))
  | ECopy a => accepted a /\ on1 a (fun A => room (a_dt A) (a_ss A))
  | ESum a | EMean a => accepted a /\ on1 a (fun A => size_prod (a_ss A) < two63)
  | ETranspose a d0 d1 => accepted a /\ on1 a (fun A =>
      0 <= d0 < Z.of_nat (length (a_ss A)) /\ 0 <= d1 < Z.of_nat (length (a_ss A)) /\ d0 <> d1)
  | ESlice a s xs => accepted a /\ ready a = true /\ subs_text s xs /\ on1 a (fun A =>
      Forall (fun n => 0 < n < two63) (a_ss A) /\ all_legal (a_ss A) xs /\ small_steps (a_ss A) xs)
  | EReshape a xs ss => accepted a /\ ready a = true /\ Forall in_ll xs /\ on1 a (fun A =>
      Forall (fun n => 0 < n < two63) (a_ss A) /\ room (a_dt A) (a_ss A) /\ asks_for xs (size_prod (a_ss A)) ss /\
      (wildcards xs = 1%nat -> 0 < given xs < 2 ^ 64) /\ (a_rg A = true -> a_ss A = [] -> xs = []))
  | ECat a b d => accepted a /\ accepted b /\ on2 a b (fun A B =>
      (d < length (a_ss A))%nat /\ same_but d (a_ss A) (a_ss B) /\
      let ss := <[d := nth d (a_ss A) 0 + nth d (a_ss B) 0]> (a_ss A) in
      Forall (fun n => n < two64) ss /\ room (dt_join (a_dt A) (a_dt B)) ss)
  end.
End den.

(** ** the tensor [t] holds the array [A] *)
(** unless it is empty: one stride for each dimension, of less than 2^63, into a buffer of fewer
    than 2^62 elements *)
Definition roomy (h : heap) (r : tensor) : Prop :=
  Forall (fun n => 0 < n) (shape r) ->
  length (strides (t_lay r)) = length (shape r) /\ small_strides r /\
  exists cs, backed h r cs /\ Z.of_nat (length cs) < 2 ^ 62.
Definition has_arr (h : heap) (t : nat) (A : array) : Prop :=
  exists r, tensor_at h t r (a_v A) /\ t_dt r = a_dt A /\ shape r = a_ss A /\ t_rg r = a_rg A.
Definition leaves_ok (h : heap) (env : nat -> option array) : Prop :=
  forall t A, env t = Some A -> has_arr h t A /\ forall r, h_ten h !! t = Some r -> roomy h r.
(** arrays with the same type, shape and elements *)
Definition arr_eq (A B : array) : Prop :=
  a_dt A = a_dt B /\ a_ss A = a_ss B /\ forall idx, in_range (a_ss A) idx -> a_v A idx = a_v B idx.
End with_fops.
