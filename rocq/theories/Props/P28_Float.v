(** Float arithmetic. [rounds t q f] (Spec/Round.v): [f] is the number of format [t] nearest to
    [q], ties to even, or the infinity of its sign if [q] is past the end of the range. *)
From Coq Require Import QArith Qcanon Qabs Floats.SpecFloat.
From Verif.Proofs Require Import RoundEx WatchEx.
From Verif.Model Require Import Ieee Exact Api.
#[local] Existing Instance Ieee.

(** C67: the four operations on finite numbers of a format round the exact result. *)
Theorem C67_arithmetic : forall t x y (a b : Qc), denotes t x a = true -> denotes t y b = true ->
  rounds t (a + b) (@f_add Ieee t x y) /\ rounds t (a - b) (@f_sub Ieee t x y) /\ rounds t (a * b) (@f_mul Ieee t x y) /\
  (~ b == 0 -> rounds t (a / b) (@f_div Ieee t x y))%Q.
Proof. exact ieee_rounds. Qed.
Print Assumptions C67_arithmetic.
(** C67: conversions round the converted value; a rounded result is exact just when the value
    is a number of the format. *)
Theorem C67_convert : forall t z u x (a : Qc), denotes u x a = true ->
  rounds t (inject_Z z) (@f_of_Z Ieee t z) /\ rounds t a (@f_cvt Ieee t x).
Proof. exact ieee_converts. Qed.
Print Assumptions C67_convert.
Theorem C67_exact : forall t q f, rounds t q f -> representable t q <-> fval f q.
Proof. exact rounds_exact. Qed.
Print Assumptions C67_exact.
(** C67: comparisons of finite numbers compare their values, conversion to integer truncates. *)
Theorem C67_compare : forall t x y (a b : Qc), denotes t x a = true -> denotes t y b = true ->
  (@f_lt Ieee x y = true <-> a < b)%Q /\ (@f_le Ieee x y = true <-> a <= b)%Q /\ (@f_eq Ieee x y = true <-> a == b)%Q /\
  @f_trunc Ieee x = Some (Z.quot (Qnum a) (Zpos (Qden a))).
Proof. exact ieee_compares. Qed.
Print Assumptions C67_compare.
(** C67: every float in a state reached by calls with proper literals is a number of the format
    of its buffer. *)
Theorem C67_valid : forall ops rs (h : @heap Ieee), (forall o, o ∈ ops -> proper o) -> run empty_heap ops = (Ok rs, h) ->
  forall s x cs f, h_sto h !! s = Some x -> sto_blob x = Some cs -> Some (VF f) ∈ cs ->
    is_int (sto_ty x) = false /\ valid_binary (precision (fty_of (sto_ty x))) (exp_limit (fty_of (sto_ty x))) f = true.
Proof. exact valid_floats. Qed.
Print Assumptions C67_valid.
(** 10 / 7 in float, 2^24 + 1 to float, and the operands of the theorems *)
Example C67_example :
  denotes FT32 (ieee_of_Z FT32 10) (qc_of_Z 10) = true /\ denotes FT32 (ieee_of_Z FT32 7) (qc_of_Z 7) = true /\
  ieee_bits FT32 (@f_div Ieee FT32 (ieee_of_Z FT32 10) (ieee_of_Z FT32 7)) = 0x3fb6db6e%Z /\
  sf_value (@f_of_Z Ieee FT32 16777217) = sf_value (@f_of_Z Ieee FT32 16777216) /\
  ieee_bits FT32 (@f_cvt Ieee FT32 (ieee_of_Z FT64 (-16777219))) = ieee_bits FT32 (ieee_of_Z FT32 (-16777220)) /\
  ~ representable FT32 (inject_Z 16777217) /\
  (forall o, o ∈ demo_ops -> proper o).
Proof.
  do 5 (split; [vm|]). split.
  - intros H. apply (rounds_exact _ _ _ (ieee_of_rounds FT32 16777217)) in H as (v & E & Hv). assert (option_map (fun a : Qc => Qeq_bool a (inject_Z 16777217)) (sf_value (@f_of_Z Ieee FT32 16777217)) = Some false) as Hf by vm.
    rewrite E in Hf. cbn [option_map] in Hf. apply (inj Some) in Hf. by apply Qeq_bool_neq in Hf.
  - apply proper_ok. vm.
Qed.

(** C67: the elements of a + b, a - b, a * b, a / b with a floating operand, if the operands'
    elements are numbers of the result's format (always so for float and double operands, and
    for integers of at most 24 or 53 bits): the exact results, rounded. *)
Theorem C67_elements : forall o h a b ra rb va vb x y,
  tensor_at h a ra va -> tensor_at h b rb vb -> floating (t_dt ra) || floating (t_dt rb) = true ->
  let ss := bshape (shape ra) (shape rb) in
  let D := dt_join (t_dt ra) (t_dt rb) in
  compatible (shape ra) (shape rb) -> no_zero_one (shape ra) (shape rb) -> fits D ss ->
  (forall idx, in_range ss idx ->
     value_of (t_dt ra) (va (bidx (shape ra) idx)) (x idx) /\ representable (fmt D) (x idx) /\
     value_of (t_dt rb) (vb (bidx (shape rb) idx)) (y idx) /\ representable (fmt D) (y idx) /\
     (o = ADiv -> ~ y idx == 0)%Q) ->
  exists t h' w, exec (exec_arith o (Some a) (Some b)) h = (Ok (RHandle (Some t)), h') /\
    new_tensor h h' t D ss (t_rg ra || t_rg rb) w /\
    forall idx, in_range ss idx -> exists f, w idx = VF f /\ rounds (fmt D) (exact_op o (x idx) (y idx)) f.
Proof. exact arith_rounds. Qed.
Print Assumptions C67_elements.
(** C67: sum() of finite floats differs from the exact sum by at most
    ((1 + 2^-53)^(n-1) - 1) times the sum of their magnitudes, unless that is so large that the
    sum may overflow; it is never NaN. *)
Theorem C67_sum : forall h t r v q,
  tensor_at h t r v -> floating (t_dt r) = true -> (0 < size_prod (shape r) < two63)%Z ->
  (forall idx, in_range (shape r) idx -> value_of (t_dt r) (v idx) (q idx)) ->
  exists t' h' f, exec (OSum (Some t)) h = (Ok (RHandle (Some t')), h') /\ new_tensor h h' t' F64 [] (t_rg r) (fun _ => VF f) /\
    sums_to (map q (indices (shape r))) f.
Proof. exact sum_rounds. Qed.
Print Assumptions C67_sum.
(** C67: mean() rounds such a sum divided by the number of elements. *)
Theorem C67_mean : forall h t r v q,
  tensor_at h t r v -> floating (t_dt r) = true -> (0 < size_prod (shape r) < 2 ^ 53)%Z ->
  (forall idx, in_range (shape r) idx -> value_of (t_dt r) (v idx) (q idx)) ->
  exists t' h' f g, exec (OMean (Some t)) h = (Ok (RHandle (Some t')), h') /\ new_tensor h h' t' F64 [] (t_rg r) (fun _ => VF g) /\
    sums_to (map q (indices (shape r))) f /\ forall s, sf_value f = Some s -> rounds FT64 (s / inject_Z (size_prod (shape r))) g.
Proof. exact mean_rounds. Qed.
Print Assumptions C67_mean.
(** the float row (10, 20) divided by the integer column (7, -8); the sum of 2^53, 1, 1 in
    double is 2^53 *)
Example C67_tensors_example :
  tensor_at demo 2 (rec 2) (arr 2) /\ tensor_at demo 4 (rec 4) (arr 4) /\ floating (t_dt (rec 2)) || floating (t_dt (rec 4)) = true /\
  compatible (shape (rec 2)) (shape (rec 4)) /\ no_zero_one (shape (rec 2)) (shape (rec 4)) /\
  fits (dt_join (t_dt (rec 2)) (t_dt (rec 4))) (bshape (shape (rec 2)) (shape (rec 4))) /\
  (forall idx, in_range (bshape (shape (rec 2)) (shape (rec 4))) idx ->
     let D := dt_join (t_dt (rec 2)) (t_dt (rec 4)) in
     let x := inject_Z (nth (Z.to_nat (nth 1 idx 0)) [10; 20] 0)%Z in let y := inject_Z (nth (Z.to_nat (nth 0 idx 0)) [7; -8] 0)%Z in
     value_of (t_dt (rec 2)) (arr 2 (bidx (shape (rec 2)) idx)) x /\ representable (fmt D) x /\
     value_of (t_dt (rec 4)) (arr 4 (bidx (shape (rec 4)) idx)) y /\ representable (fmt D) y /\ (ADiv = ADiv -> ~ y == 0)%Q) /\
  let h' := (exec (ODiv (Some 2%nat) (Some 4%nat)) demo).2 in
  fbits FT32 (elem h' (rec_of h' 9) [0%Z; 0%Z]) = 0x3fb6db6e%Z /\
  tensor_at big_heap 0 (rec_of big_heap 0) (contents big_heap (rec_of big_heap 0)) /\ floating (t_dt (rec_of big_heap 0)) = true /\
  size_prod (shape (rec_of big_heap 0)) = 3%Z /\
  (forall idx, in_range (shape (rec_of big_heap 0)) idx ->
     value_of (t_dt (rec_of big_heap 0)) (contents big_heap (rec_of big_heap 0) idx) (inject_Z (big_elem idx))) /\
  let h1 := (exec (OSum (Some 0%nat)) big_heap).2 in
  fbits FT64 (elem h1 (rec_of h1 1) []) = ieee_bits FT64 (ieee_of_Z FT64 (2 ^ 53)).
Proof.
  do 2 (split; [demo_at|]). split; [vm|]. split; [decide_it|]. split; [apply no_zero_one_pos; repeat constructor|]. split; [fits_ok|].
  split. { apply (ints_ok 2 4 (fun idx => nth (Z.to_nat (nth 1 idx 0)) [10; 20] 0)%Z (fun idx => nth (Z.to_nat (nth 0 idx 0)) [7; -8] 0)%Z); vm. }
  cbv zeta. split; [vm|]. split; [at_of|]. do 2 (split; [vm|]). split; [exact big_values|vm].
Qed.
