(** Binary operators, comparisons, negation, all(). *)
From Coq Require Import Floats.SpecFloat.
From Verif.Proofs Require Import Refute1 Floats Reject Neg.
From Verif.Model Require Import Exact.

(** C05: the result has the NumPy broadcast shape, whichever operand comes first. *)
Theorem C05_broadcast_shape : forall {fo : FOps} o h a b ra rb va vb t h',
  f_commutative fo ->
  tensor_at h a ra va -> tensor_at h b rb vb ->
  compatible (shape ra) (shape rb) -> no_zero_one (shape ra) (shape rb) ->
  fits (dt_join (t_dt ra) (t_dt rb)) (bshape (shape ra) (shape rb)) ->
  exec (exec_arith o (Some a) (Some b)) h = (Ok (RHandle (Some t)), h') ->
  exists r, h_ten h' !! t = Some r /\ shape r = bshape (shape ra) (shape rb) /\
    shape r = bshape (shape rb) (shape ra) /\ t_dt r = dt_join (t_dt ra) (t_dt rb).
Proof. exact @arith_shape. Qed.
Print Assumptions C05_broadcast_shape.

Theorem C05_broadcast_shape_cmp : forall {fo : FOps} c h a b ra rb va vb t h',
  tensor_at h a ra va -> tensor_at h b rb vb ->
  compatible (shape ra) (shape rb) -> no_zero_one (shape ra) (shape rb) ->
  fits I8 (bshape (shape ra) (shape rb)) ->
  exec (OCmp c (Some a) (Some b)) h = (Ok (RHandle (Some t)), h') ->
  exists r, h_ten h' !! t = Some r /\ shape r = bshape (shape ra) (shape rb) /\
    shape r = bshape (shape rb) (shape ra) /\ t_dt r = I8.
Proof. exact @cmp_shape. Qed.
Print Assumptions C05_broadcast_shape_cmp.

(** Both instances of FOps meet [f_commutative]. *)
Theorem f_commutative_ieee : f_commutative Ieee.
Proof. exact ieee_commutative. Qed.
Print Assumptions f_commutative_ieee.
Theorem f_commutative_exact : f_commutative Exact.
Proof. exact exact_commutative. Qed.
Print Assumptions f_commutative_exact.

(** A strided i16 view of shape [2,2], an f32 vector of shape [2] and an i32 column. *)
Example C05_example :
  tensor_at demo 1 (rec 1) (arr 1) /\ tensor_at demo 2 (rec 2) (arr 2) /\
  tensor_at demo 4 (rec 4) (arr 4) /\
  shape (rec 1) = [2; 2] /\ shape (rec 2) = [2] /\ shape (rec 4) = [2; 1] /\
  compatible (shape (rec 1)) (shape (rec 2)) /\ compatible (shape (rec 2)) (shape (rec 4)) /\
  no_zero_one (shape (rec 2)) (shape (rec 4)) /\
  bshape (shape (rec 2)) (shape (rec 4)) = [2; 2] /\
  fits (dt_join (t_dt (rec 2)) (t_dt (rec 4))) (bshape (shape (rec 2)) (shape (rec 4))) /\
  fits I8 (bshape (shape (rec 2)) (shape (rec 4))) /\
  fst (exec (OAdd (Some 2) (Some 4)) demo)%nat = Ok (RHandle (Some 9%nat)).
Proof.
  do 3 (split; [demo_at|]). do 3 (split; [vm|]). do 2 (split; [decide_it|]).
  split; [apply no_zero_one_pos; repeat constructor|]. split; [vm|].
  split; [fits_ok|]. split; [fits_ok|]. vm.
Qed.

(** C06. Proved for shapes without zero-sized dimensions: an incompatible pair never
    gives a result; it throws std::runtime_error unless integer arithmetic on an earlier
    element is already undefined. Compatible shapes being accepted is C07-C10. The full
    statement fails when a dimension is 0 (below). *)
Theorem C06_reject_partial : forall {fo : FOps} o h a b ra rb va vb,
  tensor_at h a ra va -> tensor_at h b rb vb ->
  Forall (fun n => 0 < n) (shape ra) -> Forall (fun n => 0 < n) (shape rb) ->
  ~ compatible (shape ra) (shape rb) ->
  fits (dt_join (t_dt ra) (t_dt rb)) (max_shape (shape ra) (shape rb)) ->
  exists x h', exec (exec_arith o (Some a) (Some b)) h = (x, h') /\ extends h h' /\
    (x = Throw RuntimeError \/
     floating (t_dt ra) = false /\ floating (t_dt rb) = false /\ exists u, x = UB u /\ arith_ub u).
Proof. exact @arith_reject'. Qed.
Print Assumptions C06_reject_partial.

Theorem C06_reject_cmp_partial : forall {fo : FOps} c h a b ra rb va vb,
  tensor_at h a ra va -> tensor_at h b rb vb ->
  Forall (fun n => 0 < n) (shape ra) -> Forall (fun n => 0 < n) (shape rb) ->
  ~ compatible (shape ra) (shape rb) ->
  fits I8 (max_shape (shape ra) (shape rb)) ->
  exists h', exec (OCmp c (Some a) (Some b)) h = (Throw RuntimeError, h') /\ extends h h'.
Proof. exact @cmp_reject'. Qed.
Print Assumptions C06_reject_cmp_partial.

Example C06_example :
  tensor_at demo 0 (rec 0) (arr 0) /\ tensor_at demo 2 (rec 2) (arr 2) /\
  ~ compatible (shape (rec 0)) (shape (rec 2)) /\
  fits (dt_join (t_dt (rec 0)) (t_dt (rec 2))) (max_shape (shape (rec 0)) (shape (rec 2))) /\
  fst (exec (OAdd (Some 0) (Some 2)) demo)%nat = Throw RuntimeError.
Proof.
  do 2 (split; [demo_at|]). split; [apply (bool_decide_eq_false_1 (compatible _ _)); vm|].
  split; [fits_ok|vm].
Qed.

(** C06 is false with zero-sized dimensions: [0,2] + [0,3] is accepted although
    incompatible, and [0] + [1] is rejected although compatible. *)
Theorem C06_refuted :
  (exists (h : @heap Ieee) a b ra rb va vb t h',
     tensor_at h a ra va /\ tensor_at h b rb vb /\ ~ compatible (shape ra) (shape rb) /\
     exec (OAdd (Some a) (Some b)) h = (Ok (RHandle (Some t)), h')) /\
  (exists (h : @heap Ieee) a b ra rb va vb h',
     tensor_at h a ra va /\ tensor_at h b rb vb /\ compatible (shape ra) (shape rb) /\
     exec (OAdd (Some a) (Some b)) h = (Throw RuntimeError, h')).
Proof. exact zero_dim_refuted. Qed.
Print Assumptions C06_refuted.

(** For all shapes, with zeros or not ([larger_shape], [accepts]: Spec/Accept.v). A pair that
    is not accepted never gives a result; only such a pair throws; and a pair with a zero in
    the larger shape gives the empty tensor of that shape. *)
Theorem C06_refused : forall {fo : FOps} o h a b ra rb va vb,
  tensor_at h a ra va -> tensor_at h b rb vb ->
  fits (dt_join (t_dt ra) (t_dt rb)) (larger_shape (shape ra) (shape rb)) ->
  ~ accepts (shape ra) (shape rb) ->
  exists x h', exec (exec_arith o (Some a) (Some b)) h = (x, h') /\ extends h h' /\
    (x = Throw RuntimeError \/
     floating (t_dt ra) = false /\ floating (t_dt rb) = false /\ exists u, x = UB u /\ arith_ub u).
Proof. exact @arith_refused. Qed.
Print Assumptions C06_refused.
Theorem C06_throws : forall {fo : FOps} o h a b ra rb va vb e,
  f_commutative fo -> tensor_at h a ra va -> tensor_at h b rb vb ->
  fits (dt_join (t_dt ra) (t_dt rb)) (larger_shape (shape ra) (shape rb)) ->
  (exec (exec_arith o (Some a) (Some b)) h).1 = Throw e ->
  e = RuntimeError /\ ~ accepts (shape ra) (shape rb).
Proof. exact @arith_throws'. Qed.
Print Assumptions C06_throws.
Theorem C06_throws_cmp : forall {fo : FOps} c h a b ra rb va vb e,
  tensor_at h a ra va -> tensor_at h b rb vb -> fits I8 (larger_shape (shape ra) (shape rb)) ->
  (exec (OCmp c (Some a) (Some b)) h).1 = Throw e <->
  e = RuntimeError /\ ~ accepts (shape ra) (shape rb).
Proof. exact @cmp_throws. Qed.
Print Assumptions C06_throws_cmp.
Theorem C06_empty : forall {fo : FOps} o h a b ra rb va vb w,
  tensor_at h a ra va -> tensor_at h b rb vb ->
  let ss := larger_shape (shape ra) (shape rb) in
  0 ∈ ss -> fits (dt_join (t_dt ra) (t_dt rb)) ss ->
  exists t h', exec (exec_arith o (Some a) (Some b)) h = (Ok (RHandle (Some t)), h') /\
    new_tensor h h' t (dt_join (t_dt ra) (t_dt rb)) ss (t_rg ra || t_rg rb) w.
Proof. exact @arith_empty. Qed.
Print Assumptions C06_empty.
Theorem C06_empty_cmp : forall {fo : FOps} c h a b ra rb va vb w,
  tensor_at h a ra va -> tensor_at h b rb vb ->
  let ss := larger_shape (shape ra) (shape rb) in
  0 ∈ ss -> fits I8 ss ->
  exists t h', exec (OCmp c (Some a) (Some b)) h = (Ok (RHandle (Some t)), h') /\
    new_tensor h h' t I8 ss false w.
Proof. exact @cmp_empty. Qed.
Print Assumptions C06_empty_cmp.

(** [2;0;3] with [0;4]: accepted, although 3 and 4 do not broadcast. [2;0;3] with [1;4], [0;2] with [3;2], and
    [0] with [1]: refused, the last although it broadcasts. *)
Example C06_exact_example :
  let h := after [OZeros [2; 0; 3] I8; OZeros [1; 4] F32; OZeros [0; 2] I8; OZeros [3; 2] I32;
                  OZeros [0] I8; OZeros [1] F64] in
  let r n := rec_of h n in
  tensor_at h 0 (r 0%nat) (contents h (r 0%nat)) /\ tensor_at h 1 (r 1%nat) (contents h (r 1%nat)) /\
  tensor_at h 2 (r 2%nat) (contents h (r 2%nat)) /\ tensor_at h 3 (r 3%nat) (contents h (r 3%nat)) /\
  larger_shape (shape (r 0%nat)) (shape (r 1%nat)) = [2; 1; 4] /\
  larger_shape [2; 0; 3] [0; 4] = [2; 0; 4] /\ accepts [2; 0; 3] [0; 4] /\ ~ compatible [2; 0; 3] [0; 4] /\
  ~ accepts (shape (r 0%nat)) (shape (r 1%nat)) /\ ~ accepts (shape (r 2%nat)) (shape (r 3%nat)) /\
  ~ accepts [0] [1] /\ compatible [0] [1] /\
  fits (dt_join (t_dt (r 2%nat)) (t_dt (r 3%nat))) (larger_shape (shape (r 2%nat)) (shape (r 3%nat))) /\
  (exec (OMul (Some 0%nat) (Some 1%nat)) h).1 = Throw RuntimeError /\
  (exec (OMul (Some 2%nat) (Some 3%nat)) h).1 = Throw RuntimeError /\
  (exec (OCmp CLt (Some 4%nat) (Some 5%nat)) h).1 = Throw RuntimeError.
Proof.
  cbv zeta. split; [at_of|]. split; [at_of|]. split; [at_of|]. split; [at_of|]. split; [vm|]. split; [vm|].
  split; [decide_it|]. split; [apply (bool_decide_eq_false_1 (compatible _ _)); vm|].
  split; [apply (bool_decide_eq_false_1 (accepts _ _)); vm|].
  split; [apply (bool_decide_eq_false_1 (accepts _ _)); vm|].
  split; [apply (bool_decide_eq_false_1 (accepts _ _)); vm|]. split; [decide_it|].
  split; [fits_ok|]. split; [vm|split; vm].
Qed.

(** C07-C10: a o b for every o. [e idx] is the C++ value of the element; if all are
    defined the call returns a new tensor holding them, otherwise it is undefined. *)
Theorem C07_add : forall {fo : FOps} h a b, f_commutative fo ->
  forall ra rb va vb, tensor_at h a ra va -> tensor_at h b rb vb ->
  let ss := bshape (shape ra) (shape rb) in
  let D := dt_join (t_dt ra) (t_dt rb) in
  let e idx := cpp_arith AAdd (t_dt ra) (t_dt rb) D (va (bidx (shape ra) idx)) (vb (bidx (shape rb) idx)) in
  compatible (shape ra) (shape rb) -> no_zero_one (shape ra) (shape rb) -> fits D ss ->
  (forall w, (forall idx, in_range ss idx -> e idx = Some (w idx)) ->
     exists t h', exec (OAdd (Some a) (Some b)) h = (Ok (RHandle (Some t)), h') /\
       new_tensor h h' t D ss (t_rg ra || t_rg rb) w) /\
  ((exists idx, in_range ss idx /\ e idx = None) ->
     exists u h', exec (OAdd (Some a) (Some b)) h = (UB u, h') /\ arith_ub u).
Proof. exact @add_new. Qed.
Print Assumptions C07_add.

Theorem C08_sub : forall {fo : FOps} h a b,
  forall ra rb va vb, tensor_at h a ra va -> tensor_at h b rb vb ->
  let ss := bshape (shape ra) (shape rb) in
  let D := dt_join (t_dt ra) (t_dt rb) in
  let e idx := cpp_arith ASub (t_dt ra) (t_dt rb) D (va (bidx (shape ra) idx)) (vb (bidx (shape rb) idx)) in
  compatible (shape ra) (shape rb) -> no_zero_one (shape ra) (shape rb) -> fits D ss ->
  (forall w, (forall idx, in_range ss idx -> e idx = Some (w idx)) ->
     exists t h', exec (OSub (Some a) (Some b)) h = (Ok (RHandle (Some t)), h') /\
       new_tensor h h' t D ss (t_rg ra || t_rg rb) w) /\
  ((exists idx, in_range ss idx /\ e idx = None) ->
     exists u h', exec (OSub (Some a) (Some b)) h = (UB u, h') /\ arith_ub u).
Proof. exact @sub_new. Qed.
Print Assumptions C08_sub.

Theorem C09_mul : forall {fo : FOps} h a b, f_commutative fo ->
  forall ra rb va vb, tensor_at h a ra va -> tensor_at h b rb vb ->
  let ss := bshape (shape ra) (shape rb) in
  let D := dt_join (t_dt ra) (t_dt rb) in
  let e idx := cpp_arith AMul (t_dt ra) (t_dt rb) D (va (bidx (shape ra) idx)) (vb (bidx (shape rb) idx)) in
  compatible (shape ra) (shape rb) -> no_zero_one (shape ra) (shape rb) -> fits D ss ->
  (forall w, (forall idx, in_range ss idx -> e idx = Some (w idx)) ->
     exists t h', exec (OMul (Some a) (Some b)) h = (Ok (RHandle (Some t)), h') /\
       new_tensor h h' t D ss (t_rg ra || t_rg rb) w) /\
  ((exists idx, in_range ss idx /\ e idx = None) ->
     exists u h', exec (OMul (Some a) (Some b)) h = (UB u, h') /\ arith_ub u).
Proof. exact @mul_new. Qed.
Print Assumptions C09_mul.

Theorem C10_div : forall {fo : FOps} h a b,
  forall ra rb va vb, tensor_at h a ra va -> tensor_at h b rb vb ->
  let ss := bshape (shape ra) (shape rb) in
  let D := dt_join (t_dt ra) (t_dt rb) in
  let e idx := cpp_arith ADiv (t_dt ra) (t_dt rb) D (va (bidx (shape ra) idx)) (vb (bidx (shape rb) idx)) in
  compatible (shape ra) (shape rb) -> no_zero_one (shape ra) (shape rb) -> fits D ss ->
  (forall w, (forall idx, in_range ss idx -> e idx = Some (w idx)) ->
     exists t h', exec (ODiv (Some a) (Some b)) h = (Ok (RHandle (Some t)), h') /\
       new_tensor h h' t D ss (t_rg ra || t_rg rb) w) /\
  ((exists idx, in_range ss idx /\ e idx = None) ->
     exists u h', exec (ODiv (Some a) (Some b)) h = (UB u, h') /\ arith_ub u).
Proof. exact @div_new. Qed.
Print Assumptions C10_div.

(** The hypotheses hold for the i16 view [2,2] (elements 3,1,6,4) and the i32 column
    (7,-8), and all elements of all four operations are defined. *)
Example C07_C10_example :
  let ra := rec 1 in let rb := rec 4 in
  let ss := bshape (shape ra) (shape rb) in
  let D := dt_join (t_dt ra) (t_dt rb) in
  tensor_at demo 1 ra (arr 1) /\ tensor_at demo 4 rb (arr 4) /\
  compatible (shape ra) (shape rb) /\ no_zero_one (shape ra) (shape rb) /\ fits D ss /\
  (forall o, exists w, forall idx, in_range ss idx ->
     cpp_arith o (t_dt ra) (t_dt rb) D (arr 1 (bidx (shape ra) idx)) (arr 4 (bidx (shape rb) idx)) = Some (w idx)) /\
  cpp_arith ASub (t_dt ra) (t_dt rb) D (arr 1 [1; 0]) (arr 4 (bidx (shape rb) [1; 0])) = Some (VI 14).
Proof.
  do 2 (split; [demo_at|]). split; [decide_it|].
  split; [apply no_zero_one_pos; repeat constructor|]. split; [fits_ok|].
  split; [|vm]. intros o. eexists. apply defined_check. destruct o; vm.
Qed.

(** C11: + and * commute. *)
Theorem C11_commute : forall {fo : FOps} o h a b ra rb va vb,
  f_commutative fo -> o = AAdd \/ o = AMul ->
  tensor_at h a ra va -> tensor_at h b rb vb ->
  compatible (shape ra) (shape rb) -> no_zero_one (shape ra) (shape rb) ->
  fits (dt_join (t_dt ra) (t_dt rb)) (bshape (shape ra) (shape rb)) ->
  (exists dt ss rg w t t' h1 h2,
     exec (exec_arith o (Some a) (Some b)) h = (Ok (RHandle (Some t)), h1) /\
     exec (exec_arith o (Some b) (Some a)) h = (Ok (RHandle (Some t')), h2) /\
     new_tensor h h1 t dt ss rg w /\ new_tensor h h2 t' dt ss rg w) \/
  (exists u u' h1 h2,
     exec (exec_arith o (Some a) (Some b)) h = (UB u, h1) /\ arith_ub u /\
     exec (exec_arith o (Some b) (Some a)) h = (UB u', h2) /\ arith_ub u').
Proof. exact @arith_commutes. Qed.
Print Assumptions C11_commute.
(* hypotheses: C05_example with f_commutative_ieee *)

(** C12: promotion is a join; buffers are written at the promoted type. *)
Theorem C12_lattice : forall a b c,
  dt_join a b = dt_join b a /\ dt_join a (dt_join b c) = dt_join (dt_join a b) c /\
  dt_join a a = a /\ floating (dt_join a b) = floating a || floating b /\
  rank a <= rank (dt_join a b) /\ rank b <= rank (dt_join a b).
Proof. exact dt_join_lattice. Qed.
Print Assumptions C12_lattice.

Theorem C12_promotion : forall {fo : FOps} o h a b ra rb va vb,
  f_commutative fo ->
  tensor_at h a ra va -> tensor_at h b rb vb ->
  compatible (shape ra) (shape rb) -> no_zero_one (shape ra) (shape rb) ->
  fits (dt_join (t_dt ra) (t_dt rb)) (bshape (shape ra) (shape rb)) ->
  match exec (exec_arith o (Some a) (Some b)) h with
  | (Ok (RHandle (Some t)), h') =>
      exists r b cs, h_ten h' !! t = Some r /\ t_dt r = dt_join (t_dt ra) (t_dt rb) /\
        h_sto h' !! t_sto r = Some (Sto (dt_join (t_dt ra) (t_dt rb)) b (Some cs)) /\
        forall c, c ∈ cs -> exists v, c = Some v /\ has_ty (dt_join (t_dt ra) (t_dt rb)) v
  | (UB u, _) => arith_ub u
  | _ => False
  end.
Proof. exact @arith_no_bad_type. Qed.
Print Assumptions C12_promotion.
(* hypotheses: C05_example, C07_C10_example with f_commutative_ieee *)

(** C13. -a has a's shape; its dtype is the join with i32 and its elements are 0 - x
    ([neg_elem]: the exact negation for integers). The full statement (same dtype,
    negated elements) is refuted below: i8 and i16 become i32, and 0 - 0.0 is +0.0. *)
Theorem C13_neg_partial : forall {fo : FOps} h a ra va,
  tensor_at h a ra va -> fits (dt_join I32 (t_dt ra)) (shape ra) ->
  (forall w, (forall idx, in_range (shape ra) idx ->
      match va idx with
      | VI x => if in_width (width (dt_join I32 (t_dt ra))) (- x) then Some (VI (- x)) else None
      | VF x => let p := fmt (t_dt ra) in Some (VF (f_sub p (f_of_Z p 0) x))
      end = Some (w idx)) ->
     exists t h', exec (ONeg (Some a)) h = (Ok (RHandle (Some t)), h') /\
       new_tensor h h' t (dt_join I32 (t_dt ra)) (shape ra) (t_rg ra) w) /\
  ((exists idx, in_range (shape ra) idx /\ neg_elem (t_dt ra) (va idx) = None) ->
     exists u h', exec (ONeg (Some a)) h = (UB u, h') /\ arith_ub u).
Proof. exact @neg_new'. Qed.
Print Assumptions C13_neg_partial.

Example C13_example :
  tensor_at demo 4 (rec 4) (arr 4) /\ fits (dt_join I32 (t_dt (rec 4))) (shape (rec 4)) /\
  exists w, forall idx, in_range (shape (rec 4)) idx -> neg_elem (t_dt (rec 4)) (arr 4 idx) = Some (w idx).
Proof.
  split; [demo_at|]. split; [fits_ok|]. eexists. apply defined_check. vm.
Qed.

(** C13 on IEEE floats: -a has a's dtype and shape and the opposite of every nonzero
    element (infinities and NaN included), rounding nothing; either zero becomes +0.0. *)
Theorem C13_float : forall (h : @heap Ieee) a ra va,
  tensor_at h a ra va -> floating (t_dt ra) = true -> fits (t_dt ra) (shape ra) ->
  exists t h' w,
    exec (ONeg (Some a)) h = (Ok (RHandle (Some t)), h') /\
    new_tensor h h' t (t_dt ra) (shape ra) (t_rg ra) w /\
    forall idx, in_range (shape ra) idx -> exists x : spec_float, va idx = @VF Ieee x /\
      w idx = @VF Ieee (match x with S754_zero _ => S754_zero false | _ => SFopp x end).
Proof. exact neg_float. Qed.
Print Assumptions C13_float.

Example C13_float_example :
  tensor_at demo 2 (rec 2) (arr 2) /\ floating (t_dt (rec 2)) = true /\ fits (t_dt (rec 2)) (shape (rec 2)).
Proof. split; [demo_at|]. split; [vm|fits_ok]. Qed.

Theorem C13_dtype_refuted :
  exists (h : @heap Ieee) a ra va t h' r,
    tensor_at h a ra va /\ exec (ONeg (Some a)) h = (Ok (RHandle (Some t)), h') /\
    h_ten h' !! t = Some r /\ t_dt r <> t_dt ra.
Proof. exact neg_dtype_refuted. Qed.
Print Assumptions C13_dtype_refuted.
Theorem C13_zero_refuted :
  exists (h : @heap Ieee) a ra va t h' r x,
    tensor_at h a ra va /\ va [] = VF x /\
    exec (ONeg (Some a)) h = (Ok (RHandle (Some t)), h') /\
    h_ten h' !! t = Some r /\ elem h' r [] <> Some (VF (f_neg x)).
Proof. exact neg_zero_refuted. Qed.
Print Assumptions C13_zero_refuted.

(** C14: comparisons. *)
Theorem C14_cmp : forall {fo : FOps} c h a b ra rb va vb,
  tensor_at h a ra va -> tensor_at h b rb vb ->
  let ss := bshape (shape ra) (shape rb) in
  compatible (shape ra) (shape rb) -> no_zero_one (shape ra) (shape rb) -> fits I8 ss ->
  exists t h', exec (OCmp c (Some a) (Some b)) h = (Ok (RHandle (Some t)), h') /\
    new_tensor h h' t I8 ss false
      (fun idx => VI (if cpp_cmp c (t_dt ra) (t_dt rb) (va (bidx (shape ra) idx)) (vb (bidx (shape rb) idx))
                      then 1 else 0)).
Proof. exact @cmp_new. Qed.
Print Assumptions C14_cmp.

Theorem C14_laws : forall {fo : FOps} h a b ra rb va vb,
  tensor_at h a ra va -> tensor_at h b rb vb ->
  compatible (shape ra) (shape rb) -> no_zero_one (shape ra) (shape rb) ->
  fits I8 (bshape (shape ra) (shape rb)) ->
  exists lt gt le ge eq ne,
    let result c x y w := exists t h', exec (OCmp c (Some x) (Some y)) h = (Ok (RHandle (Some t)), h') /\
      new_tensor h h' t I8 (bshape (shape ra) (shape rb)) false
        (fun idx => VI (if w idx : bool then 1 else 0)) in
    result CLt a b lt /\ result CGt a b gt /\ result CLe a b le /\ result CGe a b ge /\
    result CEq a b eq /\ result CNe a b ne /\ result CGt b a lt /\ result CGe b a le /\
    forall idx, in_range (bshape (shape ra) (shape rb)) idx ->
      ne idx = negb (eq idx) /\
      (floating (t_dt ra) = false -> floating (t_dt rb) = false ->
       ge idx = negb (lt idx) /\ le idx = negb (gt idx)).
Proof. exact @cmp_laws. Qed.
Print Assumptions C14_laws.
(* hypotheses: C05_example *)

(** C15: all() on 0/1 i8 tensors. *)
Theorem C15_all : forall {fo : FOps} h t r v,
  tensor_at h t r v -> t_dt r = I8 ->
  (forall idx, in_range (shape r) idx -> v idx = VI 0 \/ v idx = VI 1) ->
  exists b, exec (QAll (Some t)) h = (Ok (RBool b), h) /\
    (b = true <-> forall idx, in_range (shape r) idx -> v idx = VI 1).
Proof. exact @all_i8. Qed.
Print Assumptions C15_all.

Theorem C15_eq_all : forall {fo : FOps} h a b ra rb va vb,
  tensor_at h a ra va -> tensor_at h b rb vb ->
  compatible (shape ra) (shape rb) -> no_zero_one (shape ra) (shape rb) ->
  fits I8 (bshape (shape ra) (shape rb)) ->
  exists t h' r, exec (OCmp CEq (Some a) (Some b)) h = (Ok (RHandle (Some t)), h') /\
    exec (QAll (Some t)) h' = (Ok (RBool r), h') /\
    (r = true <-> forall idx, in_range (bshape (shape ra) (shape rb)) idx ->
       cpp_cmp CEq (t_dt ra) (t_dt rb) (va (bidx (shape ra) idx)) (vb (bidx (shape rb) idx)) = true).
Proof. exact @eq_all. Qed.
Print Assumptions C15_eq_all.

Example C15_example :
  tensor_at demo 3 (rec 3) (arr 3) /\ t_dt (rec 3) = I8 /\
  (forall idx, in_range (shape (rec 3)) idx -> arr 3 idx = VI 0 \/ arr 3 idx = VI 1) /\
  arr 3 [0; 0] = VI 1 /\ arr 3 [0; 1] = VI 0.
Proof.
  split; [demo_at|]. split; [vm|]. split; [|split; vm]. intros idx Hi.
  apply elem_of_indices in Hi. vm_compute in Hi. set_unfold in Hi.
  destruct Hi as [->|[->|[->|[->|[]]]]]; (left; vm) || (right; vm).
Qed.

(** C16 is false for wider element types: the i32 element 256 is non-zero but all()
    is false, the i32 element 2 makes the call undefined, and of an i16 tensor [1, 0]
    only the first byte pair is looked at ([1,0] gives false, but so does [1,1]). *)
Theorem C16_refuted :
  (exists (h : @heap Ieee) t r v, tensor_at h t r v /\
     (forall idx, in_range (shape r) idx -> exists z, v idx = VI z /\ z <> 0) /\
     exec (QAll (Some t)) h = (Ok (RBool false), h)) /\
  (exists (h : @heap Ieee) t r v, tensor_at h t r v /\
     (forall idx, in_range (shape r) idx -> exists z, v idx = VI z /\ z <> 0) /\
     exec (QAll (Some t)) h = (UB BadBool, h)) /\
  (exists (h : @heap Ieee) t r v, tensor_at h t r v /\
     (forall idx, in_range (shape r) idx -> v idx = VI 1) /\
     exec (QAll (Some t)) h = (Ok (RBool false), h)).
Proof. exact all_refuted. Qed.
Print Assumptions C16_refuted.
