(** Copies, reductions, abs, dtype conversion, cat, and what calls leave alone. *)
From Verif.Proofs Require Import Later Orders Refute1.

(** C22: clone() and contiguous() make independent copies. [avoids s h ops]: the later calls
    change existing data only by in-place additions, to tensors not on buffer [s]. *)
Theorem C22_copy : forall {fo : FOps} o h t r v,
  o = OClone \/ o = OContiguous -> tensor_at h t r v -> fits (t_dt r) (shape r) ->
  exists t' h' r', exec (o (Some t)) h = (Ok (RHandle (Some t')), h') /\
    new_tensor h h' t' (t_dt r) (shape r) (t_rg r) v /\
    h_ten h' !! t' = Some r' /\
    (forall ops, avoids (t_sto r) h' ops ->
       exists rl, tensor_at (run h' ops).2 t rl v /\ same_data r rl) /\
    (forall ops, avoids (t_sto r') h' ops ->
       exists rl, tensor_at (run h' ops).2 t' rl v /\ same_data r' rl).
Proof. exact @copy_independent. Qed.
Print Assumptions C22_copy.

(** the reversed view 1 of the demo heap, copied (9), then added to itself and to its source *)
Example C22_example :
  tensor_at demo 1 (rec 1) (arr 1) /\ fits (t_dt (rec 1)) (shape (rec 1)) /\
  let h' := snd (exec (OClone (Some 1%nat)) demo) in
  avoids (t_sto (rec 1)) h' [OAddEq (Some 9%nat) (Some 1%nat); OAdd (Some 1%nat) (Some 9%nat)] /\
  contents (run h' [OAddEq (Some 9%nat) (Some 1%nat)]).2 (rec_of h' 9) [0; 0] = VI 6 /\
  arr 1 [0; 0] = VI 3.
Proof.
  split; [demo_at|]. split; [fits_ok|]. cbv zeta. split; [|split; vm].
  cbn [avoids]. split; [|split; [vm|done]].
  intros r. assert (h_ten (exec (OClone (Some 1%nat)) demo).2 !! 9%nat =
    Some (rec_of (exec (OClone (Some 1%nat)) demo).2 9)) as -> by vm.
  intros [= <-]. apply (bool_decide_eq_false_1 (t_sto _ = t_sto _)). vm.
Qed.

(** C26: sum *)
Theorem C26_sum : forall {fo : FOps} h t r v,
  tensor_at h t r v -> size_prod (shape r) < two63 ->
  match array_sum (t_dt r) (shape r) v with
  | Some x => exists t' h', exec (OSum (Some t)) h = (Ok (RHandle (Some t')), h') /\
                new_tensor h h' t' (sum_type (t_dt r)) [] (t_rg r) (fun _ => x)
  | None => exists u h', exec (OSum (Some t)) h = (UB u, h') /\ arith_ub u
  end.
Proof. exact @sum_new. Qed.
Print Assumptions C26_sum.

Example C26_example :
  tensor_at demo 1 (rec 1) (arr 1) /\ size_prod (shape (rec 1)) < two63 /\
  array_sum (t_dt (rec 1)) (shape (rec 1)) (arr 1) = Some (VI 14) /\
  array_sum (t_dt (rec 7)) (shape (rec 7)) (arr 7) = Some (f64 21) /\
  array_sum I64 [2] (fun _ => VI (2 ^ 62)) = None /\ array_sum I8 [0; 3] (arr 0) = Some (VI 0).
Proof. split; [demo_at|]. split; [apply Z.ltb_lt; vm|]. split_and!; vm. Qed.

(** C27: mean *)
Theorem C27_mean : forall {fo : FOps} h t r v,
  tensor_at h t r v -> size_prod (shape r) < two63 ->
  match array_mean (t_dt r) (shape r) v with
  | Some x => exists t' h', exec (OMean (Some t)) h = (Ok (RHandle (Some t')), h') /\
                new_tensor h h' t' (sum_type (t_dt r)) [] (t_rg r) (fun _ => x)
  | None => exists u h', exec (OMean (Some t)) h = (UB u, h') /\ arith_ub u
  end.
Proof. exact @mean_new. Qed.
Print Assumptions C27_mean.

Example C27_example :
  tensor_at demo 1 (rec 1) (arr 1) /\ size_prod (shape (rec 1)) < two63 /\
  array_mean (t_dt (rec 1)) (shape (rec 1)) (arr 1) = Some (VI 3) /\
  array_mean I8 [0; 3] (arr 0) = Some (VI 0).
Proof. split; [demo_at|]. split; [apply Z.ltb_lt; vm|]. split_and!; vm. Qed.

(** C28: max and min *)
Theorem C28_max : forall {fo : FOps} h t r v,
  tensor_at h t r v -> t_rg r = false ->
  (exists i0, in_range (shape r) i0 /\ pos (t_lay r) i0 = 0) -> ordered (row_elems (shape r) v) ->
  exists best t' h', in_range (shape r) best /\
    (forall idx, in_range (shape r) idx -> val_le (v idx) (v best) = true) /\
    exec (OMax (Some t)) h = (Ok (RHandle (Some t')), h') /\
    new_tensor h h' t' (t_dt r) [] false (fun _ => v best).
Proof. exact @max_new. Qed.
Print Assumptions C28_max.

Theorem C28_min : forall {fo : FOps} h t r v,
  tensor_at h t r v -> t_rg r = false ->
  (exists i0, in_range (shape r) i0 /\ pos (t_lay r) i0 = 0) -> ordered (row_elems (shape r) v) ->
  exists best t' h', in_range (shape r) best /\
    (forall idx, in_range (shape r) idx -> val_le (v best) (v idx) = true) /\
    exec (OMin (Some t)) h = (Ok (RHandle (Some t')), h') /\
    new_tensor h h' t' (t_dt r) [] false (fun _ => v best).
Proof. exact @min_new. Qed.
Print Assumptions C28_min.

(** [ordered]: integers always; IEEE numbers when none is NaN; exact numbers always. *)
Theorem C28_ordered_int : forall {fo : FOps} (l : list val),
  (forall x, x ∈ l -> exists z, x = VI z) -> ordered l.
Proof. exact @ordered_int. Qed.
Print Assumptions C28_ordered_int.
Theorem C28_ordered_ieee : forall (l : list (@val Ieee)),
  (forall x : @val Ieee, x ∈ l -> x <> @VF Ieee SpecFloat.S754_nan) -> homogeneous l -> ordered l.
Proof. exact ordered_ieee. Qed.
Print Assumptions C28_ordered_ieee.
Theorem C28_ordered_exact : forall (l : list (@val Exact)), homogeneous l -> ordered l.
Proof. exact ordered_exact. Qed.
Print Assumptions C28_ordered_exact.

Example C28_example :
  tensor_at demo 5 (rec 5) (arr 5) /\ t_rg (rec 5) = false /\
  (exists i0, in_range (shape (rec 5)) i0 /\ pos (t_lay (rec 5)) i0 = 0) /\
  ordered (row_elems (shape (rec 5)) (arr 5)) /\ shape (rec 5) = [3; 2].
Proof.
  split; [demo_at|]. split; [vm|]. split; [|split; [|vm]].
  - exists [0; 0]. split; [|vm]. apply elem_of_indices. decide_it.
  - apply ordered_int. intros x Hx.
    assert (forallb (fun x => match x with VI _ => true | VF _ => false end)
      (row_elems (shape (rec 5)) (arr 5)) = true) as H by vm.
    rewrite forallb_forall in H. specialize (H x). rewrite <- elem_of_list_In in H.
    specialize (H Hx). destruct x as [z|]; [by exists z|done].
Qed.

(** C30: abs, on tensors that fill their buffer *)
Theorem C30_abs : forall {fo : FOps} h t r v,
  tensor_at h t r v -> fits (t_dt r) (shape r) ->
  lay_in (t_lay r) (size_prod (shape r)) -> lay_inj (t_lay r) ->
  (forall w, (forall idx, in_range (shape r) idx -> abs_val (t_dt r) (v idx) = Some (w idx)) ->
     exists t' h' r', exec (OAbs (Some t)) h = (Ok (RHandle (Some t')), h') /\
       extends h h' /\ h_ten h !! t' = None /\ h_ten h' !! t' = Some r' /\
       h_sto h !! t_sto r' = None /\ t_dt r' = t_dt r /\ t_lay r' = t_lay r /\
       t_rg r' = t_rg r /\ holds h' r' w) /\
  ((exists idx, in_range (shape r) idx /\ abs_val (t_dt r) (v idx) = None) ->
     exists h', exec (OAbs (Some t)) h = (UB SignedOverflow, h')).
Proof. exact @abs_new. Qed.
Print Assumptions C30_abs.

(** the transpose of a 2x3 tensor; the most negative values *)
Example C30_example :
  tensor_at demo 5 (rec 5) (arr 5) /\ fits (t_dt (rec 5)) (shape (rec 5)) /\
  lay_in (t_lay (rec 5)) (size_prod (shape (rec 5))) /\ lay_inj (t_lay (rec 5)) /\
  abs_val I8 (VI (-128)) = Some (VI (-128)) /\ abs_val I32 (VI (- 2 ^ 31)) = None /\
  abs_val I16 (VI (-5)) = Some (VI 5).
Proof.
  split; [demo_at|]. split; [fits_ok|]. split; [|split; [|split_and!; vm]].
  - intros idx Hi. apply elem_of_indices in Hi. vm_compute in Hi. set_unfold in Hi.
    destruct Hi as [->|[->|[->|[->|[->| [->|[]]]]]]]; vm_compute; split; congruence.
  - intros i j Hi Hj. apply elem_of_indices in Hi, Hj. vm_compute in Hi, Hj. set_unfold in Hi. set_unfold in Hj.
    destruct Hi as [->|[->|[->|[->|[->| [->|[]]]]]]], Hj as [->|[->|[->|[->|[->| [->|[]]]]]]]; vm_compute; congruence.
Qed.

(** C32: dtype conversion *)
Theorem C32_type : forall {fo : FOps} h t r v dt,
  tensor_at h t r v -> fits dt (shape r) -> dt <> t_dt r -> (t_rg r = true -> floating dt = true) ->
  (forall w, (forall idx, in_range (shape r) idx -> cpp_cvt (t_dt r) dt (v idx) = Some (w idx)) ->
     exists t' h', exec (OTypeTo (Some t) dt) h = (Ok (RHandle (Some t')), h') /\
       new_tensor h h' t' dt (shape r) (t_rg r) w) /\
  ((exists idx, in_range (shape r) idx /\ cpp_cvt (t_dt r) dt (v idx) = None) ->
     exists h', exec (OTypeTo (Some t) dt) h = (UB FloatRange, h')).
Proof. exact @type_new. Qed.
Print Assumptions C32_type.
Theorem C32_same : forall {fo : FOps} h t r,
  h_ten h !! t = Some r -> (t_rg r = true -> floating (t_dt r) = true) ->
  exec (OTypeTo (Some t) (t_dt r)) h = (Ok (RHandle (Some t)), h).
Proof. exact @type_same. Qed.
Print Assumptions C32_same.
Theorem C32_reject : forall {fo : FOps} h t r dt,
  h_ten h !! t = Some r -> t_rg r = true -> floating dt = false ->
  exec (OTypeTo (Some t) dt) h = (Throw RuntimeError, h).
Proof. exact @type_reject. Qed.
Print Assumptions C32_reject.
(** widening and back is lossless *)
Theorem C32_roundtrip : forall {fo : FOps} h t r v dt,
  tensor_at h t r v -> fits dt (shape r) -> fits (t_dt r) (shape r) -> dt <> t_dt r ->
  t_rg r = false -> floating dt = false -> floating (t_dt r) = false -> width (t_dt r) <= width dt ->
  exists t1 h1 t2 h2,
    exec (OTypeTo (Some t) dt) h = (Ok (RHandle (Some t1)), h1) /\
    exec (OTypeTo (Some t1) (t_dt r)) h1 = (Ok (RHandle (Some t2)), h2) /\
    new_tensor h h1 t1 dt (shape r) false v /\ new_tensor h1 h2 t2 (t_dt r) (shape r) false v.
Proof. exact @type_roundtrip. Qed.
Print Assumptions C32_roundtrip.
(** narrowing wraps *)
Theorem C32_narrow : forall {fo : FOps} T D z w,
  floating D = false -> cpp_cvt T D (VI z) = Some w ->
  exists y, w = VI y /\ in_width (width D) y = true /\ y mod 2 ^ width D = z mod 2 ^ width D.
Proof. exact @cvt_narrow. Qed.
Print Assumptions C32_narrow.

Example C32_example :
  tensor_at demo 1 (rec 1) (arr 1) /\ fits I64 (shape (rec 1)) /\ I64 <> t_dt (rec 1) /\
  t_rg (rec 1) = false /\ floating (t_dt (rec 1)) = false /\ width (t_dt (rec 1)) <= width I64 /\
  t_rg (rec 6) = true /\ cpp_cvt I16 I8 (VI 300) = Some (VI 44) /\
  cpp_cvt F64 I8 (f64 300) = None /\ cpp_cvt F64 I16 (f64 300) = Some (VI 300).
Proof.
  split; [demo_at|]. split; [fits_ok|]. split; [by vm_compute|]. split; [vm|]. split; [vm|].
  split; [apply Z.leb_le; vm|]. split_and!; vm.
Qed.

(** C33: cat. [owner ns i] is the input that position [i] of the joined dimension falls in
    and the position inside it. *)
Theorem C33_cat : forall {fo : FOps} h ts rs vs r0 rest dim,
  let d := Z.to_nat dim in
  Forall2 (fun t r => h_ten h !! t = Some r) ts rs -> Forall2 (holds h) rs vs -> rs = r0 :: rest ->
  0 <= dim < Z.of_nat (length (shape r0)) ->
  Forall (fun r => same_but d (shape r0) (shape r)) rs ->
  Forall (fun n => n < two64) (cat_shape d r0 rs) -> fits (cat_type r0 rs) (cat_shape d r0 rs) ->
  exists t' h' w, exec (OCat (map Some ts) dim) h = (Ok (RHandle (Some t')), h') /\
    new_tensor h h' t' (cat_type r0 rs) (cat_shape d r0 rs) (existsb t_rg rs) w /\
    forall idx, in_range (cat_shape d r0 rs) idx ->
      exists k j r v, owner (sizes_along d rs) (nth d idx 0) = (k, j) /\
        rs !! k = Some r /\ vs !! k = Some v /\
        in_range (shape r) (<[d := j]> idx) /\
        cpp_cvt (t_dt r) (cat_type r0 rs) (v (<[d := j]> idx)) = Some (w idx).
Proof. exact @cat_new. Qed.
Print Assumptions C33_cat.
Theorem C33_reject : forall {fo : FOps} h ts rs r0 rest dim,
  let d := Z.to_nat dim in
  Forall2 (fun t r => h_ten h !! t = Some r) ts rs -> rs = r0 :: rest ->
  ~ (0 <= dim < Z.of_nat (length (shape r0))) \/ ~ Forall (fun r => same_but d (shape r0) (shape r)) rs ->
  exec (OCat (map Some ts) dim) h = (Throw RuntimeError, h).
Proof. exact @cat_reject. Qed.
Print Assumptions C33_reject.

(** the 2x3 tensor 0, the 2x2 reversed view 1 and the 2x1 tensor 4, joined along dimension 1 *)
Example C33_example :
  let rs := [rec 0; rec 1; rec 4] in
  Forall2 (fun t r => h_ten demo !! t = Some r) [0; 1; 4]%nat rs /\
  Forall2 (holds demo) rs [arr 0; arr 1; arr 4] /\
  Forall (fun r => same_but 1 (shape (rec 0)) (shape r)) rs /\
  cat_shape 1 (rec 0) rs = [2; 6] /\ cat_type (rec 0) rs = I32 /\
  fits (cat_type (rec 0) rs) (cat_shape 1 (rec 0) rs) /\
  owner (sizes_along 1 rs) 4 = (1%nat, 1) /\
  ~ Forall (fun r => same_but 0 (shape (rec 0)) (shape r)) rs.
Proof.
  assert (forall t, holdsb demo (rec t) = true -> holds demo (rec t) (arr t)) as H by (intros; by apply holdsb_ok).
  cbv zeta. split; [repeat first [apply Forall2_nil_2 | apply Forall2_cons_2; [vm|]]|].
  split; [repeat first [apply Forall2_nil_2 | apply Forall2_cons_2; [apply H; vm|]]|].
  split; [decide_it|]. split; [vm|]. split; [vm|]. split; [fits_ok|]. split; [vm|].
  apply (bool_decide_eq_false_1 (Forall _ _)). vm.
Qed.

(** C38: apart from +=, zero_grad, backward and release no call changes existing data,
    whatever its outcome. *)
Theorem C38_unchanged : forall {fo : FOps} h o t r v,
  mutates o = false -> tensor_at h t r v ->
  data_kept h (exec o h).2 /\
  exists r', tensor_at (exec o h).2 t r' v /\ shape r' = shape r /\ t_dt r' = t_dt r.
Proof. exact @data_unchanged. Qed.
Print Assumptions C38_unchanged.
Theorem C38_any_state : forall {fo : FOps} h o, mutates o = false -> data_kept h (exec o h).2.
Proof. exact @op_keeps_data. Qed.
Print Assumptions C38_any_state.

(** incompatible operands: throws after allocating the result *)
Example C38_example :
  tensor_at demo 0 (rec 0) (arr 0) /\ mutates (OAdd (Some 0%nat) (Some 2%nat)) = false /\
  (exec (OAdd (Some 0%nat) (Some 2%nat)) demo).1 = Throw RuntimeError /\
  length (h_ten (exec (OAdd (Some 0%nat) (Some 2%nat)) demo).2) = 10%nat.
Proof. split; [demo_at|]. split_and!; vm. Qed.
