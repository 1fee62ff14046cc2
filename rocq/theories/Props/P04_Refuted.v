(** Properties the code does not have. Every witness is a state reached by public calls.
    [vec l] creates the f64 vector [l], [ivec l] the i8 vector; [after ops] is the state
    after the calls [ops]; [#n] is the n-th tensor created. *)
From Verif.Proofs Require Import Refute2.

(** C21: {0,-1} divides by zero; {-2,-6} is accepted for 12 elements. *)
Theorem C21_refuted :
  (exists (h : @heap Ieee) t r v, reachable h /\ tensor_at h t r v /\ shape r = [0] /\
     (exec (OReshape (Some t) [0; -1]) h).1 = UB DivByZero) /\
  (exists (h : @heap Ieee) t r v t' h' r', reachable h /\ tensor_at h t r v /\ shape r = [12] /\
     exec (OReshape (Some t) [-2; -6]) h = (Ok (RHandle (Some t')), h') /\
     h_ten h' !! t' = Some r' /\ shape r' = [two64 - 2; two64 - 6]).
Proof. exact reshape_args_refuted. Qed.
Print Assumptions C21_refuted.

(** C29: max and min of a slice return an element that is not in the slice. *)
Theorem C29_refuted :
  (exists (h : @heap Ieee) t r v t' h' r' x, reachable h /\ tensor_at h t r v /\ shape r = [2] /\
     exec (OMax (Some t)) h = (Ok (RHandle (Some t')), h') /\ h_ten h' !! t' = Some r' /\
     elem h' r' [] = Some x /\ forall idx, in_range (shape r) idx -> v idx <> x) /\
  (exists (h : @heap Ieee) t r v t' h' r' x, reachable h /\ tensor_at h t r v /\ shape r = [2] /\
     exec (OMin (Some t)) h = (Ok (RHandle (Some t')), h') /\ h_ten h' !! t' = Some r' /\
     elem h' r' [] = Some x /\ forall idx, in_range (shape r) idx -> v idx <> x).
Proof. exact slice_extremum_refuted. Qed.
Print Assumptions C29_refuted.

(** C31: abs of a slice writes outside its result. *)
Theorem C31_refuted :
  exists (h : @heap Ieee) t r v, reachable h /\ tensor_at h t r v /\ shape r = [2] /\
    (exec (OAbs (Some t)) h).1 = UB OutOfBounds.
Proof. exact slice_abs_refuted. Qed.
Print Assumptions C31_refuted.

(** C36: stride() throws, and it does so for every tensor. *)
Theorem C36_refuted : exists (h : @heap Ieee) t r v, reachable h /\ tensor_at h t r v /\ shape r = [2] /\ strides (t_lay r) = [1] /\
  exec (QStride (Some t)) h = (Throw RuntimeError, h).
Proof. exact stride_refuted. Qed.
Print Assumptions C36_refuted.
Theorem C36_throws : forall {fo : FOps} h t r,
  h_ten h !! t = Some r -> exec (QStride (Some t)) h = (Throw RuntimeError, h).
Proof. exact @stride_throws. Qed.
Print Assumptions C36_throws.
Example C36_example : h_ten demo !! 0%nat = Some (rec 0).
Proof. vm. Qed.

(** C37: randn at f64 writes outside its buffer. *)
Theorem C37_refuted : exists (xs : list (@F Ieee)),
  (exec (ORandn [1] F64 xs) empty_heap).1 = UB OutOfBounds.
Proof. exact randn_refuted. Qed.
Print Assumptions C37_refuted.

(** C41: [2] += [3] throws and has changed the destination. *)
Theorem C41_refuted :
  exists (h : @heap Ieee) a b ra rb va vb h', reachable h /\ tensor_at h a ra va /\ tensor_at h b rb vb /\
    exec (OAddEq (Some a) (Some b)) h = (Throw RuntimeError, h') /\
    elems h a = Some [VI 5; VI 1] /\ elems h' a = Some [VI 6; VI 2].
Proof. exact addeq_throw_refuted. Qed.
Print Assumptions C41_refuted.

(** C48: with y = 2x, s = sum(y), s' = sum(y): after s.backward() another s.backward() or
    s'.backward() adds nothing. *)
Theorem C48_refuted :
  exists (h h1 h2 h3 : @heap Ieee) x s s', reachable h /\
    exec (OBackward (Some s)) h = (Ok RUnit, h1) /\ grad_elems h1 x = Some [f64 2; f64 2] /\
    exec (OBackward (Some s)) h1 = (Ok RUnit, h2) /\ grad_elems h2 x = Some [f64 2; f64 2] /\
    exec (OBackward (Some s')) h1 = (Ok RUnit, h3) /\ grad_elems h3 x = Some [f64 2; f64 2].
Proof. exact second_backward_refuted. Qed.
Print Assumptions C48_refuted.

(** C49: x[1].backward() leaves x.grad zero. *)
Theorem C49_refuted :
  exists (h h1 : @heap Ieee) x v r, reachable h /\ h_ten h !! v = Some r /\ shape r = [] /\
    exec (OBackward (Some v)) h = (Ok RUnit, h1) /\ grad_elems h1 x = Some [f64 0; f64 0].
Proof. exact view_root_refuted. Qed.
Print Assumptions C49_refuted.

(** C50: s = 4 * mean(x) for two elements gives gradient 1/2 each instead of 2. *)
Theorem C50_refuted :
  exists (h h1 : @heap Ieee) x s half, reachable h /\
    exec (OBackward (Some s)) h = (Ok RUnit, h1) /\ grad_elems h1 x = Some [half; half] /\
    half = @VF Ieee (@f_div Ieee FT64 (ieee_of_Z FT64 1) (ieee_of_Z FT64 2)) /\ half <> f64 2.
Proof. exact mean_grad_refuted. Qed.
Print Assumptions C50_refuted.

(** C51: backward through x / constant, constant / x, and x / broadcast y. *)
Theorem C51_refuted :
  (let h := after [vec [1; 2]; ORequires #0 true; vec [1; 2]; ODiv #0 #1; OSum #2] in
   reachable h /\ (exec (OBackward #3) h).1 = UB NullDeref) /\
  (let h := after [vec [1; 2]; ORequires #0 true; vec [1; 2]; ODiv #1 #0; OSum #2] in
   reachable h /\ (exec (OBackward #3) h).1 = UB NullDeref) /\
  (let h := after [vec [1; 2]; ORequires #0 true; vec [3]; ORequires #1 true; ODiv #0 #1; OSum #2] in
   reachable h /\ (exec (OBackward #3) h).1 = UB OutOfBounds).
Proof. exact div_grad_refuted. Qed.
Print Assumptions C51_refuted.

(** C52: max of a tracked vector whose first element is the largest throws. *)
Theorem C52_refuted :
  exists (h : @heap Ieee) x r v, reachable h /\ tensor_at h x r v /\ t_rg r = true /\ shape r = [2] /\
    (exec (OMax (Some x)) h).1 = Throw RuntimeError.
Proof. exact tracked_max_refuted. Qed.
Print Assumptions C52_refuted.

(** C53: y = clone(x), z = clone(y), w = y * z with z.requires_grad(false): x gets nothing,
    although d w / d x along y alone is z. *)
Theorem C53_refuted :
  let ops := [vec [3]; ORequires #0 true; OClone #0; OClone #1; OMul #1 #2; ORequires #2 false] in
  reachable (after ops) /\
  exec (OBackward #3) (after ops) = (Ok RUnit, after (ops ++ [OBackward #3])) /\
  grad_elems (after (ops ++ [OBackward #3])) 0 = None.
Proof. exact cut_path_refuted. Qed.
Print Assumptions C53_refuted.

(** C55: a 2^32 x 2^32 tensor is created on an empty buffer. *)
Theorem C55_refuted : exists (h : @heap Ieee) t r st,
  exec (OZeros [2 ^ 32; 2 ^ 32] I8) empty_heap = (Ok (RHandle (Some t)), h) /\
  h_ten h !! t = Some r /\ shape r = [2 ^ 32; 2 ^ 32] /\ size_prod (shape r) = two64 /\
  h_sto h !! t_sto r = Some st /\ sto_blob st = Some [].
Proof. exact too_large_refuted. Qed.
Print Assumptions C55_refuted.

(** C56: a += transpose(a) is not the sum of the old values. *)
Theorem C56_refuted :
  exists (h : @heap Ieee) a b ra rb va vb h' idx x, reachable h /\
    tensor_at h a ra va /\ tensor_at h b rb vb /\ shape ra = shape rb /\ in_range (shape ra) idx /\
    exec (OAddEq (Some a) (Some b)) h = (Ok RUnit, h') /\
    elem h' ra idx = Some x /\ cpp_arith AAdd I8 I8 I8 (va idx) (vb idx) <> Some x.
Proof. exact overlap_refuted. Qed.
Print Assumptions C56_refuted.

(** C57: a slice as a gradient leaf. *)
Theorem C57_refuted :
  let h := after [vec [1; 2; 3]; OSlice #0 (chars "1:"); ORequires #1 true; OSum #1] in
  reachable h /\ (exec (OBackward #2) h).1 = UB OutOfBounds.
Proof. exact slice_leaf_refuted. Qed.
Print Assumptions C57_refuted.
