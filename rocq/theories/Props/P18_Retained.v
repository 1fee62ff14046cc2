(** The gradients of intermediates that retain them, and a second pass, in exact arithmetic.
    The programs are those of Spec/Program.v. *)
From Verif.Proofs Require Import RetainedEx.
#[local] Existing Instance Exact.

(** C61: after backward() an intermediate that retains its gradient and is not a view holds the
    derivative of the root with respect to each of its elements. Full C61 has no condition
    [~ is_view h u]; it is false (C61_refuted), and C61_view_partial says what views hold. *)
Theorem C61_retained_partial : forall ops H T h t u r,
  program ops H T h -> may_backward h H T t ->
  below h t u -> is_node h u -> ~ is_view h u -> u <> t -> h_ten h !! u = Some r -> t_ret r = true ->
  exists h', exec (OBackward (Some t)) h = (Ok RUnit, h') /\
    forall j, in_range (shape_of h u) j ->
      exists q, derivative_at h t u j q /\ (forall q', derivative_at h t u j q' -> q' = q) /\
        grad_value h' u j = q.
Proof. exact program_retained. Qed.
Print Assumptions C61_retained_partial.
(** y = x * x in sum(y * (reversed x) / |x| + y) at x = (1, 2, -3) *)
Example C61_retained_example :
  program ex_keep ex_below none (xafter ex_keep) /\ may_backward (xafter ex_keep) ex_below none 10 /\
  below (xafter ex_keep) 10 1 /\ is_node (xafter ex_keep) 1 /\ ~ is_view (xafter ex_keep) 1 /\ 1%nat <> 10%nat /\
  h_ten (xafter ex_keep) !! 1%nat = Some (xrec (xafter ex_keep) 1) /\ t_ret (xrec (xafter ex_keep) 1) = true /\
  grads (xafter (ex_keep ++ [OBackward (#10)])) 1 = [(-2, 1); (2, 1); (4, 3)] /\
  grads (xafter (ex_keep ++ [OBackward (#10)])) 0 = [(2, 1); (8, 1); (-6, 1)].
Proof.
  split; [exact ex_keep_ok|]. split; [exact ex_keep_may|]. split; [apply (below_path _ _ [9; 1]%nat); vm|].
  split; [apply is_node_check; vm|]. split; [apply (not_kind _ _ NoBack); [vm|by left]|]. split; [done|]. split_and!; vm.
Qed.

(** What a view that retains its gradient holds instead: at each of its elements the gradient of
    its base [b] - the tensor that the chain of views starts from - at the element [i] of [b] in
    the same cell, whether or not [b] and the views in between retain theirs.  If [b] was
    computed, that is the derivative of the root with respect to that element of [b]; if [b] is
    a leaf, what its gradient held before and the derivative. *)
Theorem C61_view_partial : forall ops H T h t u b r,
  program ops H T h -> may_backward h H T t ->
  below h t u -> is_view h u -> base_of h u b -> h_ten h !! u = Some r -> t_ret r = true ->
  exists h', exec (OBackward (Some t)) h = (Ok RUnit, h') /\
    forall j, in_range (shape_of h u) j ->
      exists i, in_range (shape_of h b) i /\ pos (lay_of h u) j = pos (lay_of h b) i /\
        (is_node h b -> exists q, derivative_at h t b i q /\ (forall q', derivative_at h t b i q' -> q' = q) /\
           grad_value h' u j = q) /\
        (~ is_node h b -> exists q, derivative h t b i q /\ (forall q', derivative h t b i q' -> q' = q) /\
           grad_value h' u j = (grad_value h b i + q)%Qc).
Proof. exact program_view. Qed.
Print Assumptions C61_view_partial.
(** v = y[0:1] with y = x * x in sum(v) + sum(y) at x = (1, 2, -3); y does not retain *)
Example C61_view_example :
  program vw vw_held none (xafter vw) /\ may_backward (xafter vw) vw_held none 7 /\
  below (xafter vw) 7 2 /\ (is_view (xafter vw) 2 /\ base_of (xafter vw) 2 1) /\ is_node (xafter vw) 1 /\
  h_ten (xafter vw) !! 2%nat = Some (xrec (xafter vw) 2) /\ t_ret (xrec (xafter vw) 2) = true /\ t_ret (xrec (xafter vw) 1) = false /\
  grads (xafter (vw ++ [OBackward (#7)])) 2 = [(2, 1)].
Proof.
  split; [exact vw_ok|]. split; [exact vw_may|]. split; [apply (below_path _ _ [5; 2]%nat); vm|].
  split; [exact vw_base|]. split; [apply is_node_check; vm|]. split_and!; vm.
Qed.

(** C61 fails for a view: v = y[0:1], t = sum(v) + sum(y). The derivative with respect to v is
    1; v.grad(), which shares y's gradient, holds 2. *)
Theorem C61_refuted : exists ops H T h t u r h' j q,
  program ops H T h /\ may_backward h H T t /\
  below h t u /\ is_node h u /\ u <> t /\ h_ten h !! u = Some r /\ t_ret r = true /\ in_range (shape_of h u) j /\
  exec (OBackward (Some t)) h = (Ok RUnit, h') /\ derivative_at h t u j q /\ grad_value h' u j <> q.
Proof. exact retained_view_refuted. Qed.
Print Assumptions C61_refuted.

(** C48: two passes from a root whose operands are leaves add the derivative twice. Full C48
    asks for this of every root; it is false (C48_refuted). *)
Theorem C48_again_partial : forall ops H T h t,
  program ops H T h -> may_backward h H T t -> (forall x, below h t x -> x <> t -> ~ is_node h x) ->
  exists h1 h2, exec (OBackward (Some t)) h = (Ok RUnit, h1) /\ exec (OBackward (Some t)) h1 = (Ok RUnit, h2) /\
  forall a i, a ∈ H -> below h t a -> tracked h a -> a <> t -> in_range (shape_of h a) i ->
    exists q, derivative h t a i q /\ (forall q', derivative h t a i q' -> q' = q) /\
      grad_value h1 a i = (grad_value h a i + q)%Qc /\ grad_value h2 a i = (grad_value h a i + q + q)%Qc.
Proof. exact program_again. Qed.
Print Assumptions C48_again_partial.
Example C48_again_example :
  program ag_1 [1; 0]%nat none (xafter ag_1) /\ may_backward (xafter ag_1) [1; 0]%nat none 1 /\
  (forall x, below (xafter ag_1) 1 x -> x <> 1%nat -> ~ is_node (xafter ag_1) x) /\
  below (xafter ag_1) 1 0 /\ tracked (xafter ag_1) 0 /\ shape_of (xafter ag_1) 0 = [3] /\
  grads (xafter (ag_1 ++ [OBackward (#1)])) 0 = [(1, 1); (1, 1); (1, 1)] /\
  grads (xafter (ag_1 ++ [OBackward (#1); OBackward (#1)])) 0 = [(2, 1); (2, 1); (2, 1)].
Proof.
  split; [exact ag_ok|]. split; [exact ag_may|]. split; [exact ag_leaves|]. split; [apply (below_path _ _ [0]%nat); vm|].
  split; [apply leaf_tracked; vm|]. split_and!; vm.
Qed.
