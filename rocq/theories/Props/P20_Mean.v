(** Backward passes with means below the root, in exact arithmetic. MeanBack does not use the
    gradient that reaches it (C50); these theorems say what the gradients then are. *)
From Verif.Proofs Require Import Mean MeanEx.
From Verif.Model Require Import Exact Api.
#[local] Existing Instance Exact.

(** C50: the gradient of a tracked leaf grows by the derivative, plus for every mean [m] below
    the root one error term: 1 minus the derivative of the root by [m], times the rate at which
    [m] would change with the leaf, had the means under it been constants. *)
Theorem C50_error_partial : forall ops H T h t, program ops H T h -> may_start h H T t ->
  exists h', exec (OBackward (Some t)) h = (Ok RUnit, h') /\
    (exists ms, means h t ms) /\
    (forall m, mean_below h t m -> exists u, derivative_at h t m [] u /\ forall u', derivative_at h t m [] u' -> u' = u) /\
    forall a i, below h t a -> ~ is_node h a -> tracked h a -> in_range (shape_of h a) i ->
      (exists d, cut_tangent h t a i d) /\
      (exists q, derivative h t a i q /\ forall q', derivative h t a i q' -> q' = q) /\
      forall d ms up q, cut_tangent h t a i d -> means h t ms ->
        (forall m, m ∈ ms -> derivative_at h t m [] (up m)) -> derivative h t a i q ->
        grad_value h' a i = (grad_value h a i + q + sumq (map (fun m => (1 - up m) * mean_rate h d m) ms))%Qc.
Proof. exact program_mean. Qed.
Print Assumptions C50_error_partial.

(** C50: so the gradients are the derivatives if the root depends on every mean below it with
    derivative 1. *)
Theorem C50_unit_partial : forall ops H T h t, program ops H T h -> may_start h H T t ->
  (forall m, mean_below h t m -> derivative_at h t m [] 1%Qc) ->
  exists h', exec (OBackward (Some t)) h = (Ok RUnit, h') /\
    forall a i, below h t a -> ~ is_node h a -> tracked h a -> in_range (shape_of h a) i ->
      exists q, derivative h t a i q /\ (forall q', derivative h t a i q' -> q' = q) /\
        grad_value h' a i = (grad_value h a i + q)%Qc.
Proof. exact program_mean_unit. Qed.
Print Assumptions C50_unit_partial.

(** x = (1, 2, -3), the root mean(x) + mean(x * x): the gradients are right *)
Example C50_unit_example :
  program mn_5 mn_held none (xafter mn_5) /\ may_start (xafter mn_5) mn_held none 4 /\
  means (xafter mn_5) 4 [3; 2]%nat /\
  (forall m, mean_below (xafter mn_5) 4 m -> derivative_at (xafter mn_5) 4 m [] 1%Qc) /\
  below (xafter mn_5) 4 0 /\ ~ is_node (xafter mn_5) 0 /\ tracked (xafter mn_5) 0 /\
  grads (xafter (mn_5 ++ [OBackward (#4)])) 0 = [(1, 1); (5, 3); (-5, 3)].
Proof.
  split; [exact mn_5_ok|]. split; [exact mn_start_4|]. split; [exact mn_means_4|]. split; [exact mn_unit|].
  split; [apply (below_path _ _ [2; 0]%nat); vm|]. split; [apply not_node; vm|]. split; [apply leaf_tracked; vm|]. vm.
Qed.
(** the root mean(x) * mean(x * x), with mean(x) = 0 and mean(x * x) = 14/3: the derivatives are
    14/9, but the gradients are the same as for the sum *)
Example C50_error_example :
  program mn_5 mn_held none (xafter mn_5) /\ may_start (xafter mn_5) mn_held none 5 /\
  means (xafter mn_5) 5 [3; 2]%nat /\
  derivative_at (xafter mn_5) 5 2 [] (q 14 / q 3)%Qc /\ derivative_at (xafter mn_5) 5 3 [] 0%Qc /\
  (forall i, i ∈ [[0]; [1]; [2]] -> derivative (xafter mn_5) 5 0 i (q 14 / q 9)%Qc) /\
  grads (xafter (mn_5 ++ [OBackward (#5)])) 0 = [(1, 1); (5, 3); (-5, 3)].
Proof.
  split; [exact mn_5_ok|]. split; [exact mn_start_5|]. split; [exact mn_means_5|]. split; [apply mn_ups|]. split; [apply mn_ups|].
  split; [exact mn_true|]. vm.
Qed.
