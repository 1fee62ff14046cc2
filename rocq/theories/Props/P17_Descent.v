(** Gradient descent, in exact arithmetic, for the programs of Spec/Program.v: backward() from
    a root, then for each parameter the calls of [update], which add rate * gradient to its
    data and clear the gradient. *)
From Verif.Proofs Require Import StepEx.
#[local] Existing Instance Exact.

(** C60: the calls of one step succeed. Every element of every parameter has moved by the rate
    times the derivative of the root (plus what its gradient held before), its gradient is 0,
    tensors on other buffers keep their elements, and every leaf keeps its shape, type, buffer
    and tracking, so that the program can compute from the new values and take a next step. *)
Theorem C60_step : forall ops H T h t c ls (H' : list nat),
  program ops H T h -> may_backward h H T t -> NoDup ls ->
  (forall x, x ∈ H' -> x ∈ H /\ ~ is_node h x) ->
  (forall a, a ∈ ls -> may_update h H' c a /\ below h t a /\ apart h c a /\ forall b, b ∈ ls -> b <> a -> apart h b a) ->
  exists h1 l h', exec (OBackward (Some t)) h = (Ok RUnit, h1) /\ updated c h1 ls l h' /\
    program (ops ++ OBackward (Some t) :: l) H' none h' /\
    (forall a i, a ∈ ls -> in_range (shape_of h a) i ->
      exists q, derivative h t a i q /\ (forall q', derivative h t a i q' -> q' = q) /\
        value h' a i = (value h a i + (grad_value h a i + q) * value h c (bidx (shape_of h c) i))%Qc /\
        grad_value h' a i = 0%Qc) /\
    (forall b i, b ∈ H' -> (forall a, a ∈ ls -> apart h b a) -> value h' b i = value h b i) /\
    (forall x r, x ∈ H' -> h_ten h !! x = Some r ->
      exists r', h_ten h' !! x = Some r' /\ same_data r r' /\ t_rg r' = t_rg r /\ ~ is_node h' x).
Proof. exact descend. Qed.
Print Assumptions C60_step.
(** sum(w * w * v) at w = (1, 2, -3), v = (2, 0, 1) with the rate -1/2: the derivatives 2wv and
    w w are (4, 0, -6) and (1, 4, 9) *)
Example C60_step_example :
  program tr_5 tr_held none (xafter tr_5) /\ may_backward (xafter tr_5) tr_held none 5 /\
  NoDup [0; 1]%nat /\ (forall x, x ∈ tr_leaves -> x ∈ tr_held /\ ~ is_node (xafter tr_5) x) /\
  (forall a, a ∈ [0; 1]%nat -> may_update (xafter tr_5) tr_leaves 2 a /\ below (xafter tr_5) 5 a /\ apart (xafter tr_5) 2 a /\
    forall b, b ∈ [0; 1]%nat -> b <> a -> apart (xafter tr_5) b a) /\
  (values (xafter tr_5) 0, values (xafter tr_5) 1, values (xafter tr_5) 2) =
    ([(1, 1); (2, 1); (-3, 1)], [(2, 1); (0, 1); (1, 1)], [(-1, 2)]) /\
  (grads (xafter (tr_5 ++ [OBackward (#5)])) 0, grads (xafter (tr_5 ++ [OBackward (#5)])) 1) =
    ([(4, 1); (0, 1); (-6, 1)], [(1, 1); (4, 1); (9, 1)]) /\
  (values (xafter tr_step) 0, values (xafter tr_step) 1, values (xafter tr_step) 2) =
    ([(-1, 1); (2, 1); (0, 1)], [(3, 2); (-2, 1); (-7, 2)], [(-1, 2)]) /\
  (grads (xafter tr_step) 0, grads (xafter tr_step) 1) = ([(0, 1); (0, 1); (0, 1)], [(0, 1); (0, 1); (0, 1)]).
Proof.
  split; [exact tr_5_ok|]. split; [exact tr_may|]. split; [exact tr_nodup|]. split; [exact tr_leaves_ok|]. split; [exact tr_update_ok|]. exact tr_step_values.
Qed.

(** C60: the update of one parameter, whatever its gradient: the elements grow by rate *
    gradient, the gradient becomes 0, and neither the data nor the gradient of another leaf
    changes. *)
Theorem C60_update : forall ops H T h c a (H' : list nat),
  program ops H T h -> may_update h H c a -> has_gradient h a ->
  (forall x, x ∈ H' -> x ∈ H /\ ~ is_node h x) -> a ∈ H' ->
  exists g s d h', nudged c a h g s d h' /\ program (ops ++ update a c g s d) H' none h' /\
    (forall i, in_range (shape_of h a) i ->
      value h' a i = (value h a i + grad_value h a i * value h c (bidx (shape_of h c) i))%Qc) /\
    (forall i, grad_value h' a i = 0%Qc) /\
    (forall x r, h_ten h !! x = Some r -> h_ten h' !! x = Some r) /\
    (forall b i, b ∈ H' -> apart h b a -> value h' b i = value h b i) /\
    forall b, b ∈ H' -> b <> a ->
      (forall i, grad_value h' b i = grad_value h b i) /\ (has_gradient h b -> has_gradient h' b).
Proof. exact update_runs. Qed.
Print Assumptions C60_update.
(** the first parameter after backward() *)
Example C60_update_example :
  program tr_6 tr_held tr_passed (xafter tr_6) /\ may_update (xafter tr_6) tr_held 2 0 /\ has_gradient (xafter tr_6) 0 /\
  (forall x, x ∈ tr_leaves -> x ∈ tr_held /\ ~ is_node (xafter tr_6) x) /\ 0%nat ∈ tr_leaves /\
  values (xafter (tr_6 ++ update 0 2 13 14 15)) 0 = [(-1, 1); (2, 1); (0, 1)] /\
  values (xafter (tr_6 ++ update 0 2 13 14 15)) 1 = [(2, 1); (0, 1); (1, 1)] /\
  grads (xafter (tr_6 ++ update 0 2 13 14 15)) 0 = [(0, 1); (0, 1); (0, 1)] /\
  grads (xafter (tr_6 ++ update 0 2 13 14 15)) 1 = [(1, 1); (4, 1); (9, 1)].
Proof.
  split; [exact tr_6_ok|]. split; [exact tr_6_update|]. split; [exact tr_6_grad|]. split; [exact tr_6_leaves|]. split; [mem|]. split_and!; vm.
Qed.
