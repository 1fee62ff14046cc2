(** The gradients that backward() computes, in exact arithmetic. The programs are those of
    Spec/Program.v. Full C45 asks for all graphs; it is false for quotients that are tracked in
    one operand only or have a broadcast denominator (C51), for a mean below the root (C50),
    for second passes over a node (C48) and for roots that are views (C49), and these are what
    [may_call] and [may_backward] leave out. *)
From Verif.Proofs Require Import ProgEx Prog10.
#[local] Existing Instance Exact.

(** C45: backward() succeeds and adds to every element of the gradient of every tracked leaf
    the derivative of the root with respect to that element: the rules of calculus determine
    exactly one. *)
Theorem C45_gradient_partial : forall ops H T h t,
  program ops H T h -> may_backward h H T t ->
  exists h', exec (OBackward (Some t)) h = (Ok RUnit, h') /\
    program (ops ++ [OBackward (Some t)]) H (fun x => T x \/ below h t x /\ is_node h x) h' /\
    forall a i, below h t a -> ~ is_node h a -> tracked h a -> in_range (shape_of h a) i ->
      exists q, derivative h t a i q /\ (forall q', derivative h t a i q' -> q' = q) /\
        grad_value h' a i = (grad_value h a i + q)%Qc.
Proof. exact program_backward. Qed.
Print Assumptions C45_gradient_partial.

(** C45: that number is the limit of the difference quotients of the computation. The values
    with the element moved by [s] exist (and are the stored ones for s = 0); the root's value,
    as a function of [s], has the slope that was added. *)
Theorem C45_limit_partial : forall ops H T h t,
  program ops H T h -> may_backward h H T t -> regular h t ->
  exists h', exec (OBackward (Some t)) h = (Ok RUnit, h') /\
    forall a i, below h t a -> ~ is_node h a -> tracked h a -> in_range (shape_of h a) i ->
      (exists v, forall s, perturbed h t a i s (v s)) /\
      forall v, (forall s, perturbed h t a i s (v s)) ->
        v 0%Qc t (first_index h t) = value h t (first_index h t) /\
        slope (fun s => v s t (first_index h t)) (grad_value h' a i - grad_value h a i)%Qc.
Proof. exact program_slope. Qed.
Print Assumptions C45_limit_partial.
(** A function has at most one slope. *)
Theorem C45_slope_unique : forall f q q', slope f q -> slope f q' -> q = q'.
Proof. exact slope_unique. Qed.
Print Assumptions C45_slope_unique.

(** C45: for every direction. [d] gives each leaf an arbitrary rate of change; then the inner
    product of the gradients with it grows by the root's rate of change. *)
Theorem C45_direction_partial : forall ops H T h t,
  program ops H T h -> may_backward h H T t ->
  exists h', exec (OBackward (Some t)) h = (Ok RUnit, h') /\
    (forall e : tangent, exists d, obeys h t d /\ forall x idx, ~ is_node h x -> tracked h x -> d x idx = e x idx) /\
    (exists ls, leaves h t ls) /\
    forall d ls, obeys h t d -> leaves h t ls ->
      pairing h' ls d = (pairing h ls d + sum_over (shape_of h t) (d t))%Qc.
Proof. exact program_direction. Qed.
Print Assumptions C45_direction_partial.

(** C45: a leaf the root does not depend on keeps its gradient. *)
Theorem C45_others_partial : forall ops H T h t h' a i,
  program ops H T h -> may_backward h H T t -> exec (OBackward (Some t)) h = (Ok RUnit, h') ->
  a ∈ H -> ~ is_node h a -> ~ below h t a -> grad_value h' a i = grad_value h a i.
Proof. exact program_other. Qed.
Print Assumptions C45_others_partial.

(** x = (1, 2, -3); with v = x reversed, the root is sum(x*x * (v / abs(x)) + x*x), that is
    |x0| x2 + |x1| x1 + |x2| x0 + x0^2 + x1^2 + x2^2 *)
Example C45_example :
  program ex_10 ex_below none (xafter ex_10) /\ may_backward (xafter ex_10) ex_below none 10 /\
  regular (xafter ex_10) 10 /\
  below (xafter ex_10) 10 0 /\ ~ is_node (xafter ex_10) 0 /\ tracked (xafter ex_10) 0 /\
  shape_of (xafter ex_10) 0 = [3] /\
  map (inputs (xafter ex_10)) ex_below = [[9]; [8; 1]; [1; 7]; [2; 5]; [0]; [0]; [0; 0]; []]%nat /\
  grads (xafter (ex_10 ++ [OBackward (#10)])) 0 = [(2, 1); (8, 1); (-6, 1)].
Proof.
  split; [exact ex_10_ok|]. split; [exact ex_may|]. split; [exact ex_regular|].
  split; [apply (below_path _ _ [9; 1; 0]%nat); vm|]. split; [apply not_node; vm|]. split; [apply leaf_tracked; vm|].
  split_and!; vm.
Qed.
(** the root max(x) * min(x), that is x1 x2 *)
Example C45_extrema_example :
  program ex_ext ex_ext_held none (xafter ex_ext) /\ may_backward (xafter ex_ext) ex_ext_held none 5 /\
  regular (xafter ex_ext) 5 /\
  map (inputs (xafter ex_ext)) ex_ext_held = [[1; 3]; [0]; [0]; []]%nat /\
  grads (xafter (ex_ext ++ [OBackward (#5)])) 0 = [(0, 1); (-3, 1); (2, 1)].
Proof.
  destruct ex_ext_ok as (H1 & H2 & H3). split; [done|]. split; [done|]. split; [done|]. split_and!; vm.
Qed.
(** a leaf that the root sum(x * x) does not depend on *)
Example C45_others_example :
  program ex_other ex_other_held none (xafter ex_other) /\ may_backward (xafter ex_other) ex_other_held none 12 /\
  14%nat ∈ ex_other_held /\ ~ is_node (xafter ex_other) 14 /\ ~ below (xafter ex_other) 12 14 /\ tracked (xafter ex_other) 14.
Proof. exact ex_other_ok. Qed.

(** C46: passes over graphs that share no node, except perhaps the second root, add up: every
    tracked leaf's gradient grows by the derivatives of both roots. *)
Theorem C46_accumulate_partial : forall ops H T h t u,
  program ops H T h -> may_backward h H T t -> may_backward h H T u ->
  (forall x, below h t x -> below h u x -> x <> u -> ~ is_node h x) ->
  exists h1 h2, exec (OBackward (Some t)) h = (Ok RUnit, h1) /\ exec (OBackward (Some u)) h1 = (Ok RUnit, h2) /\
  forall a i, a ∈ H -> tracked h a -> ~ is_node h a -> in_range (shape_of h a) i ->
    exists p q, (below h t a /\ derivative h t a i p \/ ~ below h t a /\ p = 0%Qc) /\
      (below h u a /\ derivative h u a i q \/ ~ below h u a /\ q = 0%Qc) /\
      grad_value h2 a i = (grad_value h a i + p + q)%Qc.
Proof. exact program_twice. Qed.
Print Assumptions C46_accumulate_partial.
(** the root above and sum(x * x), which share the leaf x *)
Example C46_accumulate_example :
  program ex_12 ex_held none (xafter ex_12) /\ may_backward (xafter ex_12) ex_held none 10 /\
  may_backward (xafter ex_12) ex_held none 12 /\
  (forall x, below (xafter ex_12) 10 x -> below (xafter ex_12) 12 x -> ~ is_node (xafter ex_12) x) /\
  below (xafter ex_12) 10 0 /\ below (xafter ex_12) 12 0 /\
  grads (xafter (ex_12 ++ [OBackward (#12)])) 0 = [(2, 1); (4, 1); (-6, 1)] /\
  grads (xafter (ex_12 ++ [OBackward (#10); OBackward (#12)])) 0 = [(4, 1); (12, 1); (-12, 1)].
Proof.
  split; [exact ex_12_ok|]. split; [exact ex_may_10|]. split; [exact ex_may_12|]. split; [exact ex_separate|].
  split; [apply (below_path _ _ [9; 1; 0]%nat); vm|]. split; [apply (below_path _ _ [11; 0]%nat); vm|]. split_and!; vm.
Qed.

(** C46: zero_grad() on a leaf sets its gradient to 0 and changes neither the gradient of
    another leaf nor the data of any tensor. *)
Theorem C46_clear_partial : forall ops H T h a r h',
  program ops H T h -> at_hand h H a r -> ~ is_node h a -> exec (OZeroGrad (Some a)) h = (Ok RUnit, h') ->
  (forall i, grad_value h' a i = 0%Qc) /\
  (forall b j, b ∈ H -> ~ is_node h b -> b <> a -> grad_value h' b j = grad_value h b j) /\
  (forall b j, b ∈ H -> value h' b j = value h b j).
Proof. exact program_zero. Qed.
Print Assumptions C46_clear_partial.
Example C46_clear_example :
  let ops := ex_10 ++ [OBackward (#10)] in
  program ops ex_below ex_passed (xafter ops) /\ at_hand (xafter ops) ex_below 0 (xrec (xafter ops) 0) /\
  ~ is_node (xafter ops) 0 /\ (exec (OZeroGrad (#0)) (xafter ops)).1 = Ok RUnit /\
  grads (xafter ops) 0 = [(2, 1); (8, 1); (-6, 1)] /\
  grads (xafter (ops ++ [OZeroGrad (#0)])) 0 = [(0, 1); (0, 1); (0, 1)].
Proof.
  cbv zeta. split; [exact ex_passed_ok|]. split; [hand|]. split; [apply not_node; vm|]. split_and!; vm.
Qed.
