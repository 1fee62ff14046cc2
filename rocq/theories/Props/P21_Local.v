(** What backward() leaves at leaves that only one quotient, maximum or minimum uses, in exact
    arithmetic. The quotients are those between tracked operands whose denominator is not
    broadcast; for the others see C51_refuted. *)
From Verif.Proofs Require Import Local LocalEx.
From Verif.Model Require Import Exact Api.
#[local] Existing Instance Exact.

(** C51: the numerator [a] of x = a / b. If [g] are the derivatives of the root by x, then every
    element of the gradient of [a] grows by the sum of g / b over the positions it is broadcast
    to.
    Partial: constants and broadcast denominators are excluded. *)
Theorem C51_numerator_partial : forall ops H T h t x f a b, program ops H T h -> may_backward h H T t -> below h t x ->
  fn_of h x = Some f -> gf_kind f = DivBack -> gf_in f = [a; b] -> a <> b -> ~ is_node h a ->
  (forall y, below h t y -> a ∈ inputs h y -> y = x) ->
  exists h', exec (OBackward (Some t)) h = (Ok RUnit, h') /\
    (forall j, exists g, derivative_at h t x j g /\ forall g', derivative_at h t x j g' -> g' = g) /\
    forall i (g : list Z -> Qc), in_range (shape_of h a) i -> (forall j, in_range (shape_of h x) j -> derivative_at h t x j (g j)) ->
      grad_value h' a i = (grad_value h a i + sum_over (shape_of h x) (fun j => if decide (bidx (shape_of h a) j = i) then g j / value h b j else 0))%Qc.
Proof. exact numerator_grad. Qed.
Print Assumptions C51_numerator_partial.

(** C51: the gradient of the denominator [b] shrinks by g * (a / b) / b. *)
Theorem C51_denominator_partial : forall ops H T h t x f a b, program ops H T h -> may_backward h H T t -> below h t x ->
  fn_of h x = Some f -> gf_kind f = DivBack -> gf_in f = [a; b] -> a <> b -> ~ is_node h b ->
  (forall y, below h t y -> b ∈ inputs h y -> y = x) ->
  exists h', exec (OBackward (Some t)) h = (Ok RUnit, h') /\
    (forall j, exists g, derivative_at h t x j g /\ forall g', derivative_at h t x j g' -> g' = g) /\
    forall i g, in_range (shape_of h b) i -> derivative_at h t x i g ->
      grad_value h' b i = (grad_value h b i - g * (value h a (bidx (shape_of h a) i) / value h b i) / value h b i)%Qc.
Proof. exact denominator_grad. Qed.
Print Assumptions C51_denominator_partial.

(** sum((a / b) * c) for a = (6), b = (2, 3), c = (5, -1): a gets 5/2 - 1/3, and b gets
    - 5 * 3 / 2 and 2 / 3 *)
Example C51_parts_example :
  program lc_5 lc_held none (xafter lc_5) /\ may_backward (xafter lc_5) lc_held none 5 /\ below (xafter lc_5) 5 3 /\
  (exists f, fn_of (xafter lc_5) 3 = Some f /\ gf_kind f = DivBack /\ gf_in f = [0; 1]%nat) /\
  ~ is_node (xafter lc_5) 0 /\ ~ is_node (xafter lc_5) 1 /\
  (forall a, a = 0%nat \/ a = 1%nat -> forall y, below (xafter lc_5) 5 y -> a ∈ inputs (xafter lc_5) y -> y = 3%nat) /\
  derivative_at (xafter lc_5) 5 3 [0] (q 5) /\ derivative_at (xafter lc_5) 5 3 [1] (q (-1)) /\
  grads (xafter (lc_5 ++ [OBackward (#5)])) 0 = [(13, 6)] /\
  grads (xafter (lc_5 ++ [OBackward (#5)])) 1 = [(-15, 2); (2, 3)].
Proof.
  split; [exact lc_5_ok|]. split; [exact lc_may|]. split; [apply lc_div|]. split; [apply lc_div|]. split; [apply not_node; vm|]. split; [apply not_node; vm|].
  split; [exact lc_sole|]. split; [apply lc_slope|]. split; [apply lc_slope|]. split; vm.
Qed.

(** C52: x = max(a) or x = min(a) has the value of an extremal element [best] of [a], and the
    gradient of [a] grows by the derivative of the root by x there and by nothing elsewhere; a
    node whose shape differs from its operand's is one of max or min, not of abs.
    Partial: max and min that throw (C52_refuted) are no nodes. *)
Theorem C52_gradient_partial : forall ops H T h t x f kg a, program ops H T h -> may_backward h H T t -> below h t x ->
  fn_of h x = Some f -> gf_kind f = KnownGradBack kg -> gf_in f = [a] -> shape_of h x <> shape_of h a -> ~ is_node h a -> tracked h a ->
  (forall y, below h t y -> a ∈ inputs h y -> y = x) ->
  exists h' g best, exec (OBackward (Some t)) h = (Ok RUnit, h') /\ shape_of h x = [] /\
    derivative_at h t x [] g /\ (forall g', derivative_at h t x [] g' -> g' = g) /\
    in_range (shape_of h a) best /\ value h x [] = value h a best /\
    ((forall i, in_range (shape_of h a) i -> (value h a i <= value h a best)%Qc) \/ (forall i, in_range (shape_of h a) i -> (value h a best <= value h a i)%Qc)) /\
    forall i, in_range (shape_of h a) i -> grad_value h' a i = (grad_value h a i + if decide (i = best) then g else 0)%Qc.
Proof. exact extremum_grad. Qed.
Print Assumptions C52_gradient_partial.

(** max(x) * (-7) for x = (1, 2, -3) *)
Example C52_gradient_example :
  program lm_4 lm_held none (xafter lm_4) /\ may_backward (xafter lm_4) lm_held none 4 /\ below (xafter lm_4) 4 1 /\
  (exists f, fn_of (xafter lm_4) 1 = Some f /\ gf_kind f = KnownGradBack 2 /\ gf_in f = [0]%nat) /\
  shape_of (xafter lm_4) 1 <> shape_of (xafter lm_4) 0 /\ ~ is_node (xafter lm_4) 0 /\ tracked (xafter lm_4) 0 /\
  (forall y, below (xafter lm_4) 4 y -> 0%nat ∈ inputs (xafter lm_4) y -> y = 1%nat) /\
  grads (xafter (lm_4 ++ [OBackward (#4)])) 0 = [(0, 1); (-7, 1); (0, 1)].
Proof.
  split; [exact lm_4_ok|]. split; [exact lm_may|]. split; [apply lm_max|]. split; [apply lm_max|]. split; [exact lm_shapes|].
  split; [apply not_node; vm|]. split; [apply leaf_tracked; vm|]. split; [exact lm_sole|]. vm.
Qed.
