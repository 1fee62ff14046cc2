(** What the leaves get when requires_grad(false) has been called on intermediates, or earlier
    passes have gone through them, in exact arithmetic. *)
From Verif.Proofs Require Import Cut3 CutEx AgainEx.
From Verif.Model Require Import Exact Api.
#[local] Existing Instance Exact.

(** C53: in a program of Spec/Program.v, call requires_grad(false) on any of the tensors it holds
    except the root [t], then backward() from [t]. It succeeds, and the gradient of every leaf
    below [t] that is still tracked grows by the derivative of [t] with those nodes held fast
    that have a cut on some way up to the root ([derivative_open]); it exists and is unique.
    Partial: full C53 asks for the derivative with only the cut tensors held fast, which is false
    (C53_refuted); a view of a tensor that has been cut, and a quotient with an operand that has
    been cut (C51), are excluded by [cut_fits]. *)
Theorem C53_values_partial : forall ops H T h t ys, program ops H T h -> may_backward h H T t ->
  (forall y, y ∈ ys -> y ∈ H /\ y <> t) ->
  exists rs h1, run h (cuts ys) = (Ok rs, h1) /\ cut_heap h ys h1 /\ (cut_fits h1 t ->
    exists h', exec (OBackward (Some t)) h1 = (Ok RUnit, h') /\
      forall a i, below h1 t a -> ~ is_node h1 a -> tracked h1 a -> in_range (shape_of h1 a) i ->
        exists q, derivative_open h1 t a i q /\ (forall q', derivative_open h1 t a i q' -> q' = q) /\
          grad_value h' a i = (grad_value h1 a i + q)%Qc).
Proof. exact program_cut. Qed.
Print Assumptions C53_values_partial.

(** x = (1, 2, -3), y = x * x, w = reversed x / |x| = (-3, 1, 1/3), sum(y * w + y): with w cut,
    x gets 2 x (w + 1) *)
Example C53_values_example :
  program ex_10 [10; 9; 8; 7; 5; 2; 1; 0]%nat none (xafter ex_10) /\
  may_backward (xafter ex_10) [10; 9; 8; 7; 5; 2; 1; 0]%nat none 10 /\
  run (xafter ex_10) (cuts [7%nat]) = (Ok [Ok RUnit], xafter cx_ops) /\ cut_fits (xafter cx_ops) 10 /\
  below (xafter cx_ops) 10 0 /\ ~ open (xafter cx_ops) 10 7 /\
  grads (xafter (cx_ops ++ [OBackward (#10)])) 0 = [(-4, 1); (8, 1); (-8, 1)].
Proof.
  split; [exact ex_10_ok|]. split; [exact ex_may|]. split; [exact cx_run|]. split; [exact cx_fits|].
  split; [apply (below_path _ _ [9; 1; 0]%nat); vm|]. split; [exact cx_closed|]. vm.
Qed.

(** C48: backward() from [t] when earlier passes have gone through some of the intermediates
    below it. If each intermediate was never passed or has been counted often enough that its
    counter is not met again ([settled], Spec/Stale.v), the call succeeds, and the gradient of
    every tracked leaf below [t] grows by the derivative of [t] with those nodes held fast that
    have a passed intermediate on some way up to the root; it exists and is unique.
    Partial: full C48 asks for the derivative itself, which is false (C48_refuted). Passed
    intermediates must not have a gradient, and no view may look at one ([may_again]). *)
Theorem C48_values_partial : forall ops H T h t, program ops H T h -> may_again h H T t -> settled h t ->
  exists h', exec (OBackward (Some t)) h = (Ok RUnit, h') /\
    forall a i, below h t a -> ~ is_node h a -> tracked h a -> in_range (shape_of h a) i ->
      exists q, derivative_open h t a i q /\ (forall q', derivative_open h t a i q' -> q' = q) /\
        grad_value h' a i = (grad_value h a i + q)%Qc.
Proof. exact program_stale. Qed.
Print Assumptions C48_values_partial.

(** x = (1, 2, -3), y = x * x, sum(y).backward(), which gives x the gradient 2 x; then
    sum(x * y + x).backward() adds y + 1, not 3 y + 1 *)
Example C48_values_example :
  program ax_11 ax_held ax_passed (xafter ax_11) /\ may_again (xafter ax_11) ax_held ax_passed 11 /\
  settled (xafter ax_11) 11 /\ below (xafter ax_11) 11 1 /\ ~ unpassed (xafter ax_11) 1 /\ below (xafter ax_11) 11 0 /\
  grads (xafter ax_11) 0 = [(2, 1); (4, 1); (-6, 1)] /\
  grads (xafter (ax_11 ++ [OBackward (#11)])) 0 = [(4, 1); (9, 1); (4, 1)].
Proof.
  split; [exact ax_ok|]. split; [exact ax_may|]. split; [exact ax_settled|].
  split; [apply (below_path _ _ [10; 9; 1]%nat); vm|]. split; [exact ax_unpassed|].
  split; [apply (below_path _ _ [10; 0]%nat); vm|]. split; vm.
Qed.
