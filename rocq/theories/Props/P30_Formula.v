(** Whole programs: a formula over tensors, its sum and backward(), in exact arithmetic. *)
From Verif.Proofs Require Import Formula FormulaEx.
From Verif.Model Require Import Exact Api.
#[local] Existing Instance Exact.

(** C69: in a program of Spec/Program.v, write any formula of +, -, * and / over floating-point
    leaves whose shapes broadcast (quotients: C51), at least one of them tracked. Computing it,
    its sum() and backward() all succeed. The sum has the value of the formula summed over all
    positions, and the gradient of every tracked leaf element grows by the partial derivatives of
    the formula at the positions that this element is broadcast to. *)
Theorem C69_formula : forall ops H T h e, program ops H T h -> may_write h H e -> moving h e ->
  exists l x h1 t h2 h3, written h e l x h1 /\ exec (OSum (Some x)) h1 = (Ok (RHandle (Some t)), h2) /\
    value h2 t [] = sum_over (form h e) (fun idx => eval (Spec.Formula.reads h idx) e) /\
    exec (OBackward (Some t)) h2 = (Ok RUnit, h3) /\
    (exists H' T', program (ops ++ l ++ [OSum (Some x); OBackward (Some t)]) H' T' h3 /\ forall a, a ∈ H -> a ∈ H') /\
    forall a i, a ∈ H -> ~ is_node h a -> tracked h a -> in_range (shape_of h a) i ->
      grad_value h3 a i = (grad_value h a i + sum_over (form h e) (fun idx =>
        if decide (bidx (shape_of h a) idx = i) then rate (Spec.Formula.reads h idx) a e else 0))%Qc.
Proof. exact formula_gradient. Qed.
Print Assumptions C69_formula.

(** the first program of docs/quickstart.rst: c = (a - b) * (a * a - a * b + b * b) with a = b,
    so the gradient of sum(c) by a is a * a *)
Example C69_formula_example :
  program qs [1; 0]%nat none (xafter qs) /\ may_write (xafter qs) [1; 0]%nat qs_c /\ moving (xafter qs) qs_c /\
  grads (xafter (qs ++ qs_calls ++ [OSum (#8); OBackward (#9)])) 0 = [(1, 1); (4, 1); (9, 1); (16, 1); (25, 1); (36, 1)].
Proof.
  split; [exact qs_ok|]. split; [exact qs_may|]. split; [|vm].
  exists 0%nat. split; [left; left; reflexivity|]. exists (xrec (xafter qs) 0). split; vm.
Qed.
(** weights of shape [3] and a bias of shape [] broadcast to [2; 3] *)
Example C69_broadcast_example :
  program lm [2; 1; 0]%nat none (xafter lm) /\ may_write (xafter lm) [2; 1; 0]%nat lm_c /\ moving (xafter lm) lm_c /\
  form (xafter lm) lm_c = [2; 3] /\
  grads (xafter (lm ++ lm_calls ++ [OSum (#7); OBackward (#8)])) 1 = [(3, 1); (13, 2); (79, 9)] /\
  grads (xafter (lm ++ lm_calls ++ [OSum (#7); OBackward (#8)])) 2 = [(7, 3)].
Proof.
  split; [exact lm_ok|]. split; [exact lm_may|]. split; [|split; [vm|split; vm]].
  apply lm_w_moves. left. right. reflexivity.
Qed.

(** C69: the partial derivatives are limits of difference quotients wherever no denominator is 0. *)
Theorem C69_rate : forall v a e, divides v e ->
  slope (fun s => eval (fun b => (v b + if decide (b = a) then s else 0)%Qc) e) (rate v a e).
Proof. exact rate_slope. Qed.
Print Assumptions C69_rate.
Example C69_rate_example : divides (Spec.Formula.reads (xafter lm) [0; 2]) lm_c /\ mentions lm_c 1.
Proof. split; [exact lm_divides|]. left. right. reflexivity. Qed.
