(** Property C76. *)
From Verif.Proofs Require Import ExprGradEx.
From Verif.Spec Require Import ExprGrad Program.
From Verif.Model Require Import Exact Api.
#[local] Existing Instance Exact.

(** C76: backward() on the tensor that an expression computes differentiates the array that the
    expression denotes. A program evaluates an expression over tensors it holds, and calls
    backward() on the result, which has one element. Then the evaluation yields the array denoted,
    backward() succeeds, and to each element of the gradient of each tracked leaf it adds the slope
    of the denotation as a function of that element of the leaf; leaves that do not occur get 0.
    The graph does not appear in the statement. *)
Theorem C76_gradient : forall ops H T (h : heap) env e A,
  program ops H T h -> leaves_ok h env -> leaves_held h H env -> accepted env e -> smooth_root env e ->
  den env e = Some A -> a_rg A = true -> size_prod (a_ss A) = 1 ->
  exists l t h1 h2 H', eval e h = (Ok t, h1) /\ has_arr h1 t A /\ exec (OBackward (Some t)) h1 = (Ok RUnit, h2) /\
    (forall a, a ∈ H -> a ∈ H') /\
    program (ops ++ l ++ [OBackward (Some t)]) H' (fun x => T x \/ below h1 t x /\ is_node h1 x) h2 /\
    forall a B i, env a = Some B -> a_rg B = true -> in_range (a_ss B) i ->
      slope (fun s => first_elem (den (nudge env a i s) e)) (grad_value h2 a i - grad_value h a i)%Qc.
Proof. exact expr_gradient. Qed.
Print Assumptions C76_gradient.
(** the mean of x * x + x["::-1"] / x at x = (1, 2, -3), and the gradient it leaves at x *)
Example C76_example :
  program ex_leaf [0%nat] none (xafter ex_leaf) /\ leaves_ok (xafter ex_leaf) genv /\
  leaves_held (xafter ex_leaf) [0%nat] genv /\ accepted genv gex /\ smooth_root genv gex /\
  option_map sig (den genv gex) = Some (F64, [], true) /\
  g_result = (7%nat, [(14, 9); (4, 3); (-46, 27)]).
Proof.
  split; [exact ex_leaf_ok|]. split; [exact g_leaves|]. split; [exact g_held|]. split; [exact g_accepted|]. split; [exact g_smooth|].
  split; [vm|exact g_result_ok].
Qed.
