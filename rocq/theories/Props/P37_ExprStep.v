(** Property C77. *)
From Verif.Proofs Require Import ExprStepEx.
From Verif.Spec Require Import ExprStep Program.
From Verif.Model Require Import Exact Api.
#[local] Existing Instance Exact.

(** C77: one step of gradient descent on an expression. A program that holds leaves only evaluates
    the expression, calls backward() on the result, which has one element, and for each parameter
    adds rate * gradient to the data and clears the gradient. All of these calls succeed, the
    leaves hold arrays again, and each element of a parameter has moved by the rate times the slope
    of the array denoted as a function of that element. The program can go on from there. *)
Theorem C77_step : forall ops H T (h : heap) env e A c C ls,
  program ops H T h -> (forall x, x ∈ H -> ~ is_node h x) -> leaves_ok h env -> leaves_held h H env ->
  accepted env e -> smooth_root env e -> den env e = Some A -> a_rg A = true -> size_prod (a_ss A) = 1 ->
  env c = Some C -> may_step h H env e c ls -> no_gradients h ls ->
  exists l t h1 h2 u h3 env', eval e h = (Ok t, h1) /\ has_arr h1 t A /\ exec (OBackward (Some t)) h1 = (Ok RUnit, h2) /\
    updated c h2 ls u h3 /\ program (ops ++ l ++ OBackward (Some t) :: u) H none h3 /\
    (forall x, x ∈ H -> ~ is_node h3 x) /\ descends env e C ls env' /\ leaves_ok h3 env' /\ leaves_held h3 H env' /\
    may_step h3 H env' e c ls /\ no_gradients h3 ls.
Proof. exact expr_step. Qed.
Print Assumptions C77_step.
(** the sum of w * w * v at w = (1, 2, -3) and v = (2, 0, 1), with the rate -1/2 *)
Example C77_step_example :
  program tr_rv th_leaves none (xafter tr_rv) /\ (forall x, x ∈ th_leaves -> ~ is_node (xafter tr_rv) x) /\
  leaves_ok (xafter tr_rv) tenv /\ leaves_held (xafter tr_rv) th_leaves tenv /\ accepted tenv te /\ smooth_root tenv te /\
  option_map sig (den tenv te) = Some (F64, [], true) /\ option_map sig (tenv 2%nat) = Some (F64, [], false) /\
  may_step (xafter tr_rv) th_leaves tenv te 2 [0; 1]%nat /\ no_gradients (xafter tr_rv) [0; 1]%nat /\
  (te_1.1, values te_1.2 0, values te_1.2 1) = ([(11, 1)], [(-1, 1); (2, 1); (0, 1)], [(3, 2); (-2, 1); (-7, 2)]).
Proof.
  split; [exact tr_rv_ok|]. split; [exact te_not_node|]. split; [exact te_leaves|]. split; [exact te_held|]. split; [exact te_accepted|].
  split; [apply te_smooth|]. split; [vm|]. split; [vm|]. split; [exact te_may|]. split; [exact te_zero|apply te_values].
Qed.

(** C77: any number of rounds can be run, as long as the expression stays defined and smooth along
    gradient descent. Each round yields the array denoted at that point of the descent, and at the
    end the leaves hold the arrays it leads to. *)
Theorem C77_rounds : forall n ops H (h : heap) env e A c C ls,
  program ops H none h -> (forall x, x ∈ H -> ~ is_node h x) -> leaves_ok h env -> leaves_held h H env ->
  accepted env e -> den env e = Some A -> a_rg A = true -> size_prod (a_ss A) = 1 ->
  env c = Some C -> may_step h H env e c ls -> no_gradients h ls ->
  (forall As env', descents e c ls env As env' -> (length As < n)%nat -> smooth_root env' e /\ den env' e <> None) ->
  exists As l env' h', length As = n /\ descents e c ls env As env' /\ descended e c ls h As l h' /\
    program (ops ++ l) H none h' /\ leaves_ok h' env' /\ no_gradients h' ls.
Proof. exact expr_rounds. Qed.
Print Assumptions C77_rounds.
(** the same sum is defined and smooth everywhere; the results and parameters of two rounds *)
Example C77_rounds_example :
  program tr_rv th_leaves none (xafter tr_rv) /\ (forall x, x ∈ th_leaves -> ~ is_node (xafter tr_rv) x) /\
  leaves_ok (xafter tr_rv) tenv /\ leaves_held (xafter tr_rv) th_leaves tenv /\ accepted tenv te /\
  option_map sig (den tenv te) = Some (F64, [], true) /\ option_map sig (tenv 2%nat) = Some (F64, [], false) /\
  may_step (xafter tr_rv) th_leaves tenv te 2 [0; 1]%nat /\ no_gradients (xafter tr_rv) [0; 1]%nat /\
  (forall As env', descents te 2 [0; 1]%nat tenv As env' -> smooth_root env' te /\ den env' te <> None) /\
  (te_1.1, values te_1.2 0, values te_1.2 1) = ([(11, 1)], [(-1, 1); (2, 1); (0, 1)], [(3, 2); (-2, 1); (-7, 2)]) /\
  (te_2.1, values te_2.2 0, values te_2.2 1) = ([(-13, 2)], [(1, 2); (6, 1); (0, 1)], [(1, 1); (-4, 1); (-7, 2)]).
Proof.
  split; [exact tr_rv_ok|]. split; [exact te_not_node|]. split; [exact te_leaves|]. split; [exact te_held|]. split; [exact te_accepted|].
  split; [vm|]. split; [vm|]. split; [exact te_may|]. split; [exact te_zero|]. split; [exact te_path|exact te_values].
Qed.
