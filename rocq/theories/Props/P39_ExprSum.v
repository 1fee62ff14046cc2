(** Property C79. *)
From Verif.Proofs Require Import ExprSumEx.
From Verif.Spec Require Import ExprSum Program.
From Verif.Model Require Import Exact Api.
#[local] Existing Instance Exact.

(** C79: a program evaluates several expressions over the same leaves, one after the other, with
    backward() on each result and no zero_grad() in between. All of these calls succeed, the leaves
    hold the same arrays as before, and the gradient of each element of a tracked leaf has grown by
    the slope of the sum of the results as a function of that element. The program can go on from
    there. *)
Theorem C79_accumulates : forall es ops H T (h : heap) env,
  program ops H T h -> leaves_ok h env -> leaves_held h H env -> Forall (loss_like env) es ->
  exists l h' H' T', batch es h = (Ok tt, h') /\ (forall a, a ∈ H -> a ∈ H') /\ program (ops ++ l) H' T' h' /\
    leaves_ok h' env /\ leaves_held h' H' env /\
    forall a B i, env a = Some B -> a_rg B = true -> in_range (a_ss B) i ->
      slope (fun s => batch_total (nudge env a i s) es) (grad_value h' a i - grad_value h a i)%Qc.
Proof. exact batch_gradient. Qed.
Print Assumptions C79_accumulates.
(** sum(w * w * v) and sum(w * v) at w = (1, 2, -3) and v = (2, 0, 1) *)
Example C79_accumulates_example :
  program tr_rv th_leaves none (xafter tr_rv) /\ leaves_ok (xafter tr_rv) tenv /\ leaves_held (xafter tr_rv) th_leaves tenv /\
  Forall (loss_like tenv) [te; te'] /\
  let h1 := (batch [te] (xafter tr_rv)).2 in let h2 := (batch [te; te'] (xafter tr_rv)).2 in
  (grads h1 0, grads h1 1) = ([(4, 1); (0, 1); (-6, 1)], [(1, 1); (4, 1); (9, 1)]) /\
  (grads h2 0, grads h2 1) = ([(6, 1); (0, 1); (-5, 1)], [(2, 1); (6, 1); (6, 1)]).
Proof.
  split; [exact tr_rv_ok|]. split; [exact te_leaves|]. split; [exact te_held|]. split; [exact te_losses|].
  split; [exact (proj1 te_batch)|exact (proj1 (proj2 te_batch))].
Qed.

(** C79: the order of the expressions does not matter to the gradients. *)
Theorem C79_order : forall es es' ops H T (h : heap) env,
  program ops H T h -> leaves_ok h env -> leaves_held h H env -> Forall (loss_like env) es -> es ≡ₚ es' ->
  exists h1 h2, batch es h = (Ok tt, h1) /\ batch es' h = (Ok tt, h2) /\
    forall a B i, env a = Some B -> a_rg B = true -> in_range (a_ss B) i -> grad_value h1 a i = grad_value h2 a i.
Proof. exact batch_order. Qed.
Print Assumptions C79_order.
(** the same expressions the other way round *)
Example C79_order_example :
  program tr_rv th_leaves none (xafter tr_rv) /\ leaves_ok (xafter tr_rv) tenv /\ leaves_held (xafter tr_rv) th_leaves tenv /\
  Forall (loss_like tenv) [te; te'] /\ [te; te'] ≡ₚ [te'; te] /\
  let h2 := (batch [te; te'] (xafter tr_rv)).2 in let h3 := (batch [te'; te] (xafter tr_rv)).2 in
  (grads h3 0, grads h3 1) = (grads h2 0, grads h2 1).
Proof.
  split; [exact tr_rv_ok|]. split; [exact te_leaves|]. split; [exact te_held|]. split; [exact te_losses|].
  split; [apply perm_swap|exact (proj2 (proj2 te_batch))].
Qed.
