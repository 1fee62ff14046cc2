(** backward() from a view with one element. *)
From Verif.Proofs Require Import VrootEx.
From Verif.Model Require Import Exact Api.
#[local] Existing Instance Exact.

(** C49: when no mean lies below the view, backward() succeeds and changes no gradient of a leaf.
    Partial: the property asks for the gradient of the view's element. *)
Theorem C49_silent_partial : forall ops H T h t,
  program ops H T h -> may_start_view h H T t -> (forall x, ~ mean_below h t x) ->
  exists h', exec (OBackward (Some t)) h = (Ok RUnit, h') /\
    program (ops ++ [OBackward (Some t)]) H (fun x => T x \/ below h t x /\ is_node h x) h' /\
    forall a i, below h t a -> ~ is_node h a -> tracked h a -> in_range (shape_of h a) i -> grad_value h' a i = grad_value h a i.
Proof. exact view_start_none. Qed.
Print Assumptions C49_silent_partial.

(** C49: in general the gradients grow by the rates of the means below the view, whatever the
    view's element has to do with them, since a mean takes its incoming gradient to be 1 (C50). *)
Theorem C49_means_partial : forall ops H T h t,
  program ops H T h -> may_start_view h H T t ->
  exists h', exec (OBackward (Some t)) h = (Ok RUnit, h') /\
    program (ops ++ [OBackward (Some t)]) H (fun x => T x \/ below h t x /\ is_node h x) h' /\
    (exists ms, means h t ms) /\
    forall a i, below h t a -> ~ is_node h a -> tracked h a -> in_range (shape_of h a) i ->
      (exists d, cut_tangent h t a i d) /\
      forall d ms, cut_tangent h t a i d -> means h t ms -> grad_value h' a i = (grad_value h a i + sumq (map (mean_rate h d) ms))%Qc.
Proof. exact view_start. Qed.
Print Assumptions C49_means_partial.

(** x = (1, 2, -3) tracked, y = x * x; after sum(x).backward(), y[1].backward() leaves the
    gradients at 1 *)
Example C49_silent_example :
  program vr vr_held vr_passed (xafter vr) /\ may_start_view (xafter vr) vr_held vr_passed 3 /\ (forall x, ~ mean_below (xafter vr) 3 x) /\
  below (xafter vr) 3 0 /\ ~ is_node (xafter vr) 0 /\ tracked (xafter vr) 0 /\
  grads (xafter vr) 0 = [(1, 1); (1, 1); (1, 1)] /\ grads (xafter (vr ++ [OBackward (#3)])) 0 = [(1, 1); (1, 1); (1, 1)].
Proof.
  split; [exact vr_ok|]. split; [exact vr_start|]. split; [exact vr_means|]. split; [apply (below_path _ _ [1; 0]%nat); vm|].
  split; [apply not_node; vm|]. split; [apply leaf_tracked; vm|]. split; vm.
Qed.

(** (y + mean(x))[1].backward() gives 1/3 to each element of x *)
Example C49_means_example :
  program vm_4 vm_held none (xafter vm_4) /\ may_start_view (xafter vm_4) vm_held none 4 /\ means (xafter vm_4) 4 [2]%nat /\
  below (xafter vm_4) 4 0 /\ ~ is_node (xafter vm_4) 0 /\ tracked (xafter vm_4) 0 /\
  grads (xafter (vm_4 ++ [OBackward (#4)])) 0 = [(1, 3); (1, 3); (1, 3)].
Proof.
  split; [exact vm_4_ok|]. split; [exact vm_start|]. split; [exact vm_means|]. split; [apply (below_path _ _ [3; 1; 0]%nat); vm|].
  split; [apply not_node; vm|]. split; [apply leaf_tracked; vm|]. vm.
Qed.
