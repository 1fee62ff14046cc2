(** Training, in exact arithmetic: rounds of computing a formula, its sum, backward() and an update
    of the parameters. *)
From Verif.Proofs Require Import Train TrainEx.
From Verif.Model Require Import Exact Api.
#[local] Existing Instance Exact.

(** C72: any number of rounds can be run, with every call on the tensors that the calls before it
    returned, and they all succeed. The sums are the values of the formula along gradient descent,
    and afterwards every held element is where gradient descent leads. *)
Theorem C72_train : forall n ops H h e c ls, program ops H none h -> may_train h H e c ls ->
  (forall a i, a ∈ ls -> in_range (shape_of h a) i -> grad_value h a i = 0%Qc) ->
  exists l h', trained e c ls h (map (fun k => loss h e (Nat.iter k (descent h e c ls) (value h))) (seq 0 n)) l h' /\
    program (ops ++ l) H none h' /\
    forall a i, a ∈ H -> in_range (shape_of h a) i -> value h' a i = Nat.iter n (descent h e c ls) (value h) a i.
Proof. exact train. Qed.
Print Assumptions C72_train.

(** a linear model with weights of shape [3] and a bias, trained with the rate -1/2 *)
Example C72_train_example :
  program sq sq_held none (xafter sq) /\ may_train (xafter sq) sq_held sq_e 4 [1; 2]%nat /\
  (forall a i, a ∈ [1; 2]%nat -> in_range (shape_of (xafter sq) a) i -> grad_value (xafter sq) a i = 0%Qc) /\
  grads (xafter (sq ++ sq_calls)) 1 = [(2, 1); (2, 1); (-14, 1)] /\ grads (xafter (sq ++ sq_calls)) 2 = [(-12, 1)] /\
  values (xafter sq_round) 1 = [(0, 1); (1, 1); (4, 1)] /\ values (xafter sq_round) 2 = [(7, 1)] /\
  shown (sq_after 1) 1 [3] = [(0, 1); (1, 1); (4, 1)] /\ shown (sq_after 1) 2 [] = [(7, 1)] /\
  shown (sq_after 2) 1 [3] = [(-6, 1); (-5, 1); (-15, 1)] /\ shown (sq_after 2) 2 [] = [(-35, 1)].
Proof. split; [exact sq_ok|]. split; [exact sq_may|]. split; [exact sq_zero|]. exact sq_values. Qed.
