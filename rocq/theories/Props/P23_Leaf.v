(** Views that are made to require grad. *)
From Verif.Proofs Require Import LeafEx.
From Verif.Model Require Import Exact Api.
#[local] Existing Instance Exact.

(** C57: which tensors can be leaves. A tensor [a] of a program, such as a slice, that is not
    tracked is made to require grad and its sum is differentiated. If all elements of [a] lie
    among the first cells of the buffer, as many as [a] has elements, then its gradient is 1
    everywhere and a program may go on to use it as a leaf, so that C45 applies. Otherwise
    backward() goes outside the gradient's buffer.
    Partial: the property asks for the first in both cases. *)
Theorem C57_leaf_partial : forall ops H T h a r,
  program ops H T h -> at_hand h H a r -> t_rg r = false -> floating (t_dt r) = true ->
  exists h1 t h2, exec (ORequires (Some a) true) h = (Ok RUnit, h1) /\ exec (OSum (Some a)) h1 = (Ok (RHandle (Some t)), h2) /\
    ((forall idx, in_range (shape r) idx -> pos (t_lay r) idx < size_prod (shape r)) ->
     program (ops ++ [ORequires (Some a) true]) H T h1 /\
     exists h3, exec (OBackward (Some t)) h2 = (Ok RUnit, h3) /\ forall idx, in_range (shape r) idx -> grad_value h3 a idx = 1%Qc) /\
    ((exists idx, in_range (shape r) idx /\ size_prod (shape r) <= pos (t_lay r) idx) ->
     exists h3, exec (OBackward (Some t)) h2 = (UB OutOfBounds, h3)).
Proof. exact leaf_sum. Qed.
Print Assumptions C57_leaf_partial.

(** C57: the second case in any arithmetic and any state: a leaf without gradient that has an
    element beyond its number of elements. *)
Theorem C57_outside : forall {fo : FOps} h a r v,
  tensor_at h a r v -> t_rg r = true -> t_fn r = None -> t_grad r = None -> floating (t_dt r) = true -> fits (t_dt r) (shape r) ->
  (exists idx, in_range (shape r) idx /\ size_prod (shape r) <= pos (t_lay r) idx) ->
  exists t h1 h2, exec (OSum (Some a)) h = (Ok (RHandle (Some t)), h1) /\ exec (OBackward (Some t)) h1 = (UB OutOfBounds, h2).
Proof. exact @leaf_outside. Qed.
Print Assumptions C57_outside.

(** x = (1, 2, -3): the slice x[:2] (1) is of the first kind, x[1:] (2) of the second *)
Example C57_example :
  program lf_2 [2; 1; 0]%nat none (xafter lf_2) /\
  at_hand (xafter lf_2) [2; 1; 0]%nat 1 (xrec (xafter lf_2) 1) /\ at_hand (xafter lf_2) [2; 1; 0]%nat 2 (xrec (xafter lf_2) 2) /\
  map (fun a => (t_rg (xrec (xafter lf_2) a), floating (t_dt (xrec (xafter lf_2) a)), shape (xrec (xafter lf_2) a))) [1; 2]%nat = [(false, true, [2]); (false, true, [2])] /\
  (forall idx, in_range [2] idx -> pos (t_lay (xrec (xafter lf_2) 1)) idx < 2) /\
  in_range [2] [1] /\ pos (t_lay (xrec (xafter lf_2) 2)) [1] = 2 /\
  grads (xafter (lf_2 ++ [ORequires (#1) true; OSum (#1); OBackward (#3)])) 1 = [(1, 1); (1, 1)].
Proof.
  split; [exact lf_2_ok|]. split; [hand|]. split; [hand|]. split; [vm|]. split.
  { assert (t_lay (xrec (xafter lf_2) 1) = contig [2]) as -> by vm. exact lf_inside. }
  split; [constructor; [lia|constructor]|]. split; vm.
Qed.
