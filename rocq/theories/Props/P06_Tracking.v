(** Gradient tracking and the effects of backward. *)
From Verif.Proofs Require Import Track Refute2.

(** C42: only floating tensors require gradients, and tracking propagates. *)
Theorem C42_floating : forall {fo : FOps} h t r,
  reachable h -> h_ten h !! t = Some r -> t_rg r = true -> t_dt r = F32 \/ t_dt r = F64.
Proof. exact @tracked_floating. Qed.
Print Assumptions C42_floating.
Theorem C42_reject : forall {fo : FOps} h t r,
  h_ten h !! t = Some r -> t_dt r <> F32 -> t_dt r <> F64 ->
  exec (ORequires (Some t) true) h = (Throw RuntimeError, h).
Proof. exact @integer_rejected. Qed.
Print Assumptions C42_reject.
Theorem C42_propagates : forall {fo : FOps} h o ts rs u h',
  reachable h -> track_sources o = Some ts -> operands h ts rs ->
  exec o h = (Ok (RHandle (Some u)), h') ->
  exists r, h_ten h' !! u = Some r /\ (t_rg r = true <-> exists x, x ∈ rs /\ t_rg x = true).
Proof. exact @tracking_propagates. Qed.
Print Assumptions C42_propagates.

(** the tracked tensor 6 times the untracked tensor 7 (9); and an untracked sum *)
Example C42_example :
  let h := after demo_ops in
  let h' := (exec (OMul (Some 6%nat) (Some 7%nat)) h).2 in
  reachable h /\ t_rg (rec_of h 6) = true /\ t_rg (rec_of h 7) = false /\ t_dt (rec_of h 0) = I16 /\
  track_sources (OMul (Some 6%nat) (Some 7%nat)) = Some [Some 6%nat; Some 7%nat] /\
  operands h [Some 6%nat; Some 7%nat] [rec_of h 6; rec_of h 7] /\
  (exec (OMul (Some 6%nat) (Some 7%nat)) h).1 = Ok (RHandle (Some 9%nat)) /\
  t_rg (rec_of h' 9) = true.
Proof.
  cbv zeta. split; [reached|]. do 4 (split; [vm|]). split; [|split_and!; vm].
  repeat first [apply Forall2_nil_2 | apply Forall2_cons_2; [eexists; split; [done|vm]|]].
Qed.

(** C43: when backward() refuses. [size_prod] is the number of elements. *)
Theorem C43_backward_rejects : forall {fo : FOps} h t r,
  h_ten h !! t = Some r -> Forall (fun n => 0 <= n) (shape r) -> size_prod (shape r) < two64 ->
  t_rg r = false \/ t_fn r = None \/ size_prod (shape r) <> 1 ->
  exec (OBackward (Some t)) h = (Throw RuntimeError, h).
Proof. exact @backward_rejects. Qed.
Print Assumptions C43_backward_rejects.

(** a tracked product with 6 elements, a leaf, and an untracked scalar *)
Example C43_example :
  let h := after (demo_ops ++ [OMul (Some 6%nat) (Some 7%nat)]) in
  h_ten h !! 9%nat = Some (rec_of h 9) /\ t_rg (rec_of h 9) = true /\ is_Some (t_fn (rec_of h 9)) /\
  shape (rec_of h 9) = [2; 3] /\ size_prod (shape (rec_of h 9)) = 6 /\
  t_fn (rec_of h 6) = None /\ t_rg (rec_of h 8) = false /\ size_prod (shape (rec_of h 8)) = 1.
Proof. cbv zeta. split; [vm|]. split; [vm|]. split; [decide_it|]. split_and!; vm. Qed.

(** C58: backward changes only buffers of gradients. *)
Theorem C58_backward_keeps : forall {fo : FOps} h t,
  reachable h -> kept_outside (is_grad_buffer h) h (exec (OBackward t) h).2.
Proof. exact @backward_only_grads. Qed.
Print Assumptions C58_backward_keeps.

(** the gradient of sum(6 * 7) is added into the gradient of 6; both factors keep their values *)
Example C58_example :
  let h := after (demo_ops ++ [OMul (Some 6%nat) (Some 7%nat); OSum (Some 9%nat)]) in
  let h' := (exec (OBackward (Some 10%nat)) h).2 in
  reachable h /\ (exec (OBackward (Some 10%nat)) h).1 = Ok RUnit /\
  elems h' 6 = elems h 6 /\ grad_elems h 6 = None /\
  grad_elems h' 6 = Some (map f64 [5; 7; 9]).
Proof. cbv zeta. split; [reached|]. split_and!; vm. Qed.
