(** Witnesses about reshaping. *)
From Verif.Proofs Require Export Reshape2 InplaceEx.
From Verif.Model Require Export Ieee.

Definition r20 := [OFromBlob [f64 7] [] F64; ORequires #0 true].
Lemma reshape_scalar_refuted :
  exists (h : @heap Ieee) t r v, reachable h /\ tensor_at h t r v /\ shape r = [] /\ t_rg r = true /\
    asks_for [1] (size_prod (shape r)) [1] /\
    (exec (OReshape (Some t) [1]) h).1 = UB OutOfBounds.
Proof.
  set (h := after r20). exists h, 0%nat, (rec_of h 0), (contents h (rec_of h 0)).
  split; [reached|]. split; [at_of|]. split; [vm|]. split; [vm|]. split; [|vm].
  split; [apply Forall2_cons_2; [lia|apply Forall2_nil_2]|]. split; [decide_it|vm].
Qed.
