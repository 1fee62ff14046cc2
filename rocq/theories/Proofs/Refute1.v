(** Counterexamples for C06, C13, C16. *)
From Verif.Proofs Require Export Samples.
From Coq Require Import Floats.SpecFloat.

Definition after (ops : list op) : heap := snd (run empty_heap ops).
Definition rec_of (h : @heap Ieee) (t : nat) : tensor :=
  match h_ten h !! t with Some r => r | None => Ten I8 (Lay [] [] 0) 0 None false false None end.
Lemma tensor_at_of h t :
  match h_ten h !! t with Some _ => true | None => false end = true -> holdsb h (rec_of h t) = true ->
  tensor_at h t (rec_of h t) (contents h (rec_of h t)).
Proof.
  intros H1 H2. apply tensor_at_check; [|done]. unfold rec_of. by destruct (h_ten h !! t).
Qed.
Ltac at_of := apply tensor_at_of; vm.

Definition hz1 : heap := Eval vm_compute in after [OZeros [0; 2] I8; OZeros [0; 3] I8].
Definition hz2 : heap := Eval vm_compute in after [OZeros [0] I8; OZeros [1] I8].
Lemma zero_dim_refuted :
  (exists (h : @heap Ieee) a b ra rb va vb t h',
     tensor_at h a ra va /\ tensor_at h b rb vb /\ ~ compatible (shape ra) (shape rb) /\
     exec (OAdd (Some a) (Some b)) h = (Ok (RHandle (Some t)), h')) /\
  (exists (h : @heap Ieee) a b ra rb va vb h',
     tensor_at h a ra va /\ tensor_at h b rb vb /\ compatible (shape ra) (shape rb) /\
     exec (OAdd (Some a) (Some b)) h = (Throw RuntimeError, h')).
Proof.
  split.
  - exists hz1, 0%nat, 1%nat, (rec_of hz1 0), (rec_of hz1 1), (contents hz1 (rec_of hz1 0)),
      (contents hz1 (rec_of hz1 1)), 2%nat, (snd (exec (OAdd (Some 0) (Some 1)) hz1)%nat).
    split; [at_of|]. split; [at_of|].
    split; [apply (bool_decide_eq_false_1 (compatible _ _)); vm|vm].
  - exists hz2, 0%nat, 1%nat, (rec_of hz2 0), (rec_of hz2 1), (contents hz2 (rec_of hz2 0)),
      (contents hz2 (rec_of hz2 1)), (snd (exec (OAdd (Some 0) (Some 1)) hz2)%nat).
    split; [at_of|]. split; [at_of|]. split; [decide_it|vm].
Qed.

Definition hn : heap := Eval vm_compute in
  after [OScalar I8 (VI 5); OScalar F64 (VF (S754_zero false))].
Lemma neg_dtype_refuted :
  exists (h : @heap Ieee) a ra va t h' r,
    tensor_at h a ra va /\ exec (ONeg (Some a)) h = (Ok (RHandle (Some t)), h') /\
    h_ten h' !! t = Some r /\ t_dt r <> t_dt ra.
Proof.
  set (h' := snd (exec (ONeg (Some 0)) hn)%nat).
  exists hn, 0%nat, (rec_of hn 0), (contents hn (rec_of hn 0)), 3%nat, h', (rec_of h' 3).
  split; [at_of|]. split; [vm|]. split; [vm|].
  apply (bool_decide_eq_false_1 (t_dt (rec_of h' 3) = t_dt (rec_of hn 0))). vm.
Qed.
Lemma neg_zero_refuted :
  exists (h : @heap Ieee) a ra va t h' r x,
    tensor_at h a ra va /\ va [] = VF x /\
    exec (ONeg (Some a)) h = (Ok (RHandle (Some t)), h') /\
    h_ten h' !! t = Some r /\ elem h' r [] <> Some (VF (f_neg x)).
Proof.
  set (h' := snd (exec (ONeg (Some 1)) hn)%nat).
  exists hn, 1%nat, (rec_of hn 1), (contents hn (rec_of hn 1)), 3%nat, h', (rec_of h' 3),
    (S754_zero false).
  split; [at_of|]. split; [vm|]. split; [vm|]. split; [vm|].
  assert (elem h' (rec_of h' 3) [] = Some (VF (S754_zero false))) as -> by vm.
  cbn. congruence.
Qed.

Definition ha : heap := Eval vm_compute in
  after [OScalar I32 (VI 256); OScalar I32 (VI 2); OFromBlob [VI 1; VI 1] [2] I16].
Lemma all_refuted :
  (exists (h : @heap Ieee) t r v, tensor_at h t r v /\
     (forall idx, in_range (shape r) idx -> exists z, v idx = VI z /\ z <> 0) /\
     exec (QAll (Some t)) h = (Ok (RBool false), h)) /\
  (exists (h : @heap Ieee) t r v, tensor_at h t r v /\
     (forall idx, in_range (shape r) idx -> exists z, v idx = VI z /\ z <> 0) /\
     exec (QAll (Some t)) h = (UB BadBool, h)) /\
  (exists (h : @heap Ieee) t r v, tensor_at h t r v /\
     (forall idx, in_range (shape r) idx -> v idx = VI 1) /\
     exec (QAll (Some t)) h = (Ok (RBool false), h)).
Proof.
  split; [|split].
  - exists ha, 0%nat, (rec_of ha 0), (contents ha (rec_of ha 0)). split; [at_of|]. split; [|vm].
    intros idx Hi. apply elem_of_indices in Hi. vm_compute in Hi. set_unfold in Hi.
    destruct Hi as [->|[]]. exists 256. split; [vm|done].
  - exists ha, 1%nat, (rec_of ha 1), (contents ha (rec_of ha 1)). split; [at_of|]. split; [|vm].
    intros idx Hi. apply elem_of_indices in Hi. vm_compute in Hi. set_unfold in Hi.
    destruct Hi as [->|[]]. exists 2. split; [vm|done].
  - exists ha, 2%nat, (rec_of ha 2), (contents ha (rec_of ha 2)). split; [at_of|]. split; [|vm].
    intros idx Hi. apply elem_of_indices in Hi. vm_compute in Hi. set_unfold in Hi.
    destruct Hi as [->|[->|[]]]; vm.
Qed.
