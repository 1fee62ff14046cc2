(** Examples for Props/P31_Query.v. *)
From Verif.Spec Require Import Query.
From Verif.Proofs Require Import Query.
From Verif.Proofs Require Export Track Refute2.
From Verif.Model Require Import Ieee Api.
#[local] Existing Instance Ieee.

Lemma drop_small (ss : list Z) m : Forall (fun k => size_prod (drop (S k) ss) < m) (seq 0 (length ss)) -> 1 < m ->
  forall k, size_prod (drop (S k) ss) < m.
Proof.
  intros H Hm k. destruct (decide (k < length ss)%nat) as [Hk|Hk].
  - rewrite Forall_forall in H. apply H, elem_of_seq. lia.
  - rewrite drop_ge by lia. done.
Qed.
Definition ctg_h := after (demo_ops ++ [OZeros [1; 3] F32; OTranspose (Some 9%nat) 0 1]).
Lemma contiguous_ex :
  lay_ok (t_lay (rec_of ctg_h 5)) /\ (exec (QContiguous (Some 5%nat)) ctg_h).1 = Ok (RBool false) /\
  (forall k, size_prod (drop (S k) (shape (rec_of ctg_h 5))) < 2 ^ 63) /\
  (exec (QContiguous (Some 9%nat)) ctg_h).1 = Ok (RBool true) /\
  (exec (QContiguous (Some 10%nat)) ctg_h).1 = Ok (RBool false) /\ shape (rec_of ctg_h 10) = [3; 1] /\
  map (pos (t_lay (rec_of ctg_h 10))) (indices [3; 1]) = [0; 1; 2].
Proof.
  assert (t_lay (rec_of ctg_h 5) = Lay [3; 2] [1; 3] 0) as E by vm.
  split. { rewrite E. repeat split; cbn; repeat constructor; lia. }
  split; [vm|]. split. { unfold shape. rewrite E. apply drop_small; [|lia]. cbn. repeat constructor. }
  split_and!; vm.
Qed.
Lemma complete_ex : let h := after demo_ops in
  (exists cs, backed h (rec_of h 0) cs) /\ shape (rec_of h 0) = [2; 3] /\ (exec (QContiguous (Some 0%nat)) h).1 = Ok (RBool true) /\
  (exists cs, backed h (rec_of h 5) cs) /\ shape (rec_of h 5) = [3; 2] /\ (exec (QContiguous (Some 5%nat)) h).1 = Ok (RBool false).
Proof.
  cbv zeta.
  assert (tensor_at (after demo_ops) 0 (rec_of (after demo_ops) 0) (contents (after demo_ops) (rec_of (after demo_ops) 0))) as [_ [H0 _]] by at_of.
  assert (tensor_at (after demo_ops) 5 (rec_of (after demo_ops) 5) (contents (after demo_ops) (rec_of (after demo_ops) 5))) as [_ [H5 _]] by at_of.
  split; [exact H0|]. split; [vm|]. split; [vm|]. split; [exact H5|]. split; vm.
Qed.
Lemma null_cat_ex : let h := after demo_ops in
  Forall2 (fun t r => h_ten h !! t = Some r) [0; 0]%nat [rec_of h 0; rec_of h 0] /\ shape (rec_of h 0) = [2; 3] /\
  cat_agree 1 [rec_of h 0; rec_of h 0] /\ ~ cat_agree 2 [rec_of h 0; rec_of h 0].
Proof.
  cbv zeta. assert (shape (rec_of (after demo_ops) 0) = [2; 3]) as E by vm.
  assert (h_ten (after demo_ops) !! 0%nat = Some (rec_of (after demo_ops) 0)) as H0 by vm.
  split; [apply Forall2_cons; split; [exact H0|]; apply Forall2_cons; split; [exact H0|apply Forall2_nil_2]|]. split; [exact E|].
  unfold cat_agree. rewrite E. split.
  - split; [cbn; lia|]. apply Forall_cons; split; [split; intros; reflexivity|]. apply Forall_cons; split; [split; intros; reflexivity|apply Forall_nil_2].
  - intros [H _]. cbn in H. lia.
Qed.
Definition sto_of (h : heap) (i : nat) : storage := match h_sto h !! t_sto (rec_of h i) with Some x => x | None => Sto I8 0 None end.
Lemma release_ex : let h := after demo_ops in
  (exists x, h_sto h !! t_sto (rec_of h 0) = Some x) /\ h_ten h !! 0%nat = Some (rec_of h 0) /\
  t_sto (rec_of h 1) = t_sto (rec_of h 0) /\ t_sto (rec_of h 5) = t_sto (rec_of h 0).
Proof. cbv zeta. split; [exists (sto_of (after demo_ops) 0); vm|]. split_and!; vm. Qed.
Definition rel_h := after (demo_ops ++ [ORelease (Some 0%nat)]).
Lemma rel_5 : released rel_h (rec_of rel_h 5).
Proof. exists (sto_of rel_h 5). split; vm. Qed.
Lemma rel_lay : lay_ok (t_lay (rec_of rel_h 5)).
Proof. assert (t_lay (rec_of rel_h 5) = Lay [3; 2] [1; 3] 0) as -> by vm. repeat split; cbn; repeat constructor; lia. Qed.
Lemma rel_pos : Forall (fun n => 0 < n) (shape (rec_of rel_h 5)).
Proof. assert (shape (rec_of rel_h 5) = [3; 2]) as -> by vm. repeat constructor. Qed.
Lemma lost_ex :
  h_ten rel_h !! 5%nat = Some (rec_of rel_h 5) /\ released rel_h (rec_of rel_h 5) /\ lay_ok (t_lay (rec_of rel_h 5)) /\
  Forall (fun n => 0 < n) (shape (rec_of rel_h 5)) /\ fits (t_dt (rec_of rel_h 5)) (shape (rec_of rel_h 5)) /\
  looks_at 5 (rec_of rel_h 5) (OSum (Some 5%nat)).
Proof. split; [vm|]. split; [exact rel_5|]. split; [exact rel_lay|]. split; [exact rel_pos|]. split; [fits_ok|]. apply LSum. Qed.
Lemma lost_both_ex :
  h_ten rel_h !! 5%nat = Some (rec_of rel_h 5) /\ h_ten rel_h !! 2%nat = Some (rec_of rel_h 2) /\
  gone_or_there rel_h (rec_of rel_h 5) /\ gone_or_there rel_h (rec_of rel_h 2) /\ released rel_h (rec_of rel_h 5) /\
  compatible (shape (rec_of rel_h 5)) (shape (rec_of rel_h 2)) /\
  Forall (fun n => 0 < n) (shape (rec_of rel_h 5)) /\ Forall (fun n => 0 < n) (shape (rec_of rel_h 2)) /\
  looks_at_both 5 2 (rec_of rel_h 5) (rec_of rel_h 2) (OAdd (Some 5%nat) (Some 2%nat)) /\
  looks_at_both 2 5 (rec_of rel_h 2) (rec_of rel_h 5) (ODiv (Some 2%nat) (Some 5%nat)).
Proof.
  assert (tensor_at rel_h 2 (rec_of rel_h 2) (contents rel_h (rec_of rel_h 2))) as [_ H2] by at_of.
  split; [vm|]. split; [vm|]. split; [left; split; [exact rel_lay|exact rel_5]|].
  split. { right. exact (ex_intro _ _ H2). }
  split; [exact rel_5|]. split; [decide_it|]. split; [exact rel_pos|].
  split. { assert (shape (rec_of rel_h 2) = [2]) as -> by vm. repeat constructor. }
  split; [apply (LArith _ _ _ _ AAdd)|apply (LArith _ _ _ _ ADiv)]; fits_ok.
Qed.
