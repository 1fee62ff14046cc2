(** Two expressions over the same parameters, for the examples of C79. *)
From Verif.Proofs Require Export ExprSum ExprStepEx.
From Verif.Model Require Export Exact Api.
#[local] Existing Instance Exact.

(** sum(w * w * v) and sum(w * v) *)
Definition te' : expr := ESum (EArith AMul (ELeaf 0) (ELeaf 1)).
Lemma te'_accepted : accepted tenv te'.
Proof.
  assert (accepted tenv (ELeaf 0)) as H0 by (apply has_leaf; vm). assert (accepted tenv (ELeaf 1)) as H1 by (apply has_leaf; vm).
  split; [|apply (on1_of _ _ F64 [3] true); [vm|]; intros A _ -> _; decide_it].
  split; [exact H0|]. split; [exact H1|]. apply (on2_of _ _ _ F64 [3] true F64 [3] true); [vm|vm|]. intros A B -> -> _ -> -> _. arith_ok.
Qed.
Lemma te'_smooth env : smooth_root env te'.
Proof. split; [exact I|split; [exact I|intros E; discriminate E]]. Qed.
Lemma loss_like_of env e dt : accepted env e -> smooth_root env e -> option_map sig (den env e) = Some (dt, [], true) -> loss_like env e.
Proof.
  intros Ha Hs E. split; [done|]. split; [done|]. destruct (den env e) as [A|]; [|discriminate E]. exists A. split; [done|]. cbn [option_map] in E. unfold sig in E. apply (inj Some) in E.
  assert (a_ss A = [] /\ a_rg A = true) as [-> ->] by (split; congruence). split; reflexivity.
Qed.
Lemma te_losses : Forall (loss_like tenv) [te; te'].
Proof.
  apply Forall_cons. split; [apply (loss_like_of _ _ F64); [exact te_accepted|apply te_smooth|vm]|].
  apply Forall_cons. split; [apply (loss_like_of _ _ F64); [exact te'_accepted|apply te'_smooth|vm]|]. by apply Forall_nil.
Qed.
(** 2wv + v and ww + w at w = (1, 2, -3) and v = (2, 0, 1) *)
Lemma te_batch :
  let h1 := (batch [te] (xafter tr_rv)).2 in let h2 := (batch [te; te'] (xafter tr_rv)).2 in let h3 := (batch [te'; te] (xafter tr_rv)).2 in
  (grads h1 0, grads h1 1) = ([(4, 1); (0, 1); (-6, 1)], [(1, 1); (4, 1); (9, 1)]) /\
  (grads h2 0, grads h2 1) = ([(6, 1); (0, 1); (-5, 1)], [(2, 1); (6, 1); (6, 1)]) /\ (grads h3 0, grads h3 1) = (grads h2 0, grads h2 1).
Proof. split_and!; vm. Qed.
