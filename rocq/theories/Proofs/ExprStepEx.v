(** Gradient descent on the expression sum(w * w * v), for the examples of C77. *)
From Verif.Proofs Require Export ExprStep ExprGradEx StepEx.
From Verif.Model Require Export Exact Api.
#[local] Existing Instance Exact.

(** w = (1, 2, -3) (0) and v = (2, 0, 1) (1), tracked; the rate -1/2 (2) *)
Definition te : expr := ESum (EArith AMul (EArith AMul (ELeaf 0) (ELeaf 0)) (ELeaf 1)).
Definition tenv := env_of (xafter tr_rv) [0; 1; 2]%nat.
Definition th_leaves : list nat := [2; 1; 0]%nat.
Lemma te_leaves : leaves_ok (xafter tr_rv) tenv.
Proof.
  apply leaves_of. repeat (apply Forall_cons; split); [exists (xrec (xafter tr_rv) 0)|exists (xrec (xafter tr_rv) 1)|exists (xrec (xafter tr_rv) 2)|apply Forall_nil; done];
    (split; [apply tensor_at_check; vm|split; [vm|split; [unfold small_strides; decide_it|vm]]]).
Qed.
Lemma te_not_node x : x ∈ th_leaves -> ~ is_node (xafter tr_rv) x.
Proof. unfold th_leaves. rewrite !elem_of_cons. intros [->|[->|[->|[]%elem_of_nil]]]; apply not_node; vm. Qed.
Lemma te_held : leaves_held (xafter tr_rv) th_leaves tenv.
Proof.
  intros t A. unfold tenv, env_of. case_bool_decide as Ht; [|intros E; discriminate E]. intros _.
  assert (t ∈ th_leaves) as Hh. { unfold th_leaves. rewrite !elem_of_cons in *. tauto. }
  split; [exact Hh|]. exact (te_not_node t Hh).
Qed.
Lemma te_accepted : accepted tenv te.
Proof.
  assert (accepted tenv (ELeaf 0)) as H0 by (apply has_leaf; vm). assert (accepted tenv (ELeaf 1)) as H1 by (apply has_leaf; vm).
  split; [|apply (on1_of _ _ F64 [3] true); [vm|]; intros A _ -> _; decide_it].
  split; [|split; [exact H1|]].
  - split; [exact H0|]. split; [exact H0|]. apply (on2_of _ _ _ F64 [3] true F64 [3] true); [vm|vm|]. intros A B -> -> _ -> -> _. arith_ok.
  - apply (on2_of _ _ _ F64 [3] true F64 [3] true); [vm|vm|]. intros A B -> -> _ -> -> _. arith_ok.
Qed.
Lemma te_nodup : NoDup [0; 1]%nat.
Proof. decide_it. Qed.
Lemma te_may : may_step (xafter tr_rv) th_leaves tenv te 2 [0; 1]%nat.
Proof.
  split; [exact te_nodup|]. intros a. rewrite !elem_of_cons. intros [->|[->|[]%elem_of_nil]].
  - split; [apply has_leaf; vm|]. split; [left; left; reflexivity|]. split.
    + exists (xrec (xafter tr_rv) 0), (xrec (xafter tr_rv) 2). split; [hand|]. split; [apply not_node; vm|]. split; [vm|]. split; [hand|]. split; [vm|].
      split; [decide_it|]. split; [|split; [vm|fits_ok]]. apply no_zero_one_pos; [assert (shape (xrec (xafter tr_rv) 0) = [3]) as -> by vm|assert (shape (xrec (xafter tr_rv) 2) = []) as -> by vm]; small.
    + intros b. unfold th_leaves. rewrite !elem_of_cons. intros [->|[->|[->|[]%elem_of_nil]]] Hne; try (apply apart_check; vm). exact (False_ind _ (Hne eq_refl)).
  - split; [apply has_leaf; vm|]. split; [right; reflexivity|]. split.
    + exists (xrec (xafter tr_rv) 1), (xrec (xafter tr_rv) 2). split; [hand|]. split; [apply not_node; vm|]. split; [vm|]. split; [hand|]. split; [vm|].
      split; [decide_it|]. split; [|split; [vm|fits_ok]]. apply no_zero_one_pos; [assert (shape (xrec (xafter tr_rv) 1) = [3]) as -> by vm|assert (shape (xrec (xafter tr_rv) 2) = []) as -> by vm]; small.
    + intros b. unfold th_leaves. rewrite !elem_of_cons. intros [->|[->|[->|[]%elem_of_nil]]] Hne; try (apply apart_check; vm). exact (False_ind _ (Hne eq_refl)).
Qed.
Lemma te_zero : no_gradients (xafter tr_rv) [0; 1]%nat.
Proof. intros a i. rewrite !elem_of_cons. intros [->|[->|[]%elem_of_nil]] _; vm. Qed.
Lemma te_smooth env : smooth_root env te.
Proof. split; [split; [exact I|split; [exact I|intros E; discriminate E]]|split; [exact I|intros E; discriminate E]]. Qed.
(** the expression denotes an array wherever the descent leads *)
Lemma arith_denotes o A B : floating (a_dt A) = true -> exists C, d_arith o A B = Some C /\ a_dt C = dt_join (a_dt A) (a_dt B).
Proof.
  intros Hf. unfold d_arith, table. destruct (forallb _ _) eqn:E; [by eexists|]. exfalso. apply not_true_iff_false in E. apply E, forallb_forall. intros i _. unfold cpp_arith. by rewrite Hf.
Qed.
Lemma te_denotes env A B : env 0%nat = Some A -> env 1%nat = Some B -> a_dt A = F64 -> a_dt B = F64 -> den env te <> None.
Proof.
  intros E0 E1 D0 D1. unfold te. cbn [den]. rewrite E0, E1. cbn [bind2 bind1]. destruct (arith_denotes AMul A A) as (C & -> & DC); [by rewrite D0|]. rewrite D0 in DC. unfold bind2. cbn [bind1].
  destruct (arith_denotes AMul C B) as (C' & -> & DC'); [by rewrite DC|]. rewrite DC, D1 in DC'. cbn [bind1]. unfold d_sum, array_sum. rewrite DC'. done.
Qed.
Lemma descents_alike e c ls env As env' : descents e c ls env As env' -> alike_env env env'.
Proof.
  induction 1 as [env|env A C env1 As env' E1 E2 De _ IH]; [intros t; by destruct (env t)|]. pose proof (descends_alike _ _ _ _ _ De) as K. intros t. specialize (K t). specialize (IH t).
  destruct (env t), (env1 t), (env' t); try done. destruct K as (K1 & K2 & K3), IH as (J1 & J2 & J3). split; [congruence|]. split; congruence.
Qed.
Lemma te_path As env' : descents te 2 [0; 1]%nat tenv As env' -> smooth_root env' te /\ den env' te <> None.
Proof.
  intros Ds. split; [apply te_smooth|]. apply descents_alike in Ds. pose proof (Ds 0%nat) as K0. pose proof (Ds 1%nat) as K1.
  assert (option_map sig (tenv 0%nat) = Some (F64, [3], true)) as S0 by vm. assert (option_map sig (tenv 1%nat) = Some (F64, [3], true)) as S1 by vm.
  destruct (tenv 0%nat) as [A0|]; [|discriminate S0]. destruct (tenv 1%nat) as [B0|]; [|discriminate S1]. cbn [option_map] in S0, S1. unfold sig in S0, S1. apply (inj Some) in S0, S1.
  destruct (env' 0%nat) as [A|] eqn:EA; [|done]. destruct (env' 1%nat) as [B|] eqn:EB; [|done]. destruct K0 as (X1 & _), K1 as (Y1 & _).
  apply (te_denotes env' A B EA EB); congruence.
Qed.
(** two rounds: in the first the derivatives 2wv and ww are (4, 0, -6) and (1, 4, 9), in the
    second (-3, -8, 0) and (1, 4, 0) *)
Definition nudge1 (a : nat) : M heap ret :=
  let! g := call (OGrad (Some a)) in let! s := call (OMul (Some g) (#2)) in let! d := call (ODetach (Some a)) in
  let! _ := exec (OAddEq (Some d) (Some s)) in exec (OZeroGrad (Some a)).
Definition te_round (h : heap) : list (Z * Z) * heap :=
  match (let! t := Spec.Expr.eval te in let! _ := exec (OBackward (Some t)) in let! _ := nudge1 0 in let! _ := nudge1 1 in mret t) h with
  | (Ok t, h') => (values h' t, h') | (_, h') => ([], h')
  end.
Definition te_1 := te_round (xafter tr_rv).
Definition te_2 := te_round te_1.2.
Lemma te_values :
  (te_1.1, values te_1.2 0, values te_1.2 1) = ([(11, 1)], [(-1, 1); (2, 1); (0, 1)], [(3, 2); (-2, 1); (-7, 2)]) /\
  (te_2.1, values te_2.2 0, values te_2.2 1) = ([(-13, 2)], [(1, 2); (6, 1); (0, 1)], [(1, 1); (-4, 1); (-7, 2)]).
Proof. split; vm. Qed.
