(** For the example of C76: x is the tracked leaf (1, 2, -3). *)
From Verif.Proofs Require Export ExprGrad6 ExprEx ProgEx.
From Verif.Model Require Export Exact Api.
#[local] Existing Instance Exact.

Definition gx : expr := ELeaf 0.
Definition grev : expr := ESlice gx (chars "::-1") [Range None None (Some (-1))].
(** the mean of x * x + x["::-1"] / x *)
Definition gex : expr := EMean (EArith AAdd (EArith AMul gx gx) (EArith ADiv grev gx)).
Definition genv := env_of (xafter ex_leaf) [0%nat].
Lemma g_leaves : leaves_ok (xafter ex_leaf) genv.
Proof.
  apply leaves_of. constructor; [exists (xrec (xafter ex_leaf) 0)|constructor]. split; [|split; [vm|split; [unfold small_strides; decide_it|vm]]].
  apply tensor_at_check; vm.
Qed.
Lemma g_held : leaves_held (xafter ex_leaf) [0%nat] genv.
Proof. intros t A. unfold genv, env_of. case_bool_decide as Ht; [|intros E; discriminate E]. intros _. split; [exact Ht|]. apply elem_of_list_singleton in Ht as ->. apply not_node. vm. Qed.
Ltac arith_ok := split; [decide_it|]; split; [apply pos_nz; decide_it|]; split; [fits_ok|decide_it].
Lemma g_accepted : accepted genv gex.
Proof.
  assert (accepted genv gx) as Hx by (apply has_leaf; vm).
  assert (accepted genv grev) as Hr.
  { split; [exact Hx|]. split; [vm|]. split.
    - exists [chars "::-1"]. split; [|vm]. apply Forall2_cons_2; [|apply Forall2_nil_2].
      refine (ItemRange3 [] [] (chars "-1") None None (Some (-1)) _ _ _); [by constructor..|].
      split; [|unfold in_s64; lia]. apply (int_text_check _ [] (chars "-") (chars "1") []); vm.
    - apply (on1_of _ _ F64 [3] true); [vm|]. intros A _ -> _. split; [decide_it|]. split; cbn; split; try done; by left. }
  split; [|apply (on1_of _ _ F64 [3] true); [vm|]; intros A _ -> _; decide_it].
  split; [|split].
  - split; [exact Hx|]. split; [exact Hx|]. apply (on2_of _ _ _ F64 [3] true F64 [3] true); [vm|vm|]. intros A B -> -> _ -> -> _. arith_ok.
  - split; [exact Hr|]. split; [exact Hx|]. apply (on2_of _ _ _ F64 [3] true F64 [3] true); [vm|vm|]. intros A B -> -> _ -> -> _. arith_ok.
  - apply (on2_of _ _ _ F64 [3] true F64 [3] true); [vm|vm|]. intros A B -> -> _ -> -> _. arith_ok.
Qed.
Lemma g_nonzero A : den genv gx = Some A -> forall idx, in_range [3] idx -> num (a_v A idx) <> 0%Qc.
Proof.
  intros EA idx Hi E. assert (match den genv gx with Some A => forallb (fun idx => negb (Qeq_bool (num (a_v A idx)) 0)) (indices [3]) | None => false end = true) as K by vm.
  rewrite EA in K. rewrite forallb_forall in K. specialize (K idx). rewrite <- elem_of_list_In, elem_of_indices in K. specialize (K Hi). by rewrite E in K.
Qed.
Lemma g_smooth : smooth_root genv gex.
Proof.
  split; [split; [done|split; [done|discriminate 1]]|]. split; [|discriminate 1]. split; [done|]. split; [done|]. intros _.
  intros A B EA EB _. pose proof (g_nonzero B EB) as Nz.
  assert (option_map sig (den genv grev) = Some (F64, [3], true)) as SA by vm. assert (option_map sig (den genv gx) = Some (F64, [3], true)) as SB by vm.
  rewrite EA in SA. rewrite EB in SB. cbn in SA, SB. unfold sig in *. apply (inj Some) in SA, SB.
  assert (a_ss A = [3] /\ a_rg A = true /\ a_ss B = [3] /\ a_rg B = true) as (E1 & E2 & E3 & E4) by (split_and!; congruence).
  rewrite E1, E2, E3, E4. split; [done|]. split; [done|]. split; [vm|exact Nz].
Qed.
(** the result, and the gradient of x after backward() *)
Definition g_result : nat * list (Z * Z) :=
  match Spec.Expr.eval gex (xafter ex_leaf) with
  | (Ok t, h1) => (t, grads (exec (OBackward (Some t)) h1).2 0)
  | _ => (0%nat, [])
  end.
Lemma g_result_ok : g_result = (7%nat, [(14, 9); (4, 3); (-46, 27)]).
Proof. vm. Qed.
