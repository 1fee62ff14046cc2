(** Every call of the API leaves existing buffers with their type and size. *)
From Verif.Proofs Require Export Sto Init.

Section with_fops.
Context {fo : FOps}.

Lemma ss_create_impl s : (s = Spec [] None [] \/ exists ss dt, ss <> [] /\ full_spec s ss dt) ->
  ss (create_impl s).
Proof.
  intros [->|(sh & dt & Hne & F1 & F2 & F3 & F4)]; [apply ss_ret|].
  intros h. unfold create_impl. rewrite F1. destruct sh as [|n sh]; [done|]. rewrite F2, bind_lift. cbn [lift].
  erewrite bind_ok by apply create_noalloc.
  erewrite bind_ok by (apply get_ten_ok; cbn [h_ten]; by rewrite lookup_app_r, Nat.sub_diag).
  erewrite bind_ok by (apply get_sto_ok; cbn [h_sto t_sto]; by rewrite lookup_app_r, Nat.sub_diag).
  cbn [t_sto sto_ty sto_bytes]. erewrite bind_ok by done.
  cbn [mret snd h_sto]. rewrite insert_app_r_alt, Nat.sub_diag by lia. cbn [insert list_insert].
  apply rs_new. split; [apply u64_range|]. cbn [sto_blob sto_ty sto_bytes]. rewrite map_length, F3.
  set (ss' := n :: sh) in *. pose proof (size_of_pos dt). pose proof (size_prod_nonneg _ F4).
  assert (u64 (size_of dt * lnumel (contig ss')) <= size_of dt * size_prod ss') as Hle.
  { unfold lnumel. rewrite numel_of_mod. cbn [sizes contig]. unfold u64. etransitivity; [apply Z.mod_le|]; unfold two64.
    - pose proof (Z.mod_pos_bound (size_prod ss') 18446744073709551616). nia.
    - lia.
    - apply Z.mul_le_mono_nonneg_l; [lia|]. apply Z.mod_le; lia. }
  etransitivity; [apply Z.div_le_mono; [done|exact Hle]|]. rewrite Z.mul_comm, Z.div_mul by lia. done.
Qed.
Lemma ss_new_handle m : ss m -> ss (new_handle m). Proof. intros. unfold new_handle. ss_tac. done. Qed.
Lemma ss_deref {A} (a : option A) : ss (deref a).
Proof. destruct a; cbn [deref]; [apply ss_ret|apply ss_ub]. Qed.
Lemma ss_un a f : (forall t, ss (f t)) -> ss (un a f).
Proof. intros. unfold un. apply ss_bind; [apply ss_deref|]. intros. by apply ss_new_handle. Qed.
Lemma ss_bin a b f : (forall t u, ss (f t u)) -> ss (bin a b f).
Proof. intros. unfold bin. do 2 (apply ss_bind; [apply ss_deref|intros ?]). by apply ss_new_handle. Qed.
Lemma ss_query a f : ss (query a f).
Proof. unfold query. apply ss_bind; [apply ss_deref|intros ?]. ss_tac. Qed.
Lemma ss_op_sum t : ss (op_sum t). Proof. unfold op_sum. ss_tac; apply ss_track || apply ss_tensor_sum || apply ss_zeros. Qed.
Lemma ss_op_mean t : ss (op_mean t). Proof. unfold op_mean. ss_tac; apply ss_track || apply ss_tensor_mean || apply ss_zeros. Qed.
Lemma ss_op_abs t : ss (op_abs t). Proof. unfold op_abs, zeros_like. ss_tac; apply ss_track || apply ss_tensor_abs || apply ss_zeros. Qed.
Lemma ss_op_extremum c t : ss (op_extremum c t). Proof. unfold op_extremum, zeros_like. ss_tac; apply ss_track || apply ss_tensor_extremum || apply ss_zeros. Qed.
Lemma ss_op_cmp c a b : ss (op_cmp c a b). Proof. unfold op_cmp. ss_tac; apply ss_track || apply ss_tensor_cmp || apply ss_zeros. Qed.
Lemma ss_to_dtype t dt : ss (to_dtype t dt). Proof. unfold to_dtype. ss_tac; apply ss_track || apply ss_tensor_to_type || apply ss_zeros. Qed.
Lemma ss_eye n m dt : ss (eye n m dt). Proof. unfold eye. ss_tac; apply ss_track || apply ss_tensor_eye || apply ss_zeros. Qed.
Lemma ss_op_slice t x : ss (op_slice t x). Proof. unfold op_slice. ss_tac; apply ss_finish. Qed.
Lemma ss_op_transpose t x y : ss (op_transpose t x y). Proof. unfold op_transpose. ss_tac; apply ss_finish. Qed.
Lemma ss_op_detach t : ss (op_detach t). Proof. unfold op_detach. ss_tac. Qed.
Lemma ss_set_requires t x : ss (set_requires_grad t x). Proof. unfold set_requires_grad. ss_tac; apply ss_zeros. Qed.
Lemma ss_deref_all xs l d : ss (deref_all xs l d).
Proof. apply ss_reads, reads_deref_all. Qed.
Lemma ss_no_result m : ss m -> ss (no_result m). Proof. intros. unfold no_result. ss_tac. done. Qed.
Lemma ss_zeros_like t : ss (zeros_like t). Proof. unfold zeros_like. apply ss_bind; [ss_tac|intros]. apply ss_zeros. Qed.
Lemma ss_ones_like t : ss (ones_like t). Proof. unfold ones_like. apply ss_bind; [ss_tac|intros]. apply ss_ones. Qed.
Lemma ss_reshape t x : ss (op_reshape t x).
Proof. unfold op_reshape. apply ss_bind; [ss_tac|intros]. apply ss_bind; [ss_tac|intros]. apply ss_reshape_sv. Qed.
Lemma ss_reshape_as t x : ss (op_reshape_as t x).
Proof. unfold op_reshape_as. apply ss_bind; [ss_tac|intros]. apply ss_reshape_sv. Qed.
Lemma ss_neg t : ss (op_neg t).
Proof.
  unfold op_neg. apply ss_bind; [apply ss_create_scalar|intros]. apply ss_binary. intros. apply ss_tensor_sub.
Qed.
Lemma ss_init t : ss (exec (OInit t)).
Proof.
  intros h. cbn [exec]. rewrite bind_lift. destruct (tinit_spec t) as [s| | |] eqn:E; try apply rs_refl.
  cbn [lift]. apply ss_bind; [by apply ss_create_impl, (spec_full t)|]. intros. apply ss_ret.
Qed.
Lemma ss_exec o : ss (exec o).
Proof.
  destruct o; try apply ss_init; cbn [exec].
  1: apply ss_new_handle, ss_create_scalar.
  1: apply ss_new_handle, ss_create.
  1: apply ss_new_handle, ss_zeros.
  1: apply ss_new_handle, ss_ones.
  1: apply ss_un; intros; apply ss_zeros_like.
  1: apply ss_un; intros; apply ss_ones_like.
  1-2: apply ss_new_handle; unfold full_int, full_double; apply ss_bind;
    [apply ss_create_scalar|intros; apply ss_fill_new].
  1: apply ss_new_handle, ss_eye.
  1: apply ss_new_handle, ss_from_blob.
  1: apply ss_new_handle, ss_randn.
  1: apply ss_un; intros; apply ss_bind; [ss_tac|intros; apply ss_randn].
  1: apply ss_bin; intros; apply ss_binary; intros; apply ss_tensor_add.
  1: apply ss_bin; intros; apply ss_binary; intros; apply ss_tensor_sub.
  1: apply ss_bin; intros; apply ss_binary; intros; apply ss_tensor_mul.
  1: apply ss_bin; intros; apply ss_binary; intros; apply ss_tensor_div.
  1: apply ss_un; intros; apply ss_ret.
  1: apply ss_un; intros; apply ss_neg.
  1: apply ss_bin; intros; apply ss_op_cmp.
  1: do 2 (apply ss_bind; [apply ss_deref|intros]); apply ss_no_result, ss_addeq.
  1: apply ss_un; intros; apply ss_to_dtype.
  1: apply ss_un; intros; apply ss_op_slice.
  1: apply ss_un; intros; apply ss_op_transpose.
  1: apply ss_un; intros; apply ss_reshape.
  1: apply ss_bin; intros; apply ss_reshape_as.
  1: apply ss_bind; [apply ss_deref_all|intros]; apply ss_new_handle, ss_op_cat.
  1: apply ss_un; intros; apply ss_op_sum.
  1: apply ss_un; intros; apply ss_op_mean.
  1: apply ss_un; intros; apply ss_op_abs.
  1-2: apply ss_un; intros; apply ss_op_extremum.
  1-2: apply ss_un; intros; apply ss_clone.
  1: apply ss_un; intros; apply ss_op_detach.
  1: apply ss_query.
  1: apply ss_bind; [apply ss_deref|intros]; apply ss_no_result, ss_backward.
  1: apply ss_bind; [apply ss_deref|intros]; apply ss_no_result, ss_zero_grad.
  1: apply ss_bind; [apply ss_deref|intros]; apply ss_no_result, ss_set_requires.
  1: apply ss_bind; [apply ss_deref|intros]; apply ss_bind; [ss_tac|intros]; apply ss_no_result, ss_set_ten.
  1: apply ss_bind; [apply ss_deref|intros]; apply ss_bind; [ss_tac|intros]; apply ss_no_result, ss_sto_release.
  1: apply ss_bind; [apply ss_deref|intros]; apply ss_bind; [apply ss_op_all|intros; apply ss_ret].
  1: { destruct a; [|apply ss_ret]. apply ss_bind; [|intros; apply ss_ret]. unfold impl_to_string.
    apply ss_bind; [ss_tac|intros]. apply ss_reads, reads_to_string. }
  1: apply ss_query.
  1: { apply ss_bind; [apply ss_deref|intros]. unfold op_stride. ss_tac. }
  all: apply ss_query.
Qed.

Lemma run_rs ops : forall h rs' h', run h ops = (Ok rs', h') -> rs (h_sto h) (h_sto h').
Proof.
  induction ops as [|o ops IH]; intros h rs' h' Hr.
  - injection Hr as <- <-. apply rs_refl.
  - cbn [run] in Hr. pose proof (ss_exec o h) as Ho. destruct (exec o h) as [x h1]. cbn [snd] in Ho.
    destruct (run h1 ops) as [y h2] eqn:E2. specialize (IH h1).
    assert (exists l, run h1 ops = (Ok l, h')) as [l El].
    { rewrite E2. destruct x; try discriminate; destruct y; try discriminate; injection Hr as _ <-; eauto. }
    eapply rs_trans; [exact Ho|]. by eapply IH.
Qed.
Lemma reachable_sok h : reachable h -> Forall sok (h_sto h).
Proof. intros (ops & l & Hr). apply (run_rs _ _ _ _ Hr). constructor. Qed.
End with_fops.
