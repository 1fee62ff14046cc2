(** Every call terminates, and keeps all sizes nonnegative. *)
From Verif.Proofs Require Export Terminate3 Nodes.
From Verif.Model Require Export Api.

Section with_fops.
Context {fo : FOps}.
Notation any := (fun _ _ => True).
Lemma nd_new_handle m h : nd m any h -> nd (new_handle m) any h.
Proof. intros H. eapply nd_bind; [exact H|]. intros. by apply nd_ret. Qed.
Lemma nd_no_result m h : nd m any h -> nd (no_result m) any h.
Proof. intros H. eapply nd_bind; [exact H|]. intros. by apply nd_ret. Qed.
Lemma nd_un a f h : sized h -> (forall x, nd (f x) any h) -> nd (un a f) any h.
Proof. intros Hs H. apply nd_deref; [done|]. intros x _. by apply nd_new_handle. Qed.
Lemma nd_bin a b f h : sized h -> (forall x y, nd (f x y) any h) -> nd (bin a b f) any h.
Proof. intros Hs H. apply nd_deref; [done|]. intros x _. apply nd_deref; [done|]. intros y _. by apply nd_new_handle. Qed.
Lemma nd_query a f h : sized h -> nd (query a f) any h.
Proof. intros Hs. apply nd_deref; [done|]. intros x _. apply nd_get; [done|]. intros. by apply nd_ret. Qed.
Lemma nv_get_all ts : nv (get_all ts).
Proof. induction ts as [|t ts IH]; [done|]. cbn [get_all]. apply nv_bind; [apply nv_get_ten|]. intros. by apply nv_bind. Qed.
Lemma nv_before_null xs dim : nv (before_null xs dim).
Proof.
  apply nv_bind; [apply nv_get_all|]. intros [|r0 rest]; [done|]. apply nv_bind; [|intros]; unfold run_expect; by case_match.
Qed.
Lemma nv_deref_all xs ts dim : nv (deref_all xs ts dim).
Proof.
  revert xs. induction ts as [|[t|] ts IH]; intros xs; cbn [deref_all]; [done|apply IH|]. apply nv_bind; [apply nv_before_null|done].
Qed.
Lemma nd_exec o h : tinv h -> sized h -> size_ok o -> nd (exec o) any h.
Proof.
  intros Hi Hs Ho. unfold size_ok in Ho. destruct o; cbn [exec size_args] in *; try (by apply nd_query);
    try (apply nd_un; [done|]; intros); try (apply nd_bin; [done|]; intros);
    try (apply nd_new_handle).
  - by apply nd_create_scalar.
  - by apply nd_new.
  - apply nd_lift; [apply od_tinit|done|]. intros s E. eapply nd_bind; [apply nd_create_impl; [done|by eapply tinit_nonneg]|].
    intros. by apply nd_ret.
  - by apply nd_zeros.
  - by apply nd_ones.
  - unfold zeros_like. apply nd_get; [done|]. intros r _ Hr. by apply nd_zeros.
  - unfold ones_like. apply nd_get; [done|]. intros r _ Hr. by apply nd_ones.
  - by apply nd_full_int.
  - by apply nd_full_double.
  - by apply nd_eye.
  - by apply nd_from_blob.
  - by apply nd_randn.
  - apply nd_get; [done|]. intros r _ Hr. by apply nd_randn.
  - apply nd_binary; auto using st_tensor_add. intros. by apply nv_tensor_add.
  - by apply nd_op_sub.
  - apply nd_binary; auto using st_tensor_mul. intros. by apply nv_tensor_mul.
  - apply nd_binary; auto using st_tensor_div. intros. by apply nv_tensor_div.
  - by apply nd_ret.
  - eapply nd_bind; [by apply nd_create_scalar|]. intros. by apply nd_op_sub.
  - by apply nd_op_cmp.
  - apply nd_deref; [done|]. intros x _. apply nd_deref; [done|]. intros y _. apply nd_no_result. by eapply nd_weak, nd_addeq.
  - by apply nd_to_dtype.
  - by apply nd_slice.
  - by apply nd_transpose.
  - apply nd_get; [done|]. intros r _ Hr. apply nd_lift; [apply od_regularize|done|]. intros ss' E. apply nd_reshape_sv; [done|].
    by eapply regularize_nonneg.
  - apply nd_get; [done|]. intros r _ Hr. by apply nd_reshape_sv.
  - apply nd_read; [apply reads_deref_all|apply nv_deref_all|done|]. intros xs _. apply nd_new_handle. by apply nd_cat.
  - by apply nd_op_sum.
  - by apply nd_op_mean.
  - by apply nd_op_abs.
  - by apply nd_op_extremum.
  - by apply nd_op_extremum.
  - by apply nd_op_clone.
  - by apply nd_op_clone.
  - apply nd_get; [done|]. intros r _ Hr. by apply nd_new_view.
  - apply nd_deref; [done|]. intros x _. apply nd_no_result. by apply nd_backward.
  - apply nd_deref; [done|]. intros x _. apply nd_no_result. apply nd_kernel; [apply st_zero_grad| |done].
    unfold zero_grad. apply nv_bind; [apply nv_get_ten|]. intros. case_match; [|done].
    apply nv_bind; [apply nv_get_ten|]. intros. apply nv_sto_zero.
  - apply nd_deref; [done|]. intros x _. apply nd_no_result. apply nd_get; [done|]. intros r _ Hr.
    eapply (nd_bind _ _ any). { destruct b; [|by apply nd_ret]. by destruct (is_float _). }
    intros. by apply nd_set.
  - apply nd_deref; [done|]. intros x _. apply nd_get; [done|]. intros r _ Hr. apply nd_no_result. by apply nd_set.
  - apply nd_deref; [done|]. intros x _. apply nd_get; [done|]. intros r _ Hr. apply nd_no_result.
    apply nd_kernel; [apply st_sto_release|unfold sto_release; nv_tac|done].
  - apply nd_deref; [done|]. intros x _. eapply nd_bind; [by apply nd_all|]. intros. by apply nd_ret.
  - case_match; [|by apply nd_ret]. eapply nd_bind; [by apply nd_impl_to_string|]. intros. by apply nd_ret.
  - apply nd_deref; [done|]. intros x _. eapply (nd_bind _ _ any); [|intros; by apply nd_ret].
    apply nd_get; [done|]. intros. by apply nd_throw.
Qed.
Lemma nd_end {A} (m : E A) P h : nd m P h -> (m h).1 <> Diverge /\ sized (m h).2.
Proof. unfold nd, wp. destruct (m h) as [[?|?|?|] h']; simpl; intros [? ?]; done. Qed.
Lemma sized_run ops : forall h, tinv h -> sized h -> Forall size_ok ops -> (run h ops).1 <> Diverge /\ sized (run h ops).2.
Proof.
  induction ops as [|o ops IH]; intros h Hi Hs Ho; [done|]. apply Forall_cons in Ho as [Ho Hos]. cbn [run].
  destruct (nd_end _ _ _ (nd_exec o h Hi Hs Ho)) as [H1 H2]. pose proof (tinv_exec o h Hi) as H3.
  destruct (exec o h) as [[a|e|u|] h'] eqn:E; simpl in *; try done.
  - destruct (IH h' H3 H2 Hos) as [H4 H5]. by destruct (run h' ops) as [[?|?|?|] h''].
  - destruct (IH h' H3 H2 Hos) as [H4 H5]. by destruct (run h' ops) as [[?|?|?|] h''].
Qed.
(** the states that calls with nonnegative sizes reach *)
Lemma sized_reached ops rs h : Forall size_ok ops -> run empty_heap ops = (Ok rs, h) -> sized h.
Proof.
  intros Ho E. destruct (sized_run ops empty_heap) as [_ H]; [apply tinv_empty|done|done|]. by rewrite E in H.
Qed.
Lemma exec_terminates ops rs h o : Forall size_ok ops -> run empty_heap ops = (Ok rs, h) -> size_ok o ->
  (exec o h).1 <> Diverge.
Proof.
  intros Ho E Hso. eapply nd_end, nd_exec; [|by eapply sized_reached|done]. apply reachable_tinv. by exists ops, rs.
Qed.
End with_fops.
