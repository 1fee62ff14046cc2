(** The record invariant through cat, backward and whole histories. *)
From Verif.Proofs Require Export Inv2.

Section with_fops.
Context {fo : FOps}.
Notation any := (fun _ _ => True).

Lemma get_all_inv ts h rs h' : get_all ts h = (Ok rs, h') -> h' = h /\ Forall2 (fun i x => h_ten h !! i = Some x) ts rs.
Proof.
  revert rs h'. induction ts as [|t ts IH]; intros rs h' H; cbn [get_all] in H.
  - injection H as <- <-. done.
  - unfold bind, get_ten in H. destruct (h_ten h !! t) as [x|] eqn:Ht; [|done].
    destruct (get_all ts h) as [[xs|?|?|] h1] eqn:E; try done. injection H as <- <-.
    destruct (IH _ _ eq_refl) as [-> H2].
    split; [done|]. by apply Forall2_cons_2.
Qed.
Lemma fold_larger_float rs : forall dt, is_float dt = true \/ (exists r, r ∈ rs /\ is_float (t_dt r) = true) ->
  is_float (fold_left (fun t r => larger_type t (t_dt r)) rs dt) = true.
Proof.
  induction rs as [|x rs IH]; intros dt H; simpl.
  - destruct H as [H|(r & Hr & _)]; [done|]. by apply elem_of_nil in Hr.
  - apply IH. destruct H as [H|(r & Hr & Hf)].
    + left. by apply is_float_join_l.
    + apply elem_of_cons in Hr as [->|Hr]; [left; by apply is_float_join_r|right; eauto].
Qed.
Lemma mono_forall2 h h' ins rs : mono h h' -> Forall2 (fun i x => h_ten h !! i = Some x) ins rs ->
  exists rs', Forall2 (fun i x => h_ten h' !! i = Some x) ins rs' /\ map t_lay rs' = map t_lay rs /\ map t_dt rs' = map t_dt rs.
Proof.
  intros M H. induction H as [|i x ins rs Hi Hins (rs' & H1 & H2 & H3)]; [by exists []|].
  destruct (mono_get _ _ _ _ M Hi) as (x' & Hx' & A1 & A2 & A3). exists (x' :: rs'). simpl. rewrite H2, H3, A1, A2.
  split; [by apply Forall2_cons_2|done].
Qed.
Lemma tv_op_cat ts dim h : tinv h ->
  tv (op_cat ts dim) (fun u h' => exists rs, Forall2 (fun i x => h_ten h !! i = Some x) ts rs /\ rgd (existsb t_rg rs) u h') h.
Proof.
  intros Hi. unfold op_cat. apply tv_read; [apply reads_get_all|done|]. intros rs [_ Hrs]%get_all_inv.
  destruct rs as [|r0 rest]; [by apply tv_ub|]. cbv zeta.
  apply tv_read; [reads_tac|done|]. intros [] Hdim. apply tv_read; [reads_tac|done|]. intros [] Hcomp.
  eapply tv_bind; [by apply tv_create|]. intros u h1 Hi1 M1 [Hu [s E1]].
  apply tv_get; [done|]. intros d _. apply tv_kernel; [apply st_cat_copy|done|]. intros _ h2 Hi2 E2.
  assert (Hs : h_ten h2 = h_ten h ++ _) by (rewrite E2; exact E1).
  destruct (existsb t_rg (r0 :: rest)) eqn:Hg.
  - eapply tv_mono; [eapply tv_track_ret; [done|rewrite Hs, Hu; apply lookup_snoc| | |]|].
    + apply (fold_larger_float (r0 :: rest)). right. apply existsb_exists in Hg as (r & Hr%elem_of_list_In & Hrg).
      exists r. split; [done|]. apply elem_of_list_lookup in Hr as (n & Hn).
      destruct (Forall2_lookup_r _ _ _ _ _ Hrs Hn) as (i & Hin & Hr').
      by apply (ok_rg _ _ _ (Hi i r Hr')).
    + apply Forall_forall. intros i Hii. apply elem_of_list_lookup in Hii as (n & Hn).
      destruct (Forall2_lookup_l _ _ _ _ _ Hrs Hn) as (x & _ & Hx). rewrite Hu. by eapply lookup_lt_Some.
    + assert (mono h h2) as M2 by (by eapply mono_app).
      eapply (fn_fits_mono h); [done|apply same_data_refl|]. simpl. exists (r0 :: rest), r0. split; [done|]. split; [done|].
      unfold shape. simpl. unfold run_expect in Hdim, Hcomp. destruct (_ && _) eqn:Ed; [|done]. clear Hdim.
      destruct (forallb _ _) eqn:Ec; [|done]. clear Hcomp.
      split; [lia|]. split; [|done]. apply Forall_forall. intros x Hx.
      rewrite forallb_forall in Ec. apply Ec. by apply elem_of_list_In.
    + intros v h' _ _ H. exists (r0 :: rest). rewrite Hg. done.
  - apply tv_ret; [done|]. exists (r0 :: rest). split; [done|]. rewrite Hg.
    eexists. rewrite Hs, Hu, lookup_snoc. done.
Qed.

(** ** backward *)
Lemma tv_set_fn t r f f' h : tinv h -> h_ten h !! t = Some r -> t_fn r = Some f ->
  gf_kind f' = gf_kind f -> gf_in f' = gf_in f ->
  tv (set_ten t (with_fn r (Some f'))) (fun _ h' => h' = Hp (h_sto h) (<[t := with_fn r (Some f')]> (h_ten h)) (h_ver h)) h.
Proof.
  intros Hi Hr Hf E1 E2. eapply tv_set; [done|done|done|]. destruct (Hi t r Hr) as [H1 H2 H3]. split; [done|done|].
  intros g [= <-]. rewrite E1, E2. destruct (H3 f Hf) as (A & B & C). split; [done|]. split; [done|].
  eapply fn_fits_mono; [apply mono_refl| |exact C]. done.
Qed.
Lemma tv_upd_fn t f h : (forall g, gf_kind (f g) = gf_kind g /\ gf_in (f g) = gf_in g) -> tinv h -> tv (upd_fn t f) any h.
Proof.
  intros Hf Hi. unfold upd_fn. apply tv_get; [done|]. intros r Hr. destruct (t_fn r) as [g|] eqn:E; [|by apply tv_ub].
  destruct (Hf g). eapply tv_weak, tv_set_fn; done.
Qed.
Lemma tv_stp {A} (m : E A) h : st m -> tinv h -> tv m any h.
Proof. intros. eapply tv_weak. by apply tv_st. Qed.
Lemma tv_update p h : tinv h -> tv (try_accumulate_update p) any h.
Proof.
  intros Hi. unfold try_accumulate_update. apply tv_get; [done|]. intros r Hr. case_match; [by apply tv_ret|].
  eapply (tv_bind _ _ any).
  { case_match; [by apply tv_upd_fn|by apply tv_ret]. }
  intros _ h1 Hi1 M1 _. destruct (mono_get _ _ _ _ M1 Hr) as (r1 & Hr1 & X1 & X2 & X3). destruct (t_grad r) as [g|].
  - apply tv_get; [done|]. intros gr _. apply tv_kernel; [apply st_sto_is_alloc|done|]. intros a h2 Hi2 _.
    destruct a; [by apply tv_ret|]. apply tv_stp; [|done]. apply st_bind; [apply st_sto_alloc|]. intros. apply st_sto_zero.
  - eapply tv_bind; [by apply tv_create'|]. intros g h2 Hi2 M2 Hf. apply tv_get; [done|]. intros p' Hp'.
    destruct (mono_get _ _ _ _ M2 Hr1) as (r2 & Hr2 & Y1 & Y2 & Y3). assert (p' = r2) as -> by congruence.
    eapply tv_bind; [apply tv_set_grad; [done|done|]|].
    + intros x [= <-]. destruct Hf as (_ & _ & s & Hs). eexists. split; [exact Hs|]. unfold shape. simpl.
      rewrite Y1, Y2, X1, X2. done.
    + intros _ h3 Hi3 _ _. apply tv_get; [done|]. intros gr _. apply tv_stp; [apply st_sto_zero|done].
Qed.
Lemma tv_acc p w o h : tinv h -> tv (try_accumulate_grad p w o) any h.
Proof.
  intros Hi. unfold try_accumulate_grad. apply tv_get; [done|]. intros r _. case_match; [by apply tv_ret|].
  eapply tv_bind; [by apply tv_update|]. intros _ h1 Hi1 _ _.
  apply tv_stp; [|done]. destruct o, w; st_tac; try apply st_addeq; try apply st_mul_add;
    try (apply st_reads; reads_tac); done.
Qed.
Lemma tv_out_grad {B} this (k : nat -> E B) P h : tinv h -> (forall g, tv (k g) P h) -> tv (bind (out_grad this) k) P h.
Proof. intros Hi Hk. apply tv_read; [unfold out_grad; reads_tac|done|]. intros. apply Hk. Qed.
Lemma tv_input {B} ins i (k : nat -> E B) P h : tinv h -> (forall a, tv (k a) P h) -> tv (bind (input ins i) k) P h.
Proof. intros Hi Hk. apply tv_read; [unfold input; reads_tac|done|]. intros. apply Hk. Qed.
Lemma tv_cat_back this dim ins s h : tinv h -> tv (cat_back this dim ins s) any h.
Proof.
  revert s h. induction ins as [|t ins IH]; intros s h Hi; [by apply tv_ret|]. cbn [cat_back].
  apply tv_get; [done|]. intros me _. apply tv_get; [done|]. intros x _. cbv zeta.
  apply tv_read; [reads_tac|done|]. intros g _. apply tv_get; [done|]. intros gr _.
  eapply tv_bind; [by apply tv_create_view|]. intros v h1 Hi1 _ _.
  eapply tv_bind; [by apply tv_acc|]. intros _ h2 Hi2 _ _. by apply IH.
Qed.
Lemma tv_step_back this k ins h : tinv h -> tv (step_back this k ins) any h.
Proof.
  intros Hi. destruct k; cbn [step_back].
  - apply tv_input; [done|]. intros a. apply tv_input; [done|]. intros b. apply tv_out_grad; [done|]. intros g.
    eapply tv_bind; [by apply tv_acc|]. intros _ h1 Hi1 _ _. apply tv_out_grad; [done|]. intros. by apply tv_acc.
  - apply tv_input; [done|]. intros a. apply tv_input; [done|]. intros b. apply tv_out_grad; [done|]. intros g.
    eapply tv_bind; [by apply tv_acc|]. intros _ h1 Hi1 _ _. apply tv_out_grad; [done|]. intros.
    eapply tv_bind; [by apply tv_create_scalar|]. intros m h2 Hi2 _ _. by apply tv_acc.
  - apply tv_input; [done|]. intros a. apply tv_input; [done|]. intros b. apply tv_out_grad; [done|]. intros g.
    eapply tv_bind; [by apply tv_acc|]. intros _ h1 Hi1 _ _. apply tv_out_grad; [done|]. intros. by apply tv_acc.
  - apply tv_input; [done|]. intros a. apply tv_input; [done|]. intros b.
    eapply tv_bind; [by apply tv_update|]. intros _ h1 Hi1 _ _. apply tv_get; [done|]. intros ar _.
    apply tv_read; [reads_tac|done|]. intros ga _. apply tv_out_grad; [done|]. intros g.
    apply tv_kernel; [apply st_div_num_f|done|]. intros _ h2 Hi2 _.
    eapply tv_bind; [by apply tv_update|]. intros _ h3 Hi3 _ _. apply tv_get; [done|]. intros br _.
    apply tv_get; [done|]. intros me _. apply tv_read; [unfold dispatch_ff; by case_match|done|]. intros _ _.
    apply tv_read; [reads_tac|done|]. intros gb _. apply tv_out_grad; [done|]. intros g2.
    apply tv_get; [done|]. intros gbr _. apply tv_get; [done|]. intros gr _. apply tv_stp; [apply st_div_den|done].
  - apply tv_input; [done|]. intros a. eapply (tv_bind _ _ any).
    { unfold ones_like. apply tv_get; [done|]. intros. eapply tv_weak. by apply tv_ones. }
    intros o h1 Hi1 _ _. apply tv_out_grad; [done|]. intros. by apply tv_acc.
  - apply tv_input; [done|]. intros a. apply tv_get; [done|]. intros ar _.
    eapply tv_bind; [by apply tv_full_double|]. intros o h1 Hi1 _ _. by apply tv_acc.
  - apply tv_input; [done|]. intros a. by apply tv_acc.
  - apply tv_input; [done|]. intros a. apply tv_out_grad; [done|]. intros. by apply tv_acc.
  - by apply tv_cat_back.
  - apply tv_input; [done|]. intros a. apply tv_out_grad; [done|]. intros. by apply tv_acc.
Qed.
Lemma tv_visit_reset ins h : tinv h -> tv (visit_reset ins) any h.
Proof.
  revert h. induction ins as [|i ins IH]; intros h Hi; [by apply tv_ret|]. cbn [visit_reset].
  apply tv_get; [done|]. intros r Hr. apply tv_read; [done|done|]. intros v _. destruct (t_fn r) as [g|] eqn:E; [|by apply IH].
  case_match; [|by apply IH]. eapply tv_bind; [by eapply tv_set_fn|]. intros _ h1 Hi1 _ _.
  eapply tv_bind; [by apply IH|]. intros q h2 Hi2 _ _. by apply tv_ret.
Qed.
Lemma tv_visit_count ins h : tinv h -> tv (visit_count ins) any h.
Proof.
  revert h. induction ins as [|i ins IH]; intros h Hi; [by apply tv_ret|]. cbn [visit_count].
  apply tv_get; [done|]. intros r Hr. apply tv_read; [done|done|]. intros v _. destruct (t_fn r) as [g|] eqn:E; [|by apply IH].
  cbv zeta. case_match.
  - eapply tv_bind; [by eapply tv_set_fn|]. intros _ h1 Hi1 _ _.
    eapply tv_bind; [by apply IH|]. intros q h2 Hi2 _ _. by apply tv_ret.
  - eapply tv_bind; [by eapply tv_set_fn|]. intros _ h1 Hi1 _ _. by apply IH.
Qed.
Lemma tv_visit_ready ins h : tinv h -> tv (visit_ready ins) any h.
Proof.
  revert h. induction ins as [|i ins IH]; intros h Hi; [by apply tv_ret|]. cbn [visit_ready].
  apply tv_get; [done|]. intros r Hr. apply tv_read; [done|done|]. intros v _. destruct (t_fn r) as [g|] eqn:E; [|by apply IH].
  case_match; [|by apply IH]. eapply tv_bind; [by eapply tv_set_fn|]. intros _ h1 Hi1 _ _.
  eapply tv_bind; [by apply IH|]. intros q h2 Hi2 _ _. by apply tv_ret.
Qed.
Lemma tv_bfs fuel body q h : (forall t h, tinv h -> tv (body t) any h) -> tinv h -> tv (bfs fuel body q) any h.
Proof.
  intros Hb. revert q h. induction fuel as [|n IH]; intros q h Hi; destruct q as [|t q]; cbn [bfs];
    try (by apply tv_ret); try exact Hi.
  eapply tv_bind; [by apply Hb|]. intros. by apply IH.
Qed.
Lemma tv_get_fn {B} t (k : gradfn -> E B) P h : tinv h -> (forall g, tv (k g) P h) -> tv (bind (get_fn t) k) P h.
Proof. intros Hi Hk. apply tv_read; [unfold get_fn; reads_tac|done|]. intros. apply Hk. Qed.
Lemma tv_process t h : tinv h -> tv (process t) any h.
Proof.
  intros Hi. unfold process. apply tv_get_fn; [done|]. intros g. eapply tv_bind; [by apply tv_step_back|].
  intros _ h1 Hi1 _ _. apply tv_get; [done|]. intros r Hr. eapply (tv_bind _ _ any).
  { case_match; [by apply tv_ret|]. eapply tv_weak, tv_set_grad; done. }
  intros _ h2 Hi2 _ _. apply tv_get_fn; [done|]. intros g2. by apply tv_visit_ready.
Qed.
Lemma tv_bump h : tinv h -> tv bump any h.
Proof. intros Hi. split; [by eapply tinv_same|]. split; [by apply mono_eq|done]. Qed.
Lemma tv_backward t h : tinv h -> tv (backward t) any h.
Proof.
  intros Hi. unfold backward. apply tv_get; [done|]. intros r Hr.
  do 3 (apply tv_read; [reads_tac|done|]; intros _ _). apply tv_read; [done|done|]. intros n _.
  eapply (tv_bind _ _ any).
  { unfold refresh_n_outway. apply tv_read; [done|done|]. intros m _.
    eapply tv_bind; [by apply tv_bump|]. intros v h1 Hi1 _ _.
    eapply tv_bind; [by apply tv_upd_fn|]. intros _ h2 Hi2 _ _.
    eapply tv_bind; [apply tv_bfs; [|done]|].
    { intros x h3 Hi3. apply tv_get_fn; [done|]. intros g. by apply tv_visit_reset. }
    intros _ h3 Hi3 _ _. eapply tv_bind; [by apply tv_bump|]. intros v' h4 Hi4 _ _.
    eapply tv_bind; [by apply tv_upd_fn|]. intros _ h5 Hi5 _ _. apply tv_bfs; [|done].
    intros x h6 Hi6. apply tv_get_fn; [done|]. intros g. by apply tv_visit_count. }
  intros _ h1 Hi1 M1 _. destruct (mono_get _ _ _ _ M1 Hr) as (r1 & Hr1 & X1 & X2 & X3).
  eapply tv_bind; [by eapply tv_ones_like|]. intros o h2 Hi2 M2 Hf. apply tv_get; [done|]. intros r2 Hr2.
  destruct (mono_get _ _ _ _ M2 Hr1) as (r2' & Hr2' & Y1 & Y2 & Y3). assert (r2' = r2) as -> by congruence.
  eapply tv_bind; [apply tv_set_grad; [done|done|]|].
  { intros x [= <-]. destruct Hf as (_ & _ & s & Hs). eexists. split; [exact Hs|]. unfold shape. simpl. rewrite Y1, Y2. done. }
  intros _ h3 Hi3 _ _. eapply tv_bind; [by apply tv_bump|]. intros v h4 Hi4 _ _.
  eapply tv_bind; [by apply tv_upd_fn|]. intros _ h5 Hi5 _ _. apply tv_bfs; [|done]. intros. by apply tv_process.
Qed.

(** ** every call *)
Lemma tv_un (a : option nat) (f : nat -> E nat) h : tinv h -> (forall t, tv (f t) any h) -> tv (un a f) any h.
Proof.
  intros Hi Hf. unfold un. apply tv_read; [reads_tac|done|]. intros t _. eapply tv_bind; [apply Hf|].
  intros. by apply tv_ret.
Qed.
Lemma tv_bin (a b : option nat) (f : nat -> nat -> E nat) h : tinv h -> (forall t u, tv (f t u) any h) -> tv (bin a b f) any h.
Proof.
  intros Hi Hf. unfold bin. apply tv_read; [reads_tac|done|]. intros t _. apply tv_read; [reads_tac|done|]. intros u _.
  eapply tv_bind; [apply Hf|]. intros. by apply tv_ret.
Qed.
Lemma tv_new_handle m h : tv m any h -> tv (new_handle m) any h.
Proof. intros H. eapply tv_bind; [exact H|]. intros. by apply tv_ret. Qed.
Lemma tv_query a f h : tinv h -> tv (query a f) any h.
Proof.
  intros Hi. unfold query. apply tv_read; [reads_tac|done|]. intros t _. apply tv_get; [done|]. intros. by apply tv_ret.
Qed.
Lemma tv_no_result m h : tv m any h -> tv (no_result m) any h.
Proof. intros H. eapply tv_bind; [exact H|]. intros. by apply tv_ret. Qed.

Lemma st_op_all x : st (op_all x).
Proof.
  unfold op_all. apply st_bind; [apply st_get_ten|]. intros r. cbv zeta. case_match; [done|]. case_match.
  - apply st_bind; [apply st_lift|]. intros. apply st_reads, reads_load_bool.
  - apply st_bind; [|done]. apply st_odometer. intros sv. apply st_bind; [apply st_lift|]. intros.
    apply st_bind; [apply st_reads, reads_load_bool|done].
Qed.
Lemma tv_exec o h : tinv h -> tv (exec o) any h.
Proof.
  intros Hi. destruct o; cbn [exec];
    try (apply tv_un; [done|]; intros t);
    try (apply tv_bin; [done|]; intros t u);
    try (by apply tv_query).
  - apply tv_new_handle. eapply tv_weak. by apply tv_create_scalar.
  - apply tv_new_handle. eapply tv_weak. by apply tv_create'.
  - apply tv_read; [reads_tac|done|]. intros s _. eapply tv_bind; [by apply tv_create_impl|]. intros. by apply tv_ret.
  - apply tv_new_handle. eapply tv_weak. by apply tv_zeros.
  - apply tv_new_handle. eapply tv_weak. by apply tv_ones.
  - unfold zeros_like. apply tv_get; [done|]. intros. eapply tv_weak. by apply tv_zeros.
  - unfold ones_like. apply tv_get; [done|]. intros. eapply tv_weak. by apply tv_ones.
  - apply tv_new_handle. eapply tv_weak. by apply tv_full_int.
  - apply tv_new_handle. eapply tv_weak. by apply tv_full_double.
  - apply tv_new_handle. eapply tv_weak. by apply tv_eye.
  - apply tv_new_handle. eapply tv_weak. by apply tv_from_blob.
  - apply tv_new_handle. eapply tv_weak. by apply tv_randn.
  - apply tv_get; [done|]. intros. eapply tv_weak. by apply tv_randn.
  - eapply tv_weak, tv_binop; [done|done|intros; apply st_tensor_add].
  - eapply tv_weak, tv_binop; [done|done|intros; apply st_tensor_sub].
  - eapply tv_weak, tv_binop; [done|done|intros; apply st_tensor_mul].
  - eapply tv_weak, tv_binop; [done|done|intros; apply st_tensor_div].
  - by apply tv_ret.
  - eapply tv_weak. by apply tv_neg.
  - eapply tv_weak. by apply tv_op_cmp.
  - do 2 (apply tv_read; [reads_tac|done|]; intros ? _). apply tv_no_result, tv_stp; [apply st_addeq|done].
  - eapply tv_weak. by apply tv_to_dtype.
  - eapply tv_weak. by apply tv_slice.
  - eapply tv_weak. by apply tv_transpose.
  - unfold op_reshape. apply tv_get; [done|]. intros r _. apply tv_read; [reads_tac|done|]. intros ss' _.
    eapply tv_weak. by apply tv_reshape_sv.
  - unfold op_reshape_as. apply tv_get; [done|]. intros r _. eapply tv_weak. by apply tv_reshape_sv.
  - apply tv_read; [apply reads_deref_all|done|]. intros xs _. apply tv_new_handle. eapply tv_weak. by apply tv_op_cat.
  - eapply tv_weak. by apply tv_op_sum.
  - eapply tv_weak. by apply tv_op_mean.
  - eapply tv_weak. by apply tv_op_abs.
  - eapply tv_weak. by apply tv_op_extremum.
  - eapply tv_weak. by apply tv_op_extremum.
  - eapply tv_weak. by apply tv_op_clone.
  - eapply tv_weak. by apply tv_op_clone.
  - eapply tv_weak. by apply tv_detach.
  - apply tv_read; [reads_tac|done|]. intros x _. apply tv_no_result. by apply tv_backward.
  - apply tv_read; [reads_tac|done|]. intros x _. apply tv_no_result, tv_stp; [apply st_zero_grad|done].
  - apply tv_read; [reads_tac|done|]. intros x _. apply tv_no_result. unfold set_requires_grad.
    apply tv_get; [done|]. intros r Hr. apply tv_read; [by case_match; reads_tac|done|]. intros [] Hb.
    eapply tv_weak, tv_set; [done|done|done|]. destruct (Hi x r Hr) as [H1 H2 H3]. split; [|done|].
    + simpl. intros ->. unfold run_expect in Hb. by destruct (is_float (t_dt r)).
    + intros f Hf. destruct (H3 f Hf) as (A & B & C). split; [done|]. split; [done|].
      eapply fn_fits_mono; [apply mono_refl| |exact C]. done.
  - apply tv_read; [reads_tac|done|]. intros x _. apply tv_get; [done|]. intros r Hr. apply tv_no_result.
    eapply tv_weak, tv_set; [done|done|done|]. destruct (Hi x r Hr) as [H1 H2 H3]. split; [done|done|].
    intros f Hf. destruct (H3 f Hf) as (A & B & C). split; [done|]. split; [done|].
    eapply fn_fits_mono; [apply mono_refl| |exact C]. done.
  - apply tv_read; [reads_tac|done|]. intros x _. apply tv_get; [done|]. intros r Hr. apply tv_no_result.
    apply tv_stp; [apply st_sto_release|done].
  - apply tv_read; [reads_tac|done|]. intros x _. eapply (tv_bind _ _ any); [|intros; by apply tv_ret].
    apply tv_stp; [|done]. apply st_op_all.
  - case_match; [|by apply tv_ret]. eapply (tv_bind _ _ any); [|intros; by apply tv_ret].
    apply tv_stp; [|done]. apply st_reads. unfold impl_to_string. apply reads_bind; [apply reads_get_ten|].
    intros. apply reads_to_string.
  - apply tv_read; [reads_tac|done|]. intros x _. eapply (tv_bind _ _ any); [|intros; by apply tv_ret].
    unfold op_stride. apply tv_get; [done|]. intros. by apply tv_throw.
Qed.
Lemma tv_out {A} (m : E A) P h : tv m P h -> tinv (m h).2.
Proof. unfold tv, wp. destruct (m h) as [[?|?|?|] ?]; simpl; tauto. Qed.
Lemma tinv_exec o h : tinv h -> tinv (exec o h).2.
Proof. intros. eapply tv_out. by apply tv_exec. Qed.
Lemma tinv_run ops : forall h, tinv h -> tinv (run h ops).2.
Proof.
  induction ops as [|o ops IH]; intros h Hi; [done|]. cbn [run]. pose proof (tinv_exec o h Hi) as H1.
  destruct (exec o h) as [[r|e|u|] h']; simpl in H1; try done.
  - specialize (IH h' H1). destruct (run h' ops) as [[?|?|?|] ?]; done.
  - specialize (IH h' H1). destruct (run h' ops) as [[?|?|?|] ?]; done.
Qed.
Lemma tinv_empty : tinv empty_heap.
Proof. intros t r H. by destruct t. Qed.
Lemma reachable_tinv h : reachable h -> tinv h.
Proof. intros (ops & rs & E). pose proof (tinv_run ops _ tinv_empty) as H. by rewrite E in H. Qed.
Lemma tinv_grads_exist h : tinv h -> grads_exist h.
Proof. intros Hi t r g Hr Hg. destruct (ok_grad _ _ _ (Hi t r Hr) g Hg) as (gr & -> & _). by eexists. Qed.
Lemma reachable_grads_exist h : reachable h -> grads_exist h.
Proof. intros H. by apply tinv_grads_exist, reachable_tinv. Qed.
End with_fops.
