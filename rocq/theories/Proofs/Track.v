(** Which results require gradients, and which are contiguous. *)
From Verif.Proofs Require Export Inv3 View.

Section with_fops.
Context {fo : FOps}.
Notation any := (fun _ _ => True).

(** a returned handle satisfies [P] *)
Definition handle_is (P : nat -> heap -> Prop) (x : ret) (h : heap) : Prop :=
  forall u, x = RHandle (Some u) -> P u h.
Lemma tv_handle m P h : tv m P h -> tv (new_handle m) (handle_is P) h.
Proof.
  intros H. eapply tv_bind; [exact H|]. intros a h' Hi' _ Ha. apply tv_ret; [done|]. intros u [= <-]. exact Ha.
Qed.
Lemma tv_un_handle (a : option nat) (f : nat -> E nat) P h : tinv h ->
  (forall t, a = Some t -> tv (f t) P h) -> tv (un a f) (handle_is P) h.
Proof.
  intros Hi Hf. unfold un. apply tv_read; [reads_tac|done|]. intros t Ht. destruct a as [x|]; [|done].
  injection Ht as ->. apply tv_handle. by apply Hf.
Qed.
Lemma tv_bin_handle (a b : option nat) (f : nat -> nat -> E nat) P h : tinv h ->
  (forall t u, a = Some t -> b = Some u -> tv (f t u) P h) -> tv (bin a b f) (handle_is P) h.
Proof.
  intros Hi Hf. unfold bin. apply tv_read; [reads_tac|done|]. intros t Ht. apply tv_read; [reads_tac|done|]. intros u Hu.
  destruct a as [x|]; [|done]. destruct b as [y|]; [|done]. injection Ht as ->. injection Hu as ->.
  apply tv_handle. by apply Hf.
Qed.

Definition tracked_like (h : heap) (ts : list handle) (u : nat) (h' : heap) : Prop :=
  forall rs, operands h ts rs -> rgd (existsb t_rg rs) u h'.
Lemma tracked_none h u h' : rgd false u h' -> tracked_like h [] u h'.
Proof. intros H rs Hrs. apply Forall2_nil_inv_l in Hrs as ->. exact H. Qed.
Lemma tracked_one h t u h' : like t h u h' -> tracked_like h [Some t] u h'.
Proof.
  intros H rs Hrs. apply Forall2_cons_inv_l in Hrs as (r & rs' & (i & [= <-] & Hr) & Hrs & ->).
  apply Forall2_nil_inv_l in Hrs as ->. simpl. rewrite orb_false_r. by apply H.
Qed.
Lemma tracked_two h t u v h' :
  (exists x y, h_ten h !! t = Some x /\ h_ten h !! u = Some y /\ rgd (t_rg x || t_rg y) v h') ->
  tracked_like h [Some t; Some u] v h'.
Proof.
  intros (x & y & Hx & Hy & H) rs Hrs.
  apply Forall2_cons_inv_l in Hrs as (r & rs' & (i & [= <-] & Hr) & Hrs & ->).
  apply Forall2_cons_inv_l in Hrs as (r' & rs'' & (i & [= <-] & Hr') & Hrs & ->).
  apply Forall2_nil_inv_l in Hrs as ->. simpl. rewrite orb_false_r. by replace r with x by congruence; replace r' with y by congruence.
Qed.
Lemma tv_fresh_none m h (h0 : heap) dt lay : tv m (Inv.fresh h dt lay) h -> tv m (tracked_like h0 []) h.
Proof. intros H. eapply tv_mono; [exact H|]. intros u h' _ _ Hf. apply tracked_none. by eapply fresh_is. Qed.
Lemma deref_all_inv_app zs ts dim h xs h' : deref_all zs ts dim h = (Ok xs, h') -> map Some zs ++ ts = map Some xs.
Proof.
  revert zs. induction ts as [|[t|] ts IH]; intros zs H; cbn [deref_all] in H.
  - injection H as <- <-. by rewrite app_nil_r.
  - apply IH in H. rewrite <- H, map_app, <- app_assoc. done.
  - unfold bind in H. by destruct (before_null zs dim h) as [[?|?|?|] ?].
Qed.
Lemma deref_all_inv ts dim h xs h' : deref_all [] ts dim h = (Ok xs, h') -> ts = map Some xs.
Proof. apply (deref_all_inv_app []). Qed.
Lemma tv_sources o ts h : tinv h -> track_sources o = Some ts -> tv (exec o) (handle_is (tracked_like h ts)) h.
Proof.
  intros Hi Hs. destruct o; simpl in Hs; try discriminate Hs; injection Hs as <-; cbn [exec].
  - eapply tv_handle, tv_fresh_none. by apply tv_create_scalar.
  - eapply tv_handle, tv_fresh_none. by apply tv_create'.
  - apply tv_read; [reads_tac|done|]. intros s _. eapply tv_bind; [by apply tv_create_impl|].
    intros x h1 Hi1 _ Hx. apply tv_ret; [done|]. intros u [= ->]. destruct (Hx u eq_refl) as (r & Hr & Hg & _).
    apply tracked_none. by exists r.
  - eapply tv_handle, tv_fresh_none. by apply tv_zeros.
  - eapply tv_handle, tv_fresh_none. by apply tv_ones.
  - apply tv_un_handle; [done|]. intros t _. unfold zeros_like. apply tv_get; [done|]. intros. eapply tv_fresh_none. by apply tv_zeros.
  - apply tv_un_handle; [done|]. intros t _. unfold ones_like. apply tv_get; [done|]. intros. eapply tv_fresh_none. by apply tv_ones.
  - eapply tv_handle, tv_fresh_none. by apply tv_full_int.
  - eapply tv_handle, tv_fresh_none. by apply tv_full_double.
  - eapply tv_handle, tv_fresh_none. by apply tv_eye.
  - eapply tv_handle, tv_fresh_none. by apply tv_from_blob.
  - eapply tv_handle, tv_fresh_none. by apply tv_randn.
  - apply tv_un_handle; [done|]. intros t _. apply tv_get; [done|]. intros. eapply tv_fresh_none. by apply tv_randn.
  - apply tv_bin_handle; [done|]. intros t u -> ->. eapply tv_mono; [apply tv_binop; [done|done|intros; apply st_tensor_add]|].
    intros. by apply tracked_two.
  - apply tv_bin_handle; [done|]. intros t u -> ->. eapply tv_mono; [apply tv_binop; [done|done|intros; apply st_tensor_sub]|].
    intros. by apply tracked_two.
  - apply tv_bin_handle; [done|]. intros t u -> ->. eapply tv_mono; [apply tv_binop; [done|done|intros; apply st_tensor_mul]|].
    intros. by apply tracked_two.
  - apply tv_bin_handle; [done|]. intros t u -> ->. eapply tv_mono; [apply tv_binop; [done|done|intros; apply st_tensor_div]|].
    intros. by apply tracked_two.
  - apply tv_un_handle; [done|]. intros t ->. apply tv_ret; [done|]. apply tracked_one. intros x Hx. by exists x.
  - apply tv_un_handle; [done|]. intros t ->. eapply tv_mono; [by apply tv_neg|]. intros. by apply tracked_one.
  - apply tv_bin_handle; [done|]. intros t u _ _. eapply tv_mono; [by apply tv_op_cmp|]. intros. by apply tracked_none.
  - apply tv_un_handle; [done|]. intros t ->. eapply tv_mono; [by apply tv_to_dtype|]. intros. by apply tracked_one.
  - apply tv_un_handle; [done|]. intros t ->. eapply tv_mono; [by apply tv_slice|]. intros. by apply tracked_one.
  - apply tv_un_handle; [done|]. intros t ->. eapply tv_mono; [by apply tv_transpose|]. intros. by apply tracked_one.
  - apply tv_un_handle; [done|]. intros t ->. unfold op_reshape. apply tv_get; [done|]. intros r _.
    apply tv_read; [reads_tac|done|]. intros ss' _. eapply tv_mono; [by apply tv_reshape_sv|]. intros. by apply tracked_one.
  - apply tv_bin_handle; [done|]. intros t u -> _. unfold op_reshape_as. apply tv_get; [done|]. intros r _.
    eapply tv_mono; [by apply tv_reshape_sv|]. intros. by apply tracked_one.
  - apply tv_read; [apply reads_deref_all|done|]. intros xs Hxs%deref_all_inv. apply tv_handle.
    eapply tv_mono; [by apply tv_op_cat|]. intros u h' _ _ (rs & Hrs & H) rs' Hrs'.
    replace rs' with rs; [done|]. subst. clear -Hrs Hrs'. unfold operands in Hrs'. revert rs' Hrs'.
    induction Hrs as [|i x xs rs Hi Hrs IH]; intros rs' Hrs'; simpl in Hrs'.
    + by apply Forall2_nil_inv_l in Hrs' as ->.
    + apply Forall2_cons_inv_l in Hrs' as (r & rs'' & (k & [= <-] & Hr) & Hrs' & ->).
      f_equal; [congruence|]. by apply IH.
  - apply tv_un_handle; [done|]. intros t ->. eapply tv_mono; [by apply tv_op_sum|]. intros. by apply tracked_one.
  - apply tv_un_handle; [done|]. intros t ->. eapply tv_mono; [by apply tv_op_mean|]. intros. by apply tracked_one.
  - apply tv_un_handle; [done|]. intros t ->. eapply tv_mono; [by apply tv_op_abs|]. intros. by apply tracked_one.
  - apply tv_un_handle; [done|]. intros t ->. eapply tv_mono; [by apply tv_op_extremum|]. intros. by apply tracked_one.
  - apply tv_un_handle; [done|]. intros t ->. eapply tv_mono; [by apply tv_op_extremum|]. intros. by apply tracked_one.
  - apply tv_un_handle; [done|]. intros t ->. eapply tv_mono; [by apply tv_op_clone|]. intros. by apply tracked_one.
  - apply tv_un_handle; [done|]. intros t ->. eapply tv_mono; [by apply tv_op_clone|]. intros. by apply tracked_one.
  - apply tv_un_handle; [done|]. intros t _. eapply tv_mono; [by apply tv_detach|]. intros. by apply tracked_none.
Qed.
Lemma tv_ok {A} (m : E A) P h a h' : tv m P h -> m h = (Ok a, h') -> tinv h' /\ P a h'.
Proof. unfold tv, wp. intros H E. rewrite E in H. tauto. Qed.

(** C42 *)
Lemma tracked_floating h t r : reachable h -> h_ten h !! t = Some r -> t_rg r = true -> t_dt r = F32 \/ t_dt r = F64.
Proof. intros Hr%reachable_tinv Ht Hg. pose proof (ok_rg _ _ _ (Hr t r Ht) Hg). destruct (t_dt r); auto; done. Qed.
Lemma integer_rejected h t r : h_ten h !! t = Some r -> t_dt r <> F32 -> t_dt r <> F64 ->
  exec (ORequires (Some t) true) h = (Throw RuntimeError, h).
Proof.
  intros Ht H1 H2. cbn [exec]. unfold deref. rewrite bind_ret. unfold no_result, set_requires_grad.
  rewrite bind_assoc. erewrite bind_ok by (by apply get_ten_ok). unfold run_expect.
  destruct (t_dt r); try done.
Qed.
Lemma tracking_propagates h o ts rs u h' : reachable h -> track_sources o = Some ts -> operands h ts rs ->
  exec o h = (Ok (RHandle (Some u)), h') ->
  exists r, h_ten h' !! u = Some r /\ (t_rg r = true <-> exists x, x ∈ rs /\ t_rg x = true).
Proof.
  intros Hr%reachable_tinv Hs Hop He. destruct (tv_ok _ _ _ _ _ (tv_sources o ts h Hr Hs) He) as [_ H].
  destruct (H u eq_refl rs Hop) as (r & Hr' & E). exists r. split; [done|]. rewrite E, existsb_exists.
  split; intros (x & Hx & Hg); exists x; split; try done; by apply elem_of_list_In.
Qed.

(** ** contiguity *)
Fixpoint wsteps (step : Z) (rn : list Z) : Z :=
  match rn with [] => step | n :: r => wsteps (s64 (u64 (step * n))) r end.
Lemma wsteps_app step a n : wsteps step (a ++ [n]) = s64 (u64 (wsteps step a * n)).
Proof. revert step. induction a as [|x a IH]; intros step; simpl; [done|]. by rewrite IH. Qed.
Lemma contiguous_rev_app step rs rn s n : length rs = length rn ->
  contiguous_rev step (rs ++ [s]) (rn ++ [n]) = contiguous_rev step rs rn && (wsteps step rn =? s).
Proof.
  revert step rs. induction rn as [|m rn IH]; intros step [|x rs] Hl; try done; simpl.
  - by destruct (step =? s).
  - destruct (step =? x); [|done]. apply IH. by injection Hl.
Qed.
Lemma contig_strides_length ss : length (contig_strides ss) = length ss.
Proof. induction ss as [|n [|m r] IH]; [done|done|]. cbn [contig_strides length] in *. by rewrite IH. Qed.
Lemma contig_head n r : nth 0 (contig_strides (n :: r)) 0 = wsteps 1 (rev r).
Proof.
  revert n. induction r as [|m r IH]; intros n; [done|].
  change (s64 (u64 (nth 0 (contig_strides (m :: r)) 0 * m)) = wsteps 1 (rev (m :: r))).
  rewrite IH. simpl rev. by rewrite wsteps_app.
Qed.
Lemma contig_contiguous ss : is_contiguous (contig ss) = true.
Proof.
  unfold is_contiguous, ldim, contig. simpl. rewrite firstn_all2 by (rewrite contig_strides_length; lia).
  induction ss as [|n r IH]; [done|]. simpl rev at 2. destruct (contig_strides (n :: r)) as [|s st] eqn:E.
  { by destruct r. }
  simpl rev. assert (st = contig_strides r) as ->.
  { destruct r as [|m r]; [by injection E as <- <-|]. cbn [contig_strides] in E. by injection E. }
  rewrite contiguous_rev_app by (by rewrite !rev_length, contig_strides_length). rewrite IH. simpl.
  pose proof (contig_head n r) as Hh. rewrite E in Hh. simpl in Hh. subst. apply Z.eqb_refl.
Qed.
Lemma fresh_contiguous o h u h' : reachable h -> makes_fresh o = true -> exec o h = (Ok (RHandle (Some u)), h') ->
  exec (QContiguous (Some u)) h' = (Ok (RBool true), h').
Proof.
  intros Hr%reachable_tinv Hm He.
  assert (tv (exec o) (handle_is (is (fun r => exists ss, t_lay r = contig ss))) h) as H.
  { assert (forall m dt ss, tv m (Inv.fresh h dt (contig ss)) h -> tv m (is (fun r => exists ss, t_lay r = contig ss)) h) as Hf.
    { intros m dt ss H. eapply tv_mono; [exact H|]. intros t x _ _ (_ & _ & s & Hs). eexists. split; [exact Hs|]. by exists ss. }
    assert (forall t, tv (op_clone t) (is (fun r => exists ss, t_lay r = contig ss)) h) as Hc.
    { intros t. destruct (h_ten h !! t) as [r|] eqn:Et.
      - eapply tv_mono; [by eapply tv_op_clone'|]. intros t' x _ _ [_ [[_ (_ & _ & s & Hs)]|(_ & (z & Hz & _ & _ & _ & Hl & _) & _)]].
        + eexists. split; [exact Hs|]. by eexists.
        + exists z. split; [done|]. by eexists.
      - unfold op_clone. apply tv_get; [done|]. intros. congruence. }
    destruct o; try discriminate Hm; cbn [exec].
    - eapply tv_handle, Hf. by apply tv_create_scalar.
    - eapply tv_handle, Hf. by apply tv_create'.
    - apply tv_read; [reads_tac|done|]. intros s _. eapply tv_bind; [by apply tv_create_impl|].
      intros x h1 Hi1 _ Hx. apply tv_ret; [done|]. intros v [= ->]. destruct (Hx v eq_refl) as (r & Hr' & Hg & Hl).
      exists r. split; [done|]. by eexists.
    - eapply tv_handle, Hf. by apply tv_zeros.
    - eapply tv_handle, Hf. by apply tv_ones.
    - apply tv_un_handle; [done|]. intros t _. unfold zeros_like. apply tv_get; [done|]. intros. eapply Hf. by apply tv_zeros.
    - apply tv_un_handle; [done|]. intros t _. unfold ones_like. apply tv_get; [done|]. intros. eapply Hf. by apply tv_ones.
    - eapply tv_handle, Hf. by apply tv_full_int.
    - eapply tv_handle, Hf. by apply tv_full_double.
    - eapply tv_handle, Hf. by apply tv_eye.
    - eapply tv_handle, Hf. by apply tv_from_blob.
    - eapply tv_handle, Hf. by apply tv_randn.
    - apply tv_un_handle; [done|]. intros t _. apply tv_get; [done|]. intros. eapply Hf. by apply tv_randn.
    - by apply tv_un_handle.
    - by apply tv_un_handle. }
  destruct (tv_ok _ _ _ _ _ H He) as [_ Hx]. destruct (Hx u eq_refl) as (r & Hu & ss & Hl).
  cbn [exec]. unfold query, deref. rewrite bind_ret. erewrite bind_ok by (by apply get_ten_ok).
  by rewrite Hl, contig_contiguous.
Qed.

(** is_contiguous is sound for every backed layout *)
Lemma in_range_zeros ss : Forall (fun n => 0 < n) ss -> in_range ss (map (fun _ => 0) ss).
Proof. induction 1 as [|n ss Hn Hss IH]; [apply Forall2_nil_2|]. simpl. apply Forall2_cons_2; [lia|done]. Qed.
Lemma in_range_pos ss idx : in_range ss idx -> Forall (fun n => 0 < n) ss.
Proof. induction 1 as [|n i ss idx Hn H IH]; constructor; [lia|done]. Qed.
Lemma dot_zeros st ss : dot st (map (fun _ : Z => 0) ss) = 0.
Proof. revert st. induction ss as [|n ss IH]; intros [|s st]; simpl; try done. rewrite IH. lia. Qed.

(** the trailing dimensions [ss] are packed *)
Lemma contiguous_exact ss : forall st off n idx0, length st = length ss -> in_range ss idx0 ->
  (forall idx, in_range ss idx -> 0 <= off + dot st idx < n) -> n < two63 -> 0 <= off ->
  contiguous_rev 1 (rev st) (rev ss) = true ->
  wsteps 1 (rev ss) = size_prod ss /\ off + size_prod ss <= n /\
  forall idx, in_range ss idx -> dot st idx = row_major ss idx.
Proof.
  induction ss as [|m ss IH]; intros st off n idx0 Hl H0 Hin Hn Hoff Hc.
  - destruct st; [|done]. split; [done|]. assert (in_range [] []) as Hnil by apply Forall2_nil_2. specialize (Hin [] Hnil). simpl in *. split; [lia|].
    intros idx Hi. by apply Forall2_nil_inv_l in Hi as ->.
  - destruct st as [|s st]; [done|]. simpl in Hl. simpl rev in Hc.
    rewrite contiguous_rev_app in Hc by (by rewrite !rev_length; lia). apply andb_true_iff in Hc as [Hc1 Hc2].
    apply Z.eqb_eq in Hc2. apply Forall2_cons_inv_l in H0 as (i0 & idx1 & Hi0 & H1 & ->).
    destruct (IH st off n idx1) as (W & B & D); [lia|done| |done|done|done|].
    { intros idx Hi. specialize (Hin (0 :: idx)). simpl in Hin. rewrite Z.mul_0_r, Z.add_0_l in Hin. apply Hin.
      apply Forall2_cons_2; [lia|done]. }
    assert (0 < size_prod ss) as Hp.
    { clear -H1. induction H1 as [|? ? ? ? ? ? IH]; simpl; [lia|]. apply Z.mul_pos_pos; [lia|done]. }
    assert (s = size_prod ss) as -> by congruence.
    assert (off + m * size_prod ss <= n) as HB.
    { (* the element (m-1, last) *)
      pose proof (in_range_pos _ _ H1) as Hpos.
      assert (in_range ss (map (fun k => k - 1) ss)) as Hlast.
      { clear -Hpos. induction Hpos; [apply Forall2_nil_2|]. simpl. apply Forall2_cons_2; [lia|done]. }
      assert (row_major ss (map (fun k => k - 1) ss) = size_prod ss - 1) as Hrm.
      { clear. induction ss as [|k ss IHs]; [done|]. simpl. rewrite IHs. ring. }
      specialize (Hin (m - 1 :: map (fun k => k - 1) ss)). simpl in Hin. rewrite (D _ Hlast), Hrm in Hin.
      assert (in_range (m :: ss) (m - 1 :: map (fun k => k - 1) ss)) as HR by (apply Forall2_cons_2; [lia|done]).
      specialize (Hin HR). nia. }
    split; [|split].
    + simpl rev. rewrite wsteps_app, W. simpl. rewrite Z.mul_comm. rewrite s64_u64. apply s64_id. unfold two63 in *. nia.
    + simpl. done.
    + intros idx Hi. apply Forall2_cons_inv_l in Hi as (i & idx' & Hi1 & Hi2 & ->). simpl. rewrite (D _ Hi2). ring.
Qed.
Lemma is_contiguous_sound h r cs idx : backed h r cs -> is_contiguous (t_lay r) = true -> in_range (shape r) idx ->
  pos (t_lay r) idx = offset (t_lay r) + row_major (shape r) idx.
Proof.
  intros (_ & (Hl & Hs & Ho) & Hin & Hn) Hc Hi. unfold pos. f_equal. unfold is_contiguous, ldim in Hc. unfold shape in *.
  set (st := firstn (length (sizes (t_lay r))) (strides (t_lay r))) in *.
  assert (length st = length (sizes (t_lay r))) as Hlen by (unfold st; rewrite firstn_length; lia).
  assert (forall i, in_range (sizes (t_lay r)) i -> dot (strides (t_lay r)) i = dot st i) as Hd.
  { intros i Hr%in_range_length. unfold st. rewrite <- Hr. clear. generalize (strides (t_lay r)) as s.
    induction i as [|x i IH]; intros [|y s]; simpl; try done. by rewrite IH. }
  destruct (contiguous_exact (sizes (t_lay r)) st (offset (t_lay r)) (Z.of_nat (length cs)) idx) as (_ & _ & D); try done.
  - intros i Hi'. rewrite <- Hd by done. by apply Hin.
  - lia.
  - rewrite Hd by done. by apply D.
Qed.

(** ** transposing twice *)
Lemma reachable_exec o h x h' : reachable h -> exec o h = (x, h') -> (forall e, x <> UB e) -> x <> Diverge -> reachable h'.
Proof.
  intros (ops & rs & Hr) He Hu Hd. exists (ops ++ [o]). revert Hr. generalize (@empty_heap fo) as h0. revert rs.
  induction ops as [|a ops IH]; intros rs h0 Hr; cbn [run app] in Hr |- *.
  - injection Hr as <- <-. rewrite He. destruct x; try done; [by eexists|by eexists|by edestruct Hu].
  - destruct (exec a h0) as [[y|e|?|] h2]; try done;
      (destruct (run h2 ops) as [[l|?|?|] h3] eqn:E; try done; injection Hr as <- <-;
       destruct (IH _ _ E) as (rs' & ->); by eexists).
Qed.
Lemma transpose_twice h t r d0 d1 : reachable h -> h_ten h !! t = Some r -> lay_ok (t_lay r) ->
  0 <= d0 < Z.of_nat (length (shape r)) -> 0 <= d1 < Z.of_nat (length (shape r)) -> d0 <> d1 ->
  exists t' t'' h' h'' r'', exec (OTranspose (Some t) d0 d1) h = (Ok (RHandle (Some t')), h') /\
    exec (OTranspose (Some t') d0 d1) h' = (Ok (RHandle (Some t'')), h'') /\
    h_ten h'' !! t'' = Some r'' /\ same_data r r''.
Proof.
  intros Hr Ht Hok H0 H1 Hne.
  assert (forall h t r, reachable h -> h_ten h !! t = Some r -> grad_ok h r) as Hg.
  { intros g u x Hg%reachable_grads_exist Hu k Hk. by eapply Hg. }
  destruct (transpose_new h t r d0 d1) as (t' & h' & r' & E & Hv & Hr' & Hl'); eauto.
  assert (reachable h') as Hrh by (by eapply reachable_exec).
  unfold shape in *. destruct Hv as (_ & _ & x & Hx & Hdt & Hsto & Hss & _). replace x with r' in * by congruence.
  assert (length (sizes (t_lay r)) <= length (strides (t_lay r)))%nat as Hls by apply Hok.
  assert (length (shape r') = length (sizes (t_lay r))) as Hlen.
  { unfold shape. rewrite Hl'. simpl. by rewrite swap_at_length. }
  destruct (transpose_new h' t' r' d0 d1) as (t'' & h'' & r'' & E2 & Hv2 & Hr2 & Hl2); eauto.
  { rewrite Hl'. apply swap_lay_ok; done || lia. }
  { lia. } { lia. }
  destruct Hv2 as (_ & _ & y & Hy & Hdt2 & Hsto2 & _). replace y with r'' in * by congruence.
  exists t', t'', h', h'', r''. split; [done|]. split; [done|]. split; [done|].
  split; [congruence|]. split; [|congruence]. rewrite Hl2, Hl'. destruct (t_lay r) as [ss st off]. unfold swap_lay. simpl in *.
  rewrite !swap_at_twice by lia. done.
Qed.

(** ** backward's preconditions *)
Lemma backward_rejects h t r : h_ten h !! t = Some r -> Forall (fun n => 0 <= n) (shape r) -> size_prod (shape r) < two64 ->
  t_rg r = false \/ t_fn r = None \/ size_prod (shape r) <> 1 ->
  exec (OBackward (Some t)) h = (Throw RuntimeError, h).
Proof.
  intros Ht Hs Hp Hbad. cbn [exec]. unfold deref. rewrite bind_ret. unfold no_result, backward.
  rewrite bind_assoc. erewrite bind_ok by (by apply get_ten_ok).
  destruct (t_rg r); [|done]. cbn [run_expect]. rewrite bind_assoc. erewrite bind_ok by done.
  destruct (t_fn r); [|done]. rewrite bind_assoc. erewrite bind_ok by done.
  assert (lnumel (t_lay r) = size_prod (shape r)) as -> by (by apply numel_of_exact).
  destruct (Z.eqb_spec (size_prod (shape r)) 1); [|done]. exfalso. destruct Hbad as [|[|]]; done.
Qed.
Lemma backward_only_grads h t : reachable h -> kept_outside (is_grad_buffer h) h (exec (OBackward t) h).2.
Proof. intros Hr%reachable_grads_exist. by apply backward_keeps_data. Qed.

(** ** dtype, layout and buffer of a tensor never change *)
Lemma st_deref (a : option nat) : st (deref a).
Proof. apply st_reads. reads_tac. Qed.
Lemma mono_exec o h : grads_exist h -> mono h (exec o h).2.
Proof.
  intros Hg. destruct (mutates o) eqn:Em.
  - assert (forall A (m : E A), st m -> mono h (m h).2) as Hst by (intros A m H; apply mono_eq, H).
    destruct o; try discriminate Em.
    + apply Hst. cbn [exec]. unfold no_result, bin. repeat (apply st_bind; [first [apply st_deref|apply st_addeq]|intros]); done.
    + exact (proj2 (backward_keeps_data h a Hg)).
    + apply Hst. cbn [exec]. unfold no_result. repeat (apply st_bind; [first [apply st_deref|apply st_zero_grad]|intros]); done.
    + apply Hst. cbn [exec]. unfold no_result. repeat (apply st_bind; [first [apply st_deref|apply st_get_ten|apply st_sto_release]|intros]); done.
  - exact (proj2 (op_keeps_data h o Em)).
Qed.
Lemma mono_run ops : forall h, tinv h -> mono h (run h ops).2.
Proof.
  induction ops as [|o ops IH]; intros h Hi; [apply mono_refl|]. cbn [run]. pose proof (tinv_exec o h Hi) as H1.
  pose proof (mono_exec o h (tinv_grads_exist _ Hi)) as H2.
  destruct (exec o h) as [[r|e|u|] h']; simpl in H1, H2; try done;
  (specialize (IH h' H1); eapply mono_trans; [exact H2|]; by destruct (run h' ops) as [[?|?|?|] ?]).
Qed.
Lemma detach_shares h t r : reachable h -> h_ten h !! t = Some r ->
  exists t' h' r', exec (ODetach (Some t)) h = (Ok (RHandle (Some t')), h') /\
    h_ten h !! t' = None /\ h_ten h' !! t' = Some r' /\ same_data r r' /\
    t_rg r' = false /\ t_fn r' = None /\ t_grad r' = None /\
    forall ops, elems (run h' ops).2 t' = elems (run h' ops).2 t.
Proof.
  intros Hr Ht. destruct (detach_new h t r Ht) as (h' & r' & E & Hs & Hten & H1 & H2 & H3 & H4 & H5 & H6).
  exists (length (h_ten h)), h', r'.
  assert (h_ten h' !! length (h_ten h) = Some r') as Hr'.
  { rewrite Hten, lookup_app_r, Nat.sub_diag by lia. done. }
  split; [done|]. split; [by apply lookup_ge_None_2|]. split; [done|].
  split; [done|]. split_and!; try done. intros ops.
  assert (reachable h') as Hr2%reachable_tinv by (by eapply reachable_exec).
  assert (h_ten h' !! t = Some r) as Ht'. { rewrite Hten. by apply lookup_app_l_Some. }
  destruct (mono_run ops h' Hr2 _ _ Hr') as (a & Ha & Ea). destruct (mono_run ops h' Hr2 _ _ Ht') as (b & Hb & Eb).
  unfold elems. rewrite Ha, Hb. destruct Ea as (Ea1 & Ea2 & Ea3). destruct Eb as (Eb1 & Eb2 & Eb3).
  unfold shape, contents, elem. by rewrite <- Ea2, <- Ea3, <- Eb2, <- Eb3, H2, H3.
Qed.
Lemma transpose_view h t r d0 d1 : reachable h -> h_ten h !! t = Some r -> lay_ok (t_lay r) ->
  0 <= d0 < Z.of_nat (length (shape r)) -> 0 <= d1 < Z.of_nat (length (shape r)) -> d0 <> d1 ->
  exists t' h', exec (OTranspose (Some t) d0 d1) h = (Ok (RHandle (Some t')), h') /\
    new_view h h' r t' (exchange (Z.to_nat d0) (Z.to_nat d1) (shape r)) (exchange (Z.to_nat d0) (Z.to_nat d1)) (t_rg r).
Proof.
  intros Hr Ht Hok H0 H1 Hne. destruct (transpose_new h t r d0 d1) as (t' & h' & r' & E & Hv & _); eauto.
  intros k Hk. by eapply (reachable_grads_exist h).
Qed.
End with_fops.
