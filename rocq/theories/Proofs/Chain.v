(** Views stay inside their buffer. *)
From Verif.Spec Require Export Chain.
From Verif.Proofs Require Export StoAll Slice Reshape2.

Definition lay_sane (l : layout) (n : Z) : Prop :=
  0 ∈ sizes l \/ (lay_ok l /\ lay_in l n /\ lay_inj l).

Section with_fops.
Context {fo : FOps}.

(** ** newly created tensors *)
Definition fresh_at (u : nat) (h : heap) : Prop :=
  exists r x ss, h_ten h !! u = Some r /\ t_lay r = contig ss /\ h_sto h !! t_sto r = Some x /\
    sto_ty x = t_dt r /\ sto_bytes x = u64 (size_of (t_dt r) * lnumel (t_lay r)).
Lemma fresh_at_mono u h h' : mono h h' -> rs (h_sto h) (h_sto h') -> fresh_at u h -> fresh_at u h'.
Proof.
  intros M [R _] (r & x & ss & Hr & Hl & Hx & E1 & E2). destruct (M _ _ Hr) as (r' & Hr' & D1 & D2 & D3).
  destruct (R _ _ Hx) as (x' & Hx' & S1 & S2 & _). exists r', x', ss. rewrite <- D1, <- D2, <- D3.
  split; [done|]. split; [done|]. split; [done|]. split; congruence.
Qed.
Definition keeps {A} (m : E A) : Prop := ss m /\ forall h, mono h (m h).2.
Lemma keeps_st {A} (m : E A) : ss m -> st m -> keeps m.
Proof. intros H1 H2. split; [done|]. intros h. apply mono_eq, H2. Qed.
Lemma keeps_reads {A} (m : E A) : reads m -> keeps m.
Proof. intros. apply keeps_st; [by apply ss_reads|by apply st_reads]. Qed.
Lemma keeps_track t k l : keeps (track t k l).
Proof.
  split; [apply ss_track|]. intros h. unfold track, bind, get_ten. destruct (h_ten h !! t) as [r|] eqn:E; [|apply mono_refl].
  by apply (mono_set h t r).
Qed.
Lemma keeps_bind {A B} (m : E A) (k : A -> E B) : keeps m -> (forall a, keeps (k a)) -> keeps (bind m k).
Proof.
  intros [H1 H2] H. split; [apply ss_bind; [done|]; intros; apply H|]. intros h. specialize (H2 h).
  unfold bind. destruct (m h) as [[a|?|?|] h']; try done. eapply mono_trans; [exact H2|]. apply H.
Qed.
Lemma keeps_create dt l b : keeps (create dt l b).
Proof.
  split; [apply ss_create|]. intros h. unfold create. destruct b.
  - unfold new_blob. destruct (_ <=? _); [|apply mono_refl]. by eapply mono_app.
  - by eapply mono_app.
Qed.
Definition from (u : nat) (m : E nat) : Prop :=
  forall h v h', fresh_at u h -> m h = (Ok v, h') -> fresh_at v h'.
Definition makes (m : E nat) : Prop := forall h v h', m h = (Ok v, h') -> fresh_at v h'.
Lemma from_ret u : from u (mret u).
Proof. intros h v h' H [= <- <-]. done. Qed.
Lemma from_bind {A} u (m : E A) k : keeps m -> (forall a, from u (k a)) -> from u (bind m k).
Proof.
  intros [H1 H2] Hk h v h' Hf E. unfold bind in E. specialize (H1 h). specialize (H2 h).
  destruct (m h) as [[a|?|?|] h1]; try done. eapply Hk; [|exact E]. by eapply fresh_at_mono.
Qed.
Lemma makes_bind {A} (m : E A) k : (forall a, makes (k a)) -> makes (bind m k).
Proof.
  intros Hk h v h' E. unfold bind in E. destruct (m h) as [[a|?|?|] h1]; try done. by eapply Hk.
Qed.
Lemma makes_from m k : makes m -> (forall u, from u (k u)) -> makes (bind m k).
Proof.
  intros Hm Hk h v h' E. unfold bind in E. destruct (m h) as [[a|?|?|] h1] eqn:Em; try done. eapply Hk; [|exact E]. by eapply Hm.
Qed.
Lemma makes_create dt sh b : makes (create dt (contig sh) b).
Proof.
  intros h v h' E. unfold create in E. destruct b.
  - unfold new_blob in E. destruct (_ <=? _); [|done]. cbn in E. injection E as <- <-.
    eexists _, _, _. cbn. rewrite lookup_app_r, Nat.sub_diag by lia. split; [done|]. split; [done|].
    cbn. rewrite lookup_app_r, Nat.sub_diag by lia. done.
  - cbn in E. injection E as <- <-.
    eexists _, _, _. cbn. rewrite lookup_app_r, Nat.sub_diag by lia. split; [done|]. split; [done|].
    cbn. rewrite lookup_app_r, Nat.sub_diag by lia. done.
Qed.
Lemma makes_throw e : makes (mthrow e). Proof. done. Qed.
Lemma makes_ub e : makes (mub e). Proof. done. Qed.
Lemma keeps_kernel {A} (m : E A) : st m -> ss m -> keeps m. Proof. intros. by apply keeps_st. Qed.
Lemma keeps_if {A} (b : bool) (m n : E A) : keeps m -> keeps n -> keeps (if b then m else n).
Proof. by destruct b. Qed.
Lemma keeps_ret {A} (a : A) : keeps (mret a). Proof. by apply keeps_reads, reads_ret. Qed.
Lemma from_if u (b : bool) m n : from u m -> from u n -> from u (if b then m else n).
Proof. by destruct b. Qed.
Lemma from_done {A} u (m : E A) : keeps m -> from u (m ;;; mret u).
Proof. intros. apply from_bind; [done|]. intros. apply from_ret. Qed.
Lemma from_get u t k : (forall r, from u (k r)) -> from u (bind (get_ten t) k).
Proof. intros. apply from_bind; [by apply keeps_reads, reads_get_ten|done]. Qed.
Lemma from_tracked u (b : bool) k l : from u (if b then mret u else track u k l ;;; mret u).
Proof. apply from_if; [apply from_ret|]. apply from_done, keeps_track. Qed.

Lemma makes_create_scalar dt v : makes (create_scalar dt v).
Proof.
  apply makes_from; [apply makes_create|]. intros u. apply from_get. intros r. apply from_done, keeps_st; [apply ss_store|apply st_store].
Qed.
Lemma makes_fill_new l dt a nt : makes (fill_new l dt a nt).
Proof.
  apply makes_from; [apply makes_create|]. intros u. do 2 (apply from_get; intros).
  apply from_done, keeps_st; [apply ss_tensor_fill|apply st_tensor_fill].
Qed.
Lemma makes_zeros l dt : makes (zeros l dt).
Proof.
  apply makes_from; [apply makes_create|]. intros u. apply from_get. intros r.
  apply from_done, keeps_st; [apply ss_sto_zero|apply st_sto_zero].
Qed.
Lemma makes_ones l dt : makes (ones l dt).
Proof. apply makes_bind. intros. apply makes_fill_new. Qed.
Lemma makes_eye n m dt : makes (eye n m dt).
Proof.
  apply makes_from; [apply makes_create|]. intros u. apply from_get. intros r.
  apply from_bind; [apply keeps_st; [apply ss_sto_zero|apply st_sto_zero]|]. intros.
  apply from_done, keeps_st; [apply ss_tensor_eye|apply st_tensor_eye].
Qed.
Lemma makes_randn l dt x : makes (op_randn l dt x).
Proof.
  apply makes_bind. intros _. apply makes_from; [apply makes_create|]. intros u. apply from_get. intros r.
  apply from_done, keeps_st; [apply ss_mapM; intros; apply ss_randn_write|apply st_mapM; intros; apply st_randn_write].
Qed.
Lemma makes_from_blob d l dt : makes (from_blob d l dt).
Proof.
  intros h v h' E. pose proof (ss_from_blob d l dt h) as Hs. rewrite E in Hs. cbn [snd] in Hs.
  unfold from_blob in E. pose proof (makes_create dt l true h) as Hc. unfold bind in E at 1.
  destruct (create dt (contig l) true h) as [[u|?|?|] h1]; try done. specialize (Hc u h1 eq_refl).
  unfold bind in E at 1. unfold get_ten in E. destruct (h_ten h1 !! u) as [r|] eqn:Er; [|done].
  unfold bind at 1, get_sto in E. destruct (h_sto h1 !! t_sto r) as [x|] eqn:Ex; [|done].
  destruct (sto_blob x) as [cs|] eqn:Eb; [|done]. destruct (_ <? _) eqn:El; [done|]. injection E as <- <-.
  destruct Hc as (r1 & x1 & sh & H1 & H2 & H3 & H4 & H5). assert (r1 = r) as -> by congruence.
  assert (x1 = x) as -> by congruence.
  exists r, (Sto (sto_ty x) (sto_bytes x) (Some (map Some (firstn (length cs) d)))), sh.
  split; [done|]. split; [done|]. split; [|done]. cbn. apply list_lookup_insert. by eapply lookup_lt_Some.
Qed.
Lemma makes_clone t : makes (op_clone t).
Proof.
  apply makes_bind. intros r. apply makes_from; [apply makes_create|]. intros u. apply from_get. intros d.
  apply from_bind; [apply keeps_st; [apply ss_tensor_clone|apply st_tensor_clone]|]. intros _. apply from_tracked.
Qed.
Lemma makes_nograd kernel l r o : (forall a b c d e, keeps (kernel a b c d e)) ->
  makes (apply_no_grad_binary_op kernel l r o).
Proof.
  intros Hk. do 3 (apply makes_bind; intros). apply makes_from; [apply makes_create|]. intros u. apply from_get. intros d.
  apply from_done. repeat apply keeps_if; apply Hk.
Qed.
Lemma makes_binary kernel k l r o : (forall a b c d e, keeps (kernel a b c d e)) ->
  makes (apply_binary_operator kernel k l r o).
Proof.
  intros Hk. apply makes_from; [by apply makes_nograd|]. intros u. do 2 (apply from_get; intros). apply from_tracked.
Qed.
Lemma makes_cmp c l r : makes (op_cmp c l r).
Proof.
  do 3 (apply makes_bind; intros). apply makes_from; [apply makes_create|]. intros u. apply from_get. intros d.
  apply from_done, keeps_st; [apply ss_tensor_cmp|apply st_tensor_cmp].
Qed.
Lemma makes_sum t : makes (op_sum t).
Proof.
  apply makes_bind. intros r. apply makes_from; [apply makes_zeros|]. intros u. apply from_get. intros d.
  apply from_bind; [apply keeps_st; [apply ss_tensor_sum|apply st_tensor_sum]|]. intros _.
  apply from_done, keeps_if; [apply keeps_track|apply keeps_ret].
Qed.
Lemma makes_mean t : makes (op_mean t).
Proof.
  apply makes_bind. intros r. apply makes_from; [apply makes_zeros|]. intros u. apply from_get. intros d.
  apply from_bind; [apply keeps_st; [apply ss_tensor_mean|apply st_tensor_mean]|]. intros _.
  apply from_done, keeps_if; [apply keeps_track|apply keeps_ret].
Qed.
Lemma keeps_zeros l dt : keeps (zeros l dt).
Proof.
  apply keeps_bind; [apply keeps_create|]. intros. apply keeps_bind; [apply keeps_reads, reads_get_ten|]. intros.
  apply keeps_bind; [apply keeps_st; [apply ss_sto_zero|apply st_sto_zero]|]. intros. apply keeps_ret.
Qed.
Lemma makes_extremum c t : makes (op_extremum c t).
Proof.
  apply makes_bind. intros r. apply makes_from; [apply makes_zeros|]. intros u. apply from_get. intros d.
  apply from_if.
  - apply from_done, keeps_st; [apply ss_tensor_extremum|apply st_tensor_extremum].
  - apply from_bind.
    { apply keeps_bind; [apply keeps_reads, reads_get_ten|]. intros. apply keeps_zeros. }
    intros g. apply from_get. intros gr.
    apply from_bind; [apply keeps_st; [apply ss_tensor_extremum|apply st_tensor_extremum]|]. intros _.
    apply from_done, keeps_track.
Qed.
Lemma makes_cat l d : makes (op_cat l d).
Proof.
  apply makes_bind. intros [|r0 rest]; [apply makes_ub|]. do 2 (apply makes_bind; intros).
  apply makes_from; [apply makes_create|]. intros u. apply from_get. intros dr.
  apply from_bind; [apply keeps_st; [apply ss_cat_copy|apply st_cat_copy]|]. intros _.
  apply from_if; [|apply from_ret]. apply from_done, keeps_track.
Qed.
Lemma makes_create_impl s h u h' : create_impl s h = (Ok (Some u), h') -> fresh_at u h'.
Proof.
  intros E. unfold create_impl in E. destruct (sp_shape s) as [|n sh]; [done|]. destruct (sp_dt s) as [dt|]; [|done].
  rewrite bind_lift in E. cbn [lift] in E. erewrite bind_ok in E by apply create_noalloc.
  erewrite bind_ok in E by (apply get_ten_ok; cbn [h_ten]; by rewrite lookup_app_r, Nat.sub_diag).
  erewrite bind_ok in E by (apply get_sto_ok; cbn [h_sto t_sto]; by rewrite lookup_app_r, Nat.sub_diag).
  cbn [t_sto sto_ty sto_bytes] in E. erewrite bind_ok in E by done. injection E as <- <-.
  eexists _, _, (n :: sh). cbn [h_ten h_sto]. rewrite lookup_app_r, Nat.sub_diag by lia. split; [done|].
  split; [done|]. cbn [t_sto]. split; [apply list_lookup_insert; rewrite app_length; simpl; lia|]. done.
Qed.

Lemma new_handle_inv m h t h' : new_handle m h = (Ok (RHandle (Some t)), h') -> m h = (Ok t, h').
Proof. unfold new_handle, bind. destruct (m h) as [[a|?|?|] h1]; try done. by intros [= -> ->]. Qed.
Lemma un_inv a f h t h' : un a f h = (Ok (RHandle (Some t)), h') -> exists x, a = Some x /\ f x h = (Ok t, h').
Proof. destruct a as [x|]; [|done]. rewrite un_some. intros H%new_handle_inv. by exists x. Qed.
Lemma bin_inv a b f h t h' : bin a b f h = (Ok (RHandle (Some t)), h') ->
  exists x y, a = Some x /\ b = Some y /\ f x y h = (Ok t, h').
Proof. destruct a as [x|]; [|done]. destruct b as [y|]; [|done]. rewrite bin_some. intros H%new_handle_inv. by exists x, y. Qed.
Lemma allocates_fresh o h t h' : allocates o = true -> exec o h = (Ok (RHandle (Some t)), h') -> fresh_at t h'.
Proof.
  intros Ha He. destruct o; try discriminate Ha; clear Ha; cbn [exec] in He;
    try (apply new_handle_inv in He); try (apply un_inv in He as (x & -> & He)); try (apply bin_inv in He as (x & y & -> & -> & He)).
  - by eapply makes_create_scalar. - by eapply makes_create.
  - rewrite bind_lift in He. destruct (tinit_spec t0) as [s| | |]; try done. cbn [lift] in He.
    unfold bind in He. destruct (create_impl s h) as [[a|?|?|] h1] eqn:E; try done. injection He as -> <-. by eapply makes_create_impl.
  - by eapply makes_zeros. - by eapply makes_ones.
  - eapply makes_bind; [|exact He]. intros. apply makes_zeros.
  - eapply makes_bind; [|exact He]. intros. apply makes_ones.
  - eapply makes_bind; [|exact He]. intros. apply makes_fill_new.
  - eapply makes_bind; [|exact He]. intros. apply makes_fill_new.
  - by eapply makes_eye. - by eapply makes_from_blob. - by eapply makes_randn.
  - eapply makes_bind; [|exact He]. intros. apply makes_randn.
  - eapply makes_binary; [|exact He]. intros. apply keeps_st; [apply ss_tensor_add|apply st_tensor_add].
  - eapply makes_binary; [|exact He]. intros. apply keeps_st; [apply ss_tensor_sub|apply st_tensor_sub].
  - eapply makes_binary; [|exact He]. intros. apply keeps_st; [apply ss_tensor_mul|apply st_tensor_mul].
  - eapply makes_binary; [|exact He]. intros. apply keeps_st; [apply ss_tensor_div|apply st_tensor_div].
  - eapply makes_bind; [|exact He]. intros. apply makes_binary. intros. apply keeps_st; [apply ss_tensor_sub|apply st_tensor_sub].
  - by eapply makes_cmp.
  - unfold bind in He. destruct (deref_all [] ts dim h) as [[l|?|?|] h1]; try done. apply new_handle_inv in He. by eapply makes_cat.
  - by eapply makes_sum. - by eapply makes_mean. - by eapply makes_extremum. - by eapply makes_extremum.
  - by eapply makes_clone. - by eapply makes_clone.
Qed.

(** ** sane tensors *)
(** the number of elements the buffer [x] was created for *)
Definition cap (x : storage) : Z := sto_bytes x / size_of (sto_ty x).
Definition sane (h : heap) (r : tensor) : Prop :=
  exists x, h_sto h !! t_sto r = Some x /\ sto_ty x = t_dt r /\ sto_bytes x <= alloc_max /\ lay_sane (t_lay r) (cap x).
Lemma sane_mono h h' r r' : rs (h_sto h) (h_sto h') -> same_data r r' -> sane h r -> sane h' r'.
Proof.
  intros [R _] (D1 & D2 & D3) (x & Hx & E1 & E2 & E3). destruct (R _ _ Hx) as (x' & Hx' & S1 & S2 & _).
  exists x'. unfold cap. rewrite <- D1, <- D2, <- D3, S1, S2. done.
Qed.
Lemma fresh_sane h u r : fresh_at u h -> h_ten h !! u = Some r -> Forall (fun n => 0 <= n) (shape r) ->
  fits (t_dt r) (shape r) -> sane h r.
Proof.
  intros (r1 & x & sh & H1 & H2 & H3 & H4 & H5) Hr Hn Hf. assert (r1 = r) as -> by congruence.
  exists x. unfold shape in *. rewrite H2 in *. cbn [sizes contig] in *.
  destruct (decide (0 ∈ sh)) as [H0|H0].
  { split; [done|]. split; [done|]. split; [|by left]. rewrite H5. unfold lnumel. cbn [sizes contig].
    rewrite numel_of_mod, size_prod_zero by done. change (u64 0) with 0. rewrite Z.mul_0_r. change (u64 0) with 0. clear. vm_compute. congruence. }
  assert (allocable (t_dt r) sh) as Ha.
  { split; [|done]. apply Forall_forall. intros n Hi. rewrite Forall_forall in Hn.
    assert (Forall (fun n => 0 < n) sh) as Hp.
    { apply Forall_forall. intros m Hm. specialize (Hn m Hm). simpl in Hn. destruct (decide (m = 0)); [congruence|lia]. }
    pose proof (size_prod_ge _ _ Hp Hi). specialize (Hn n Hi). simpl in Hn. split; [done|].
    pose proof (size_of_pos (t_dt r)). pose proof (size_prod_pos _ Hp).
    assert (size_prod sh <= alloc_max) by (unfold fits in Hf; nia).
    pose proof alloc_max_lt. pose proof two63_64. unfold two63 in *. lia. }
  pose proof (allocable_prod _ _ Ha) as Hp. pose proof (size_of_pos (t_dt r)).
  assert (sto_bytes x = size_of (t_dt r) * size_prod sh) as Hb.
  { rewrite H5. unfold lnumel. cbn [sizes contig]. rewrite (allocable_numel _ _ Ha). apply u64_id.
    unfold fits in Hf. split; [nia|]. pose proof alloc_max_lt. pose proof two63_64. unfold two63 in *. lia. }
  pose proof (allocable_lt63 _ _ Ha) as H63.
  split; [done|]. split; [done|]. split; [rewrite Hb; exact Hf|]. right.
  unfold cap. rewrite Hb, H4, Z.mul_comm, Z.div_mul by lia.
  split; [by apply contig_lay_ok, Ha|]. split; [by apply contig_lay_in|by apply contig_lay_inj].
Qed.
End with_fops.
