(** Views of sane tensors are sane. *)
From Verif.Proofs Require Export Chain.
From Verif.Model Require Export Api.

(** ** layouts *)
Lemma NoDup_indices ss : Forall (fun n => 0 <= n) ss -> NoDup (indices ss).
Proof.
  intros H. apply NoDup_alt. intros i j x Hi Hj.
  destruct (indices_lookup_inv _ _ _ H Hi) as [_ H1]. destruct (indices_lookup_inv _ _ _ H Hj) as [_ H2]. lia.
Qed.
Lemma in_indices ss idx : Forall (fun n => 0 <= n) ss -> idx ∈ indices ss -> in_range ss idx.
Proof. intros H (i & Hi)%elem_of_list_lookup. by destruct (indices_lookup_inv _ _ _ H Hi). Qed.
(** an injective layout has no more elements than the buffer has cells *)
Lemma inj_count l n : Forall (fun n => 0 <= n) (sizes l) -> lay_in l n -> lay_inj l -> 0 <= n -> size_prod (sizes l) <= n.
Proof.
  intros Hn Hin Hinj H0. pose proof (length_indices _ Hn) as Hl.
  assert (length (map (pos l) (indices (sizes l))) <= length (seqZ 0 n))%nat as H.
  { apply NoDup_incl_length.
    - apply NoDup_ListNoDup. apply NoDup_fmap_2_strong; [|by apply NoDup_indices].
      intros x y Hx Hy E. apply Hinj; [by apply in_indices..|done].
    - intros z Hz. apply in_map_iff in Hz as (idx & <- & Hi%elem_of_list_In). apply elem_of_list_In, elem_of_seqZ.
      apply in_indices in Hi; [|done]. specialize (Hin idx Hi). lia. }
  rewrite map_length, seqZ_length in H. pose proof (size_prod_nonneg _ Hn). lia.
Qed.
Lemma pos_no_zero ss : Forall (fun n => 0 <= n) ss -> 0 ∉ ss -> Forall (fun n => 0 < n) ss.
Proof.
  intros Hn H0. apply Forall_forall. intros m Hm. rewrite Forall_forall in Hn. specialize (Hn m Hm). simpl in Hn.
  destruct (decide (m = 0)) as [->|]; [done|lia].
Qed.
Lemma bounded_by_prod ss b : Forall (fun n => 0 <= n) ss -> 0 ∉ ss -> size_prod ss < b -> Forall (fun n => 0 <= n < b) ss.
Proof.
  intros Hn H0 Hb. pose proof (pos_no_zero _ Hn H0) as Hp. apply Forall_forall. intros m Hm.
  pose proof (size_prod_ge _ _ Hp Hm). rewrite Forall_forall in Hn. specialize (Hn m Hm). simpl in Hn. lia.
Qed.
Lemma lay_nonneg l : lay_ok l -> Forall (fun n => 0 <= n) (sizes l).
Proof. intros (_ & H & _). eapply Forall_impl; [exact H|]. simpl. lia. Qed.

Lemma slice_dim_zero st parts x : slice_dim 0 st parts = Ok x -> x = (Some (0, 0), 0).
Proof.
  intros H. destruct (slice_dim_inv 0 st parts x) as (y & Hy & ->); [done|done|].
  destruct y as [i|b e s]; simpl in Hy.
  - unfold legal, from_end in Hy. destruct (i <? 0); lia.
  - simpl. rewrite sel_len_zero by (apply Hy). done.
Qed.
Lemma slice_dims_zero ss : forall sts each off y, 0 ∈ ss -> slice_dims ss sts each off = Ok y -> 0 ∈ y.1.1.
Proof.
  induction ss as [|n ss IH]; intros sts each off y H0 H; [by apply elem_of_nil in H0|].
  destruct sts as [|st sts]; [done|]. cbn [slice_dims] in H.
  destruct (match each with [] => _ | _ => _ end) as [parts each'].
  apply obind_ok_inv in H as (x & Hx & H). apply obind_ok_inv in H as (z & Hz & [= <-]).
  apply elem_of_cons in H0 as [<-|H0].
  - apply slice_dim_zero in Hx as ->. simpl. left.
  - specialize (IH _ _ _ _ H0 Hz). destruct x.1 as [[? ?]|]; [by right|done].
Qed.

Lemma slice_sane l s l' n : lay_sane l n -> 0 <= n < two63 -> slice_layout l s = Ok l' -> lay_sane l' n.
Proof.
  intros Hs Hn H. unfold slice_layout in H. apply obind_ok_inv in H as (_ & _ & H).
  apply obind_ok_inv in H as (y & Hy & [= <-]).
  destruct (decide (0 ∈ sizes l)) as [H0|H0]. { left. simpl. by eapply slice_dims_zero. }
  destruct Hs as [|(Hok & Hin & Hinj)]; [done|]. right.
  pose proof (lay_nonneg _ Hok) as Hnn. pose proof (inj_count _ _ Hnn Hin Hinj) as Hc.
  destruct (slice_dims_inv _ _ _ _ _ (bounded_by_prod _ two63 Hnn H0 ltac:(lia)) (proj2 (proj2 Hok)) Hy) as (_ & xs & _ & Hleg & ->).
  change (Lay _ _ _) with (sel_layout l xs).
  assert (n <= two64) by (unfold two63, two64 in *; lia).
  split; [by apply sel_layout_ok|]. split; [by apply sel_layout_in|by eapply sel_layout_inj].
Qed.
Lemma swap_sane l i j n : lay_sane l n -> i <> j -> (i < length (sizes l))%nat -> (j < length (sizes l))%nat ->
  lay_sane (swap_lay i j l) n.
Proof.
  intros Hs Hij Hi Hj. destruct Hs as [H0|(Hok & Hin & Hinj)].
  - left. cbn [swap_lay sizes]. apply elem_of_list_lookup in H0 as (k & Hk). apply elem_of_list_lookup.
    exists (if Nat.eqb k i then j else if Nat.eqb k j then i else k). rewrite swap_at_lookup by done.
    rewrite <- Hk. f_equal. destruct (Nat.eqb_spec k i) as [->|]; [|destruct (Nat.eqb_spec k j) as [->|]].
    + rewrite (proj2 (Nat.eqb_neq j i)) by congruence. by rewrite Nat.eqb_refl.
    + by rewrite Nat.eqb_refl.
    + rewrite (proj2 (Nat.eqb_neq k i)), (proj2 (Nat.eqb_neq k j)) by done. done.
  - right. assert (length (sizes l) <= length (strides l))%nat as Hls by apply Hok.
    assert (forall idx, in_range (sizes (swap_lay i j l)) idx ->
      in_range (sizes l) (swap_at i j idx) /\ pos (swap_lay i j l) idx = pos l (swap_at i j idx)) as Hp.
    { cbn [swap_lay sizes]. intros idx Hr. pose proof (in_range_length _ _ Hr) as Hlen. rewrite swap_at_length in Hlen. split.
      - rewrite <- (swap_at_twice i j (sizes l)) by done. apply in_range_swap; [done|by rewrite swap_at_length..].
      - unfold pos. cbn [swap_lay strides offset]. by rewrite dot_swap by lia. }
    split; [by apply swap_lay_ok|]. split.
    + intros idx Hr. destruct (Hp idx Hr) as [H1 ->]. by apply Hin.
    + intros a b Ha Hb E. destruct (Hp a Ha) as [H1 E1]. destruct (Hp b Hb) as [H2 E2].
      rewrite E1, E2 in E. apply Hinj in E; [|done..].
      apply in_range_length in Ha, Hb. cbn [swap_lay sizes] in Ha, Hb. rewrite swap_at_length in Ha, Hb.
      rewrite <- (swap_at_twice i j a), <- (swap_at_twice i j b) by lia. by rewrite E.
Qed.

(** sizes reshape may be asked for *)
Definition good_sizes (ss : list Z) : Prop := Forall (fun n => 0 <= n) ss /\ size_prod ss < two64.
Lemma good_numel ss l n : good_sizes ss -> lay_sane l n -> 0 <= n < two63 -> numel_of ss = lnumel l ->
  (0 ∈ ss) \/ (size_prod ss = size_prod (sizes l) /\ size_prod ss <= n /\ lay_ok l /\ lay_in l n /\ lay_inj l /\ 0 ∉ sizes l).
Proof.
  intros [H1 H2] Hs Hn E. rewrite (numel_of_exact ss) in E by done. unfold lnumel in E.
  destruct (decide (0 ∈ sizes l)) as [H0|H0].
  { left. rewrite numel_of_mod, (size_prod_zero (sizes l)) in E by done. apply size_prod_zero_inv. by rewrite E. }
  destruct Hs as [|(Hok & Hin & Hinj)]; [done|]. right.
  pose proof (lay_nonneg _ Hok) as Hnn. pose proof (inj_count _ _ Hnn Hin Hinj) as Hc.
  rewrite numel_of_exact in E; [|done|unfold two63, two64 in *; lia]. split; [done|]. split; [lia|done].
Qed.
(** a layout whose elements are those of [l] in the same order *)
Lemma rank_sane l ss lay n : sizes lay = ss -> (length ss <= length (strides lay))%nat -> offset lay = offset l ->
  good_sizes ss -> 0 ∉ ss -> 
  lay_ok l -> lay_in l n -> lay_inj l -> size_prod ss = size_prod (sizes l) ->
  (forall idx, in_range ss idx -> pos lay idx = pos l (same_rank ss (sizes l) idx)) ->
  lay_sane lay n.
Proof.
  intros E1 E2 E3 [Hg1 Hg2] H0 Hok Hin Hinj Hp Hpos. right. pose proof (lay_nonneg _ Hok) as Hnn. split; [|split].
  - split; [by rewrite E1|]. split; [rewrite E1; by apply bounded_by_prod|]. rewrite E3. apply Hok.
  - intros idx Hi. rewrite E1 in Hi. rewrite Hpos by done. apply Hin. by apply same_rank_spec.
  - intros a b Ha Hb E. rewrite E1 in Ha, Hb. rewrite !Hpos in E by done. apply Hinj in E; [|by apply same_rank_spec..].
    by apply (same_rank_inj ss (sizes l)).
Qed.
Lemma one_sane l ss n : good_sizes ss -> lay_sane l n -> 0 <= n < two63 -> numel_of ss = lnumel l -> numel_of ss = 1 ->
  lay_sane (Lay ss (map (fun _ => 1) ss) (offset l)) n.
Proof.
  intros Hg Hs Hn E E1. destruct (good_numel _ _ _ Hg Hs Hn E) as [H0|(Hp & Hc & Hok & Hin & Hinj & H0)]; [by left|].
  rewrite numel_of_exact in E1 by apply Hg.
  pose proof (lay_nonneg _ Hok) as Hnn.
  assert (0 ∉ ss). { intros H%size_prod_zero. lia. }
  apply (rank_sane l ss); try done; [simpl; by rewrite map_length|].
  intros idx Hi. unfold pos. cbn [strides offset].
  destruct (same_rank_spec ss (sizes l) idx Hnn Hp Hi) as [Hr1 _].
  rewrite (in_range_ones _ _ (size_prod_one _ Hnn ltac:(lia)) Hr1), dot_zeros.
  rewrite (in_range_ones _ _ (size_prod_one _ (proj1 Hg) ltac:(lia)) Hi), dot_zeros. done.
Qed.
Lemma iso_sane l ss sts n : good_sizes ss -> lay_sane l n -> 0 <= n < two63 -> numel_of ss = lnumel l ->
  (length (strides l) <= length (sizes l))%nat -> isometry (sizes l) (strides l) = Ok true ->
  match ss with [] => sts = strides l | _ => exists st, last (strides l) = Some st /\ sts = strides_from st ss end ->
  lay_sane (Lay ss sts (offset l)) n.
Proof.
  intros Hg Hs Hn E Hl Hiso Hsts.
  destruct (good_numel _ _ _ Hg Hs Hn E) as [H0|(Hp & Hc & Hok & Hin & Hinj & H0)]; [by left|].
  pose proof (lay_nonneg _ Hok) as Hnn.
  assert (0 ∉ ss). { intros H%size_prod_zero. rewrite Hp in H. by apply H0, size_prod_zero_inv. }
  assert (length (strides l) = length (sizes l)) as Hlen by (pose proof (proj1 Hok); lia).
  apply (rank_sane l ss); try done.
  - cbn [strides]. destruct ss as [|k ss]; [simpl; lia|]. destruct Hsts as (st & _ & ->). by rewrite strides_from_length.
  - intros idx Hi. destruct ss as [|k ss].
    + unfold pos. cbn [strides offset]. destruct (same_rank_spec [] (sizes l) idx Hnn Hp Hi) as [H1 _].
      pose proof (size_prod_one _ Hnn (eq_sym Hp)) as Hone.
      rewrite (in_range_ones _ _ Hone H1), dot_zeros.
      apply in_range_nil_inv in Hi as ->. destruct sts; simpl; lia.
    + destruct Hsts as (st & Hst & ->).
      destruct (isometry_reshape l n (k :: ss)) as (l0 & Hlast & Hx); try done; [lia|lia| |by apply Hg|].
      { intros E0. rewrite E0 in Hlen. destruct (strides l); done. }
      assert (l0 = st) as -> by congruence. by apply Hx.
Qed.
Lemma copy_sane l ss n : good_sizes ss -> lay_sane l n -> 0 <= n < two63 -> numel_of ss = lnumel l ->
  lay_sane (contig ss) (numel_of ss).
Proof.
  intros Hg Hs Hn E. destruct (good_numel _ _ _ Hg Hs Hn E) as [H0|(Hp & Hc & Hok & Hin & Hinj & H0)]; [by left|].
  assert (0 ∉ ss). { intros H%size_prod_zero. rewrite Hp in H. by apply H0, size_prod_zero_inv. }
  right. rewrite numel_of_exact by apply Hg. assert (size_prod ss < two63) by lia.
  split; [|split; [by apply contig_lay_in|by apply contig_lay_inj]]. apply contig_lay_ok. apply bounded_by_prod; [apply Hg|done|apply Hg].
Qed.

(** arguments of reshape *)
Lemma regularize_good xs n ss : Forall in_ll xs -> Forall (fun x => -1 <= x) xs -> given xs < two64 -> 0 <= n < two64 ->
  regularize_size xs n = Ok ss -> good_sizes ss.
Proof.
  intros Hll Hm Hg Hn H. unfold regularize_size in H. rewrite minus_ones_eq in H.
  destruct xs as [|x0 xs0] eqn:Exs.
  { apply obind_ok_inv in H as (_ & _ & [= <-]). split; [done|]. done. }
  rewrite <- Exs in *. clear Exs x0 xs0. apply obind_ok_inv in H as (u & Hw & H).
  pose proof (given_nonneg _ Hm) as Hg0.
  destruct (Nat.eqb_spec (wildcards xs) 1) as [E|E].
  - rewrite given_fold1, u64_id in H by lia. destruct (Z.eqb_spec (given xs) 0); [done|].
    apply obind_ok_inv in H as (u' & Hmod & [= <-]).
    assert (0 <= n / given xs < two64) as Hq.
    { split; [apply Z.div_pos; lia|]. pose proof (Z.div_mod n (given xs)).
      pose proof (Z.mod_pos_bound n (given xs)). nia. }
    assert (u64 (s64 (n / given xs)) = n / given xs) as ->.
    { unfold u64. rewrite s64_mod. by apply u64_id. }
    assert (map (fun z => if z =? -1 then n / given xs else u64 z) xs = map (fillm (n / given xs)) xs) as ->.
    { apply map_ext_in. intros x Hx%elem_of_list_In. unfold fillm. destruct (Z.eqb_spec x (-1)); [done|].
      rewrite Forall_forall in Hll, Hm. specialize (Hll x Hx). specialize (Hm x Hx). unfold in_ll in Hll.
      rewrite two63_pow in Hll. simpl in Hm. apply u64_id. unfold two63, two64 in *. lia. }
    split.
    + apply Forall_forall. intros s Hs%elem_of_list_In%in_map_iff. destruct Hs as (x & <- & Hx%elem_of_list_In).
      unfold fillm. rewrite Forall_forall in Hm. specialize (Hm x Hx). simpl in Hm. destruct (Z.eqb_spec x (-1)); lia.
    + rewrite size_prod_fill, E. simpl Z.of_nat. rewrite Z.pow_1_r.
      pose proof (Z.mul_div_le n (given xs)). lia.
  - injection H as <-. assert (wildcards xs = 0%nat) as E0.
    { destruct (Nat.leb_spec (wildcards xs) 1); [lia|done]. }
    assert (Hp : Forall2 (fun x s => 0 <= s /\ (x = s \/ x = -1)) xs xs).
    { clear -E0 Hm. induction Hm as [|x xs Hx Hm1 IH]; [apply Forall2_nil_2|].
      rewrite wildcards_cons in E0. destruct (Z.eqb_spec x (-1)); [done|].
      apply Forall2_cons_2; [|auto]. split; [lia|auto]. }
    destruct (no_wild _ _ E0 Hp) as (_ & Hgv & Hpos).
    assert (map u64 xs = xs) as ->.
    { rewrite <- (map_id xs) at 2. apply map_ext_in. intros x Hx%elem_of_list_In.
      rewrite Forall_forall in Hll, Hpos. specialize (Hll x Hx). specialize (Hpos x Hx). unfold in_ll in Hll.
      rewrite two63_pow in Hll. simpl in Hpos. apply u64_id. unfold two63, two64 in *. lia. }
    split; [done|]. lia.
Qed.

Section with_fops.
Context {fo : FOps}.

Definition sane_at (h : heap) (t : nat) : Prop := exists r, h_ten h !! t = Some r /\ sane h r.
Lemma sane_at_mono h h' t : mono h h' -> rs (h_sto h) (h_sto h') -> sane_at h t -> sane_at h' t.
Proof.
  intros M R (r & Hr & Hs). destruct (M _ _ Hr) as (r' & Hr' & D). exists r'. split; [done|]. by eapply sane_mono.
Qed.
Lemma sane_at_keeps {A} (m : E A) h x h' t : keeps m -> m h = (x, h') -> sane_at h t -> sane_at h' t.
Proof.
  intros [H1 H2] E. specialize (H1 h). specialize (H2 h). rewrite E in H1, H2. by apply sane_at_mono.
Qed.
Lemma cap_range h r x : sane h r -> h_sto h !! t_sto r = Some x -> 0 <= sto_bytes x -> 0 <= cap x < two63.
Proof.
  intros (y & Hy & _ & Hb & _) Hx H0. assert (y = x) as -> by congruence. unfold cap.
  pose proof (size_of_pos (sto_ty x)). split; [apply Z.div_pos; lia|].
  pose proof (Z.div_le_upper_bound (sto_bytes x) (size_of (sto_ty x)) alloc_max). pose proof alloc_max_lt.
  assert (0 <= alloc_max) by done. nia.
Qed.

Lemma keeps_new_ten r : keeps (new_ten r).
Proof. split; [apply ss_new_ten|]. intros h. by eapply mono_app. Qed.
Lemma keeps_share a b : keeps (share_grad_storage a b).
Proof.
  split; [apply ss_share|]. intros h. unfold share_grad_storage.
  unfold bind at 1, get_ten at 1. destruct (h_ten h !! b) as [f|] eqn:Ef; [|apply mono_refl].
  assert (exists h1, (match t_grad f with
    | None => let! g := create (t_dt f) (t_lay f) false in set_ten b (with_grad f (Some g))
    | Some _ => mret tt end) h = (Ok tt, h1) /\ mono h h1) as (h1 & E1 & M1).
  { destruct (t_grad f) as [g|]; [exists h; split; [done|apply mono_refl]|].
    erewrite bind_ok by apply create_noalloc. rewrite set_ten_eq. eexists. split; [done|].
    match goal with |- mono h (Hp (h_sto ?h2) _ _) => apply (mono_trans h h2); [by eapply mono_app|];
      apply (mono_set h2 b f); [by apply lookup_app_l_Some|done] end. }
  erewrite bind_ok by exact E1. eapply mono_trans; [exact M1|]. clear h f Ef E1 M1. rename h1 into h.
  unfold bind at 1, get_ten at 1. destruct (h_ten h !! b) as [f|] eqn:Ef; [|apply mono_refl].
  destruct (t_grad f) as [fg|]; [|apply mono_refl].
  unfold bind at 1, get_ten at 1. destruct (h_ten h !! fg) as [fgr|] eqn:Eg; [|apply mono_refl].
  unfold bind at 1, get_ten at 1. destruct (h_ten h !! a) as [ra|] eqn:Ea; [|apply mono_refl].
  erewrite bind_ok by done. cbn [h_ten h_sto h_ver]. unfold bind at 1, get_ten. cbn [h_ten].
  rewrite (lookup_app_l_Some _ _ _ _ Ea), set_ten_eq. cbn [snd].
  match goal with |- mono h (Hp (h_sto ?h2) _ _) => apply (mono_trans h h2); [by eapply mono_app|];
    apply (mono_set h2 a ra); [by apply lookup_app_l_Some|done] end.
Qed.
Lemma keeps_finish a b : keeps (finish_view a b).
Proof.
  apply keeps_bind; [apply keeps_reads, reads_get_ten|]. intros. apply keeps_if; [apply keeps_ret|].
  apply keeps_bind; [apply keeps_track|]. intros. apply keeps_bind; [apply keeps_share|]. intros. apply keeps_ret.
Qed.
Lemma keeps_clone t : keeps (op_clone t).
Proof.
  apply keeps_bind; [apply keeps_reads, reads_get_ten|]. intros. apply keeps_bind; [apply keeps_create|]. intros.
  apply keeps_bind; [apply keeps_reads, reads_get_ten|]. intros.
  apply keeps_bind; [apply keeps_st; [apply ss_tensor_clone|apply st_tensor_clone]|]. intros.
  apply keeps_if; [apply keeps_ret|]. apply keeps_bind; [apply keeps_track|]. intros. apply keeps_ret.
Qed.
Lemma finish_ret a b h v h' : finish_view a b h = (Ok v, h') -> v = a.
Proof.
  unfold finish_view, bind, get_ten. destruct (h_ten h !! b) as [i|]; [|done]. destruct (negb (t_rg i)); [by intros [= -> _]|].
  destruct (track a NoBack [b] h) as [[[]|?|?|] h1]; try done.
  destruct (share_grad_storage a b h1) as [[[]|?|?|] h2]; try done. by intros [= -> _].
Qed.

(** a view with a sane layout *)
Lemma view_sane h r x lay : h_sto h !! t_sto r = Some x -> sto_ty x = t_dt r -> sto_bytes x <= alloc_max ->
  lay_sane lay (cap x) -> sane_at (view_heap h r lay) (length (h_ten h)).
Proof.
  intros Hx E1 E2 Hl. exists (view_rec r lay). split; [apply lookup_snoc|]. exists x. done.
Qed.
Lemma view_op_sane h t r x lay v h' : h_sto h !! t_sto r = Some x -> sto_ty x = t_dt r -> sto_bytes x <= alloc_max ->
  lay_sane lay (cap x) ->
  (let! ret := create_view (t_dt r) lay (t_sto r) in finish_view ret t) h = (Ok v, h') -> sane_at h' v.
Proof.
  intros Hx E1 E2 Hl E. erewrite bind_ok in E by apply create_view_eq. pose proof (finish_ret _ _ _ _ _ E) as ->.
  eapply sane_at_keeps; [apply keeps_finish|exact E|]. by apply (view_sane h r x lay).
Qed.

Lemma clone_rec t h v h' r : h_ten h !! t = Some r -> op_clone t h = (Ok v, h') ->
  exists r', h_ten h' !! v = Some r' /\ t_dt r' = t_dt r /\ t_lay r' = contig (sizes (t_lay r)).
Proof.
  intros Hr E. unfold op_clone in E. erewrite bind_ok in E by (by apply get_ten_ok).
  unfold bind in E at 1. destruct (create (t_dt r) (contig (sizes (t_lay r))) true h) as [[u|?|?|] h1] eqn:Ec; try done.
  assert (exists r1, h_ten h1 !! u = Some r1 /\ t_dt r1 = t_dt r /\ t_lay r1 = contig (sizes (t_lay r))) as (r1 & H1 & D1 & L1).
  { clear E. unfold create in Ec. unfold new_blob in Ec. destruct (_ <=? _); [|done]. cbn in Ec. injection Ec as <- <-.
    eexists. cbn. rewrite lookup_app_r, Nat.sub_diag by lia. done. }
  assert (forall m : M heap nat, keeps m -> m h1 = (Ok v, h') -> v = u -> exists r', h_ten h' !! v = Some r' /\ t_dt r' = t_dt r /\ t_lay r' = contig (sizes (t_lay r))) as Hk.
  { intros m [_ Hm] Em ->. specialize (Hm h1). rewrite Em in Hm. destruct (Hm _ _ H1) as (r' & Hr' & S1 & S2 & _).
    exists r'. split; [done|]. split; congruence. }
  eapply Hk; [|exact E|].
  - apply keeps_bind; [apply keeps_reads, reads_get_ten|]. intros.
    apply keeps_bind; [apply keeps_st; [apply ss_tensor_clone|apply st_tensor_clone]|]. intros.
    apply keeps_if; [apply keeps_ret|]. apply keeps_bind; [apply keeps_track|]. intros. apply keeps_ret.
  - unfold bind in E. destruct (get_ten u h1) as [[d|?|?|] h2]; try done.
    destruct (tensor_clone _ _ _ _ _) as [[?|?|?|] h3]; try done. destruct (negb (t_rg r)); [by injection E as -> _|].
    destruct (track _ _ _ _) as [[?|?|?|] h4]; try done. by injection E as -> _.
Qed.

Lemma tail_sane h t r r1 x ss v h' : h_ten h !! t = Some r1 -> same_data r r1 ->
  h_sto h !! t_sto r = Some x -> sto_ty x = t_dt r -> 0 <= sto_bytes x <= alloc_max -> lay_sane (t_lay r) (cap x) ->
  good_sizes ss -> numel_of ss = lnumel (t_lay r) ->
  reshape_tail t r ss h = (Ok v, h') -> sane_at h' v.
Proof.
  intros Ht (S1 & S2 & S3) Hx E1 E2 Hl Hg Hn E.
  assert (0 <= cap x < two63) as Hcap. { eapply (cap_range h r); [|done|lia]. exists x. split; [done|]. split; [done|]. split; [lia|done]. }
  unfold reshape_tail in E. destruct (Nat.ltb_spec (ldim (t_lay r)) (length (strides (t_lay r)))) as [|Hlen]; [done|].
  rewrite bind_ret, bind_lift in E. destruct (isometry _ _) as [iso|?|?|] eqn:Hiso; try done.
  assert (forall last h1 tf, sane_at h1 tf -> (let! i := get_ten t in if negb (t_rg i) then mret tf
     else track tf NoBack [last] ;;; share_grad_storage tf last ;;; mret tf) h1 = (Ok v, h') -> sane_at h' v) as Hend.
  { clear. intros lst h1 tf Hs E. assert (v = tf) as ->.
    { clear Hs. unfold bind in E. destruct (get_ten t h1) as [[i|?|?|] h2]; try done. destruct (negb (t_rg i)); [by injection E as -> _|].
      destruct (track _ _ _ _) as [[?|?|?|] h3]; try done. destruct (share_grad_storage _ _ _) as [[?|?|?|] h4]; try done. by injection E as -> _. }
    revert E Hs. apply sane_at_keeps. apply keeps_bind; [apply keeps_reads, reads_get_ten|]. intros.
    apply keeps_if; [apply keeps_ret|]. apply keeps_bind; [apply keeps_track|]. intros. apply keeps_bind; [apply keeps_share|]. intros. apply keeps_ret. }
  cbn [lift] in E. destruct iso.
  - rewrite !bind_assoc in E.
    assert (exists sts, match ss with [] => mret (strides (t_lay r)) | _ :: _ => match last (strides (t_lay r)) with
      | Some st => mret (strides_from st ss) | None => mub OutOfBounds end end h = (Ok sts, h) /\
      match ss with [] => sts = strides (t_lay r) | _ => exists st, last (strides (t_lay r)) = Some st /\ sts = strides_from st ss end) as (sts & Es & Hsts).
    { destruct ss as [|k ss]; [by eexists|]. destruct (last (strides (t_lay r))) as [st|]; [|done].
      eexists. split; [done|]. by eexists. }
    erewrite bind_ok in E by exact Es. rewrite bind_assoc in E. erewrite bind_ok in E by apply create_view_eq.
    rewrite bind_ret in E. revert E. apply Hend. eapply (view_sane h r x); [done..|lia|]. by apply iso_sane.
  - rewrite bind_assoc in E. unfold bind in E at 1. destruct (op_clone t h) as [[m|?|?|] h1] eqn:Em; try done.
    pose proof (makes_clone _ _ _ _ Em) as (rm & xm & sh & Hm & Hlm & Hxm & Tm & Bm).
    destruct (clone_rec _ _ _ _ _ Ht Em) as (rm' & Hm' & Dm & Lm). assert (rm' = rm) as -> by congruence.
    rewrite bind_assoc in E. erewrite bind_ok in E by (by apply get_ten_ok). rewrite bind_assoc in E.
    assert (t_dt r = t_dt rm) as Hdt by congruence. rewrite Hdt in E.
    erewrite bind_ok in E by apply create_view_eq. rewrite bind_ret in E.
    revert E. apply Hend. 
    assert (lnumel (t_lay rm) = numel_of ss) as Hnum.
    { rewrite Hn, Lm, <- S2. done. }
    pose proof (size_of_pos (t_dt rm)) as Hsz.
    assert (0 <= numel_of ss <= cap x) as Hnc.
    { destruct (good_numel _ _ _ Hg Hl Hcap Hn) as [H0|(Hp & Hc & _)].
      - rewrite numel_of_mod, size_prod_zero by done. change (u64 0) with 0. lia.
      - rewrite numel_of_exact by apply Hg. pose proof (size_prod_nonneg _ (proj1 Hg)). lia. }
    assert (size_of (t_dt rm) * numel_of ss <= sto_bytes x) as Hle.
    { unfold cap in Hnc. rewrite E1, Hdt in Hnc. pose proof (Z.mul_div_le (sto_bytes x) (size_of (t_dt rm)) Hsz). nia. }
    assert (sto_bytes xm = size_of (t_dt rm) * numel_of ss) as Hb.
    { rewrite Bm, Hnum. apply u64_id. split; [nia|]. pose proof alloc_max_lt. unfold two63, two64 in *. lia. }
    eapply (view_sane h1 rm xm); [done..|lia|]. unfold cap. rewrite Hb, Tm, Z.mul_comm, Z.div_mul by lia.
    by eapply copy_sane.
Qed.

Lemma reshape_sane h t r x ss v h' : h_ten h !! t = Some r ->
  h_sto h !! t_sto r = Some x -> sto_ty x = t_dt r -> 0 <= sto_bytes x <= alloc_max -> lay_sane (t_lay r) (cap x) ->
  good_sizes ss -> op_reshape_sv t ss h = (Ok v, h') -> sane_at h' v.
Proof.
  intros Ht Hx E1 E2 Hl Hg E.
  assert (0 <= cap x < two63) as Hcap. { eapply (cap_range h r); [|done|lia]. exists x. split; [done|]. split; [done|]. split; [lia|done]. }
  destruct (Z.eq_dec (numel_of ss) (lnumel (t_lay r))) as [Hn|Hn].
  2:{ by rewrite (reshape_sv_reject h t r ss) in E. }
  rewrite (op_reshape_sv_eq t ss h r) in E by done.
  destruct (Z.eqb_spec (numel_of ss) 1) as [H1|H1].
  2:{ by apply (tail_sane h t r r x ss v h'). }
  erewrite bind_ok in E by apply create_view_eq. 
  assert (sane_at (view_heap h r (Lay ss (map (fun _ => 1) ss) (offset (t_lay r)))) (length (h_ten h))) as Hs1.
  { eapply (view_sane h r x); [done..|lia|]. by apply one_sane. }
  destruct (negb (t_rg r)). { by injection E as <- <-. }
  set (h1 := view_heap _ _ _) in *. unfold bind in E at 1. destruct (track _ _ _ h1) as [[[]|?|?|] h2] eqn:E3; try done.
  unfold bind in E at 1. destruct (share_grad_storage _ _ h2) as [[[]|?|?|] h3] eqn:E4; try done.
  assert (mono h h1) as M1 by (eapply mono_app; reflexivity).
  pose proof (keeps_track (length (h_ten h)) NoBack [t]) as [K1 K2]. specialize (K1 h1). specialize (K2 h1). rewrite E3 in K1, K2.
  pose proof (keeps_share (length (h_ten h)) t) as [K3 K4]. specialize (K3 h2). specialize (K4 h2). rewrite E4 in K3, K4.
  assert (mono h h3) as M by (eapply mono_trans; [exact M1|]; eapply mono_trans; [exact K2|exact K4]).
  assert (rs (h_sto h) (h_sto h3)) as R by (eapply rs_trans; [exact K1|exact K3]).
  destruct (M _ _ Ht) as (r3 & Hr3 & D3). destruct R as [R _]. destruct (R _ _ Hx) as (x3 & Hx3 & T3 & B3 & _).
  apply (tail_sane h3 t r r3 x3 ss v h'); try done; try congruence. unfold cap. by rewrite T3, B3.
Qed.

(** ** the invariant *)
Definition whole_heap (h : heap) : Prop := tinv h /\ Forall sok (h_sto h).
Lemma whole_exec o h : whole_heap h -> whole_heap (exec o h).2 /\ mono h (exec o h).2 /\ rs (h_sto h) (h_sto (exec o h).2).
Proof.
  intros [H1 H2]. pose proof (ss_exec o h) as R. split; [|split; [|done]].
  - split; [|by apply R]. by apply tinv_exec.
  - apply mono_exec. by apply tinv_grads_exist.
Qed.

Lemma view_call_sane h t o t' h' : whole_heap h -> sane_at h t -> view_call h t o ->
  exec o h = (Ok (RHandle (Some t')), h') -> sane_at h' t'.
Proof.
  intros [_ Hw] (r & Hr & x & Hx & E1 & E2 & Hl) Hv E.
  assert (0 <= sto_bytes x) as Hb. { rewrite Forall_lookup in Hw. by apply (Hw _ _ Hx). }
  assert (0 <= cap x < two63) as Hcap by (eapply (cap_range h r); [by exists x|done..]).
  destruct Hv as [s|i j| |xs Hll Hm Hg|u ru Hu Hn Hg]; cbn [exec] in E.
  - apply un_inv in E as (y & [= <-] & E). unfold op_slice in E. erewrite bind_ok in E by (by apply get_ten_ok).
    rewrite bind_lift in E. destruct (slice_layout (t_lay r) s) as [lay|?|?|] eqn:El; try done.
    eapply (view_op_sane h t r x lay); try done. by eapply slice_sane.
  - apply un_inv in E as (y & [= <-] & E). unfold op_transpose in E. erewrite bind_ok in E by (by apply get_ten_ok).
    destruct (_ && _) eqn:H1 in E; [|done]. erewrite bind_ok in E by done.
    destruct (negb (i =? j)) eqn:H2; [|done]. erewrite bind_ok in E by done.
    unfold ldim in H1.
    apply (view_op_sane h t r x (swap_lay (Z.to_nat i) (Z.to_nat j) (t_lay r)) t' h'); try done. apply swap_sane; try done; lia.
  - apply un_inv in E as (y & [= <-] & E). unfold op_detach in E. erewrite bind_ok in E by (by apply get_ten_ok).
    rewrite create_view_eq in E. injection E as <- <-. by apply (view_sane h r x).
  - apply un_inv in E as (y & [= <-] & E). unfold op_reshape in E. erewrite bind_ok in E by (by apply get_ten_ok).
    rewrite bind_lift in E. destruct (regularize_size xs _) as [ss|?|?|] eqn:Es; try done.
    eapply (reshape_sane h t r x ss); try done. eapply regularize_good; [done..|by rewrite <- two64_pow| |exact Es].
    unfold lnumel. rewrite numel_of_mod. apply u64_range.
  - apply bin_inv in E as (y & z & [= <-] & [= <-] & E). unfold op_reshape_as in E. erewrite bind_ok in E by (by apply get_ten_ok).
    eapply (reshape_sane h t r x (sizes (t_lay ru))); try done.
Qed.
Lemma derived_sane h t : derived h t -> whole_heap h /\ sane_at h t.
Proof.
  induction 1 as [h o t h' r Hre Ha E Hr Hn Hf|h t o x h' _ [IH1 IH2] E|h t o t' h' _ [IH1 IH2] Hv E].
  - assert (whole_heap h) as Hw by (split; [by apply reachable_tinv|by apply reachable_sok]).
    apply (whole_exec o) in Hw as (Hw & _). rewrite E in Hw. split; [done|].
    exists r. split; [done|]. eapply fresh_sane; [|exact Hr|done..]. by eapply allocates_fresh.
  - apply (whole_exec o) in IH1 as (Hw & Hm & R). rewrite E in Hw, Hm, R. split; [done|]. by eapply sane_at_mono.
  - split; [|by eapply view_call_sane]. apply (whole_exec o) in IH1 as (Hw & _). by rewrite E in Hw.
Qed.
Lemma derived_inside h t : derived h t ->
  exists r x, h_ten h !! t = Some r /\ h_sto h !! t_sto r = Some x /\ sto_ty x = t_dt r /\
    (forall idx, in_range (shape r) idx -> 0 <= pos (t_lay r) idx < sto_bytes x / size_of (t_dt r)) /\
    (forall cs, sto_blob x = Some cs -> sto_bytes x / size_of (t_dt r) <= Z.of_nat (length cs)) /\
    lay_inj (t_lay r).
Proof.
  intros H. destruct (derived_sane h t H) as [[_ Hw] (r & Hr & x & Hx & E1 & _ & Hl)].
  exists r, x. split; [done|]. split; [done|]. split; [done|].
  assert (0 ∈ shape r -> forall idx, ~ in_range (shape r) idx) as H0.
  { intros H0 idx Hi. pose proof (size_prod_pos _ (in_range_pos _ _ Hi)). rewrite size_prod_zero in *; [lia|done]. }
  split; [|split].
  - intros idx Hi. destruct Hl as [Hl|(_ & Hl & _)]; [by destruct (H0 Hl idx)|]. rewrite <- E1. by apply Hl.
  - intros cs Hcs. rewrite Forall_lookup in Hw. destruct (Hw _ _ Hx) as [_ Hs]. rewrite Hcs, E1 in Hs. done.
  - destruct Hl as [Hl|(_ & _ & Hl)]; [|done]. intros i j Hi. by destruct (H0 Hl i).
Qed.
End with_fops.
