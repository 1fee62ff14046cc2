(** Memory safety of cat, of brace initialisers and of the queries. *)
From Verif.Proofs Require Export Text Catgeom Init Safe5.

Section with_fops.
Context {fo : FOps}.

(** ** cat *)
(** position of an element of a piece, as tensor_cat computes it *)
Lemma piece_pos ss dm s idx : (dm < length ss)%nat -> (dm < length idx)%nat -> in_range ss idx -> in_range ss (<[dm := nth dm idx 0 + s]> idx) ->
  size_prod ss < two63 ->
  u64 (u64 (s * nth dm (strides (contig ss)) 0) + pos (contig ss) idx) = pos (contig ss) (<[dm := nth dm idx 0 + s]> idx).
Proof.
  intros Hd Hl H1 H2 Hp. destruct (lookup_lt_is_Some_2 idx dm Hl) as [i Hi]. rewrite (nth_lookup_Some _ _ _ _ Hi) in *.
  pose proof (row_major_bounds _ _ H2) as Hb. rewrite <- pos_contig in Hb by done.
  unfold u64. rewrite Zplus_mod_idemp_l. fold (u64 (s * nth dm (strides (contig ss)) 0 + pos (contig ss) idx)).
  rewrite <- (u64_id (pos (contig ss) (<[dm := i + s]> idx))) by (unfold two63, two64 in *; lia). f_equal. unfold pos. cbn [strides contig offset].
  rewrite (dot_shift (contig_strides ss) _ _ _ _ ltac:(by rewrite length_contig_strides) Hi). lia.
Qed.
Definition piece_done (d : tensor) (dm : nat) (ss : list Z) (h : heap) (s e : Z) : Prop :=
  forall idx, in_range ss idx -> s <= nth dm idx 0 < e -> filled h (t_sto d) (Z.to_nat (pos (t_lay d) idx)).
Lemma sf_tensor_cat h d src dm ss tot s n : SI h -> wr h d -> rd h src -> t_lay d = contig ss -> (dm < length ss)%nat -> ss !! dm = Some tot ->
  shape src = <[dm := n]> ss -> 0 <= s -> s + n <= tot ->
  sf (tensor_cat (t_dt d) (t_dt src) d src (u64 (s * nth dm (strides (t_lay d)) 0))) (fun _ h' => piece_done d dm ss h' s (s + n)) h.
Proof.
  intros S Hd Hs El Hdm Ht Esh Hs0 Hle. unfold tensor_cat.
  eapply sf_mono; [apply (sf_for_each _ _ (fun sv h' => filled h' (t_sto d) (Z.to_nat (pos (t_lay d) (<[dm := nth dm sv 0 + s]> sv)))))|].
  - apply Hs.
  - done.
  - intros sv h1 Hi G1 S1. eapply sf_bind; [apply (sf_load_exact h1 src sv (fun _ h' => h' = h1)); [done|by apply (rd_grow h)|done|done]|].
    intros v h2 _ _ ->. fold (shape src) in Hi. rewrite Esh in Hi.
    destruct (piece_index dm ss tot s n sv) as (I1 & I2 & I3 & I4); [done..|].
    assert (shape d = ss) as Esd by (unfold shape; by rewrite El).
    pose proof (wr_grow h h1 d G1 Hd) as Hd1.
    assert (size_prod ss < two63) as Hp. { destruct (geom_count h1 d S1 (proj1 Hd1)) as (x & _ & _ & _ & C1 & C2 & _). rewrite Esd in C2. lia. }
    unfold idx_exact. rewrite (exact_ok h1 d sv) by (apply Hd1 || by rewrite Esd). apply sf_lift_bind; [done|done|]. intros p [= <-].
    rewrite El, piece_pos by done. rewrite <- El. apply sf_store_pos; [done|done|by rewrite Esd|done].
  - intros sv h1 h2 H G. by apply G.
  - intros ? h' _ _ H idx Hi Hr. pose proof (in_range_length _ _ Hi) as Hl.
    destruct (lookup_lt_is_Some_2 idx dm) as [i Hdi]; [lia|]. rewrite (nth_lookup_Some _ _ _ _ Hdi) in Hr.
    specialize (H (<[dm := i - s]> idx)). rewrite (nth_lookup_Some _ _ _ (i - s)) in H by (by apply list_lookup_insert; lia).
    rewrite list_insert_insert in H. replace (i - s + s) with i in H by lia. rewrite (list_insert_id idx dm i Hdi) in H. apply H.
    change (sizes (t_lay src)) with (shape src). rewrite Esh. apply insert_in_range; [done|lia].
Qed.
Lemma sf_cat_copy h d dm ss tot rs : forall s h0, SI h0 -> grow h h0 -> wr h0 d -> t_lay d = contig ss -> (dm < length ss)%nat -> ss !! dm = Some tot -> tot < two64 ->
  Forall (fun r => rd h r /\ shape r = <[dm := nth dm (shape r) 0]> ss) rs -> 0 <= s -> s + total_len (sizes_along dm rs) <= tot ->
  sf (cat_copy (t_dt d) dm d rs s) (fun _ h' => piece_done d dm ss h' s (s + total_len (sizes_along dm rs))) h0.
Proof.
  induction rs as [|r rs IH]; intros s h0 S G Hd El Hdm Ht Ht64 Hrs Hs Hle; cbn [cat_copy sizes_along map total_len fold_right] in *.
  - apply sf_ret; [done|]. intros idx _ Hr. lia.
  - apply Forall_cons in Hrs as [[Hr Esh] Hrs]. fold (sizes_along dm rs) in *. fold (total_len (sizes_along dm rs)) in *.
    set (n := nth dm (shape r) 0) in *.
    assert (0 <= total_len (sizes_along dm rs)) as Ht0.
    { apply total_nonneg. unfold sizes_along. apply Forall_map. eapply Forall_impl; [exact Hrs|]. intros x [[Hx _] _]. cbv beta.
      destruct Hx as (_ & Hn & _). destruct (decide (dm < length (shape x))%nat) as [Hlt|Hge].
      - destruct (lookup_lt_is_Some_2 _ _ Hlt) as [y Hy]. rewrite (nth_lookup_Some _ _ _ _ Hy). by eapply (Forall_lookup_1 _ _ _ _ Hn).
      - rewrite nth_overflow by lia. done. }
    assert (0 <= n) as Hn0.
    { destruct Hr as [(_ & Hn & _) _]. unfold n. eapply (Forall_lookup_1 _ (shape r) dm); [done|]. rewrite Esh at 1. by rewrite list_lookup_insert. }
    eapply sf_bind; [apply (sf_tensor_cat h0 d r dm ss tot s n); try done; [by apply (rd_grow h)|lia]|].
    intros ? h1 G1 S1 P1. change (nth dm (sizes (t_lay r)) 0) with n. rewrite u64_id by lia.
    eapply sf_mono; [apply (IH (s + n) h1); try done; [by eapply grow_trans|by apply (wr_grow h0)|lia|lia]|].
    intros ? h2 G2 S2 P2 idx Hi Hr'. destruct (Z.lt_ge_cases (nth dm idx 0) (s + n)).
    + apply G2, P1; [done|lia].
    + apply P2; [done|lia].
Qed.
Lemma get_all_inv h ts : Forall (full_at h) ts -> exists rs, Forall2 (fun t r => h_ten h !! t = Some r) ts rs /\ get_all ts h = (Ok rs, h).
Proof.
  intros H. assert (exists rs, Forall2 (fun t r => h_ten h !! t = Some r) ts rs) as [rs Hrs].
  { induction H as [|t ts Ht _ [rs IH]]; [by exists []|]. destruct (full_at_get _ _ Ht) as [r Hr]. exists (r :: rs). by constructor. }
  exists rs. split; [done|by apply get_all_ok].
Qed.
Lemma sf_op_cat h ts rs r0 rest dim : SI h -> Forall (full_at h) ts -> Forall2 (fun t r => h_ten h !! t = Some r) ts rs -> rs = r0 :: rest ->
  bytes_fit (cat_type r0 rs) (cat_shape (Z.to_nat dim) r0 rs) -> total_len (sizes_along (Z.to_nat dim) rs) < two64 ->
  sf (op_cat ts dim) (fun v h' => full_at h' v) h.
Proof.
  intros S Hf Hts Hrs Hfit Ht64. set (d := Z.to_nat dim) in *.
  assert (Forall (rd h) rs) as Hrd.
  { apply Forall_lookup. intros k r Hk. destruct (Forall2_lookup_r _ _ _ _ _ Hts Hk) as (t & Htk & Ht).
    eapply full_rd; [done| |done]. by eapply (Forall_lookup_1 _ _ _ _ Hf). }
  unfold op_cat. eapply sf_eq; [symmetry; apply bind_ok, (get_all_ok _ _ _ Hts)|]. subst rs.
  apply sf_expect_bind; [done|]. intros Hdim. apply sf_expect_bind; [done|]. intros Hcc. fold d in Hcc |- *.
  assert (Forall (fun r => same_but d (shape r0) (shape r)) (r0 :: rest)) as Hsame.
  { constructor; [by split|]. apply Forall_forall. intros r Hr. apply cat_compatible_spec. rewrite forallb_forall in Hcc. apply Hcc. by apply elem_of_list_In. }
  assert (d < length (shape r0))%nat as Hd by (unfold d, shape; lia).
  assert (Forall (fun n => 0 <= n) (sizes_along d (r0 :: rest))) as Hnns.
  { unfold sizes_along. apply Forall_map, Forall_forall. intros r Hr. rewrite Forall_forall in Hrd, Hsame.
    destruct (Hrd r Hr) as [(_ & Hn & _) _]. destruct (Hsame r Hr) as [Hl _].
    destruct (lookup_lt_is_Some_2 (shape r) d) as [x Hx]; [lia|]. rewrite (nth_lookup_Some _ _ _ _ Hx). by eapply (Forall_lookup_1 _ _ _ _ Hn). }
  rewrite fold_u64_total, fold_larger, Z.add_0_l by (done || lia). fold (cat_type r0 (r0 :: rest)).
  change (<[d := total_len (sizes_along d (r0 :: rest))]> (sizes (t_lay r0))) with (cat_shape d r0 (r0 :: rest)).
  set (D := cat_type r0 (r0 :: rest)) in *. set (ss := cat_shape d r0 (r0 :: rest)) in *. set (tot := total_len (sizes_along d (r0 :: rest))) in *.
  assert (length ss = length (shape r0)) as Hlss by (unfold ss, cat_shape; apply insert_length).
  assert (ss !! d = Some tot) as Hssd by (unfold ss, cat_shape; by apply list_lookup_insert).
  apply (sf_newc h D ss (fun dr => cat_copy D d dr (r0 :: rest) 0)); [done|done|intros; apply st_cat_copy| |].
  - intros h1 dr G1 S1 Hn _. change D with (t_dt dr). eapply sf_mono; [apply (sf_cat_copy h dr d ss tot (r0 :: rest) 0 h1); try done|].
    + apply Hn.
    + lia.
    + apply Forall_forall. intros r Hr. rewrite Forall_forall in Hrd, Hsame. split; [by apply Hrd|].
      unfold ss, cat_shape. rewrite list_insert_insert. apply (same_but_insert d (shape r0) (shape r)); [by apply Hsame|done|done].
    + intros ? h2 _ _ P sv Hsv. change (shape dr) with ss in Hsv. apply P; [done|].
      pose proof (in_range_length _ _ Hsv) as Hl. destruct (lookup_lt_is_Some_2 sv d) as [i Hi]; [lia|]. rewrite (nth_lookup_Some _ _ _ _ Hi).
      assert (0 <= i < tot) by (by eapply (in_range_lookup _ _ d)). fold tot. lia.
  - intros t h2 G2 S2 Hm. destruct (existsb t_rg (r0 :: rest)) eqn:Erg.
    + eapply sf_track_made; try done.
      * apply existsb_exists in Erg as (r & Hr & Erg). apply elem_of_list_In in Hr.
        pose proof Hr as Hr'. apply elem_of_list_lookup in Hr' as [k Hk]. destruct (Forall2_lookup_r _ _ _ _ _ Hts Hk) as (t' & _ & Ht').
        pose proof (si_float h t' r S Ht' Erg) as Hfl. pose proof (proj2 (fold_join_le (r0 :: rest) (t_dt r0)) r Hr) as Hj.
        fold (cat_type r0 (r0 :: rest)) in Hj. fold D in Hj. rewrite <- Hj, <- larger_join. by apply is_float_join_l.
      * eapply Forall_impl; [exact Hf|]. intros i. by apply full_at_grow.
      * intros dim' [= <-]. eapply cat_room_grow; [done|]. by exists (r0 :: rest).
    + apply sf_ret; [done|]. by eapply made_full.
Qed.

(** ** brace initialisers *)
Lemma sf_init h t : SI h -> no_empty_node t -> (forall ss dt, rectangular t ss dt -> Forall (fun n => n < two64) ss /\ fits dt ss) ->
  sf (let! s := lift (tinit_spec t) in let! x := create_impl s in mret (RHandle x)) (fun r h' => exists v, r = RHandle (Some v) /\ full_at h' v) h.
Proof.
  intros S Hn Hrect. destruct (ragged_spec t Hn) as [(ss & dt & Hr)|E].
  2:{ apply sf_lift_bind; [done|by rewrite E|]. intros s. by rewrite E. }
  destruct (Hrect _ _ Hr) as [H64 Hfit]. destruct (tinit_spec_rect _ _ _ Hr) as (s & Es & Hf). pose proof Hf as (F1 & F2 & F3 & F4).
  apply sf_lift_bind; [done|by rewrite Es|]. rewrite Es. intros s' [= <-].
  assert (ss <> []) as Hne by (by inversion Hr). pose proof (size_of_pos dt) as Hz. pose proof (size_prod_nonneg _ F4) as Hp. pose proof alloc_max_64 as Ha.
  unfold fits in Hfit.
  assert (bytes_fit dt ss) as Hb by (split; [done|lia]). destruct (bytes_numel dt (contig ss) Hb) as [E1 E2]. cbn [contig sizes] in E2.
  set (x := Sto dt (size_of dt * size_prod ss) (Some (map Some (sp_data s)))). set (r := fresh_rec dt (contig ss) (length (h_sto h))).
  eapply (sf_bind _ _ (fun o h' => o = Some (length (h_ten h)) /\ h' = add_both h x r)).
  - unfold sf. rewrite (create_impl_ok h s ss dt) by done. change (alloc_heap h dt (contig ss) (map Some (sp_data s)) false None) with (add_both h x r).
    assert (sok x) as Hx.
    { split; cbn [sto_bytes sto_blob sto_ty x]; [nia|]. rewrite map_length, Z.mul_comm, Z.div_mul by lia. lia. }
    split; [by apply add_both_grow|]. split; [|done]. apply add_both_si; [done|done|]. apply fresh_si; [|done|done|done].
    pose proof (create_geom h dt (contig ss) (Some (map Some (sp_data s))) Hb (contig_fit ss) ltac:(cbn; lia) (contig_sane dt ss F4 ltac:(lia))) as Hg.
    cbv zeta in Hg. rewrite E2 in Hg. exact Hg.
  - intros o h1 G1 S1 [-> ->]. apply sf_ret; [done|]. eexists. split; [done|]. exists r. split; [apply lookup_snoc|].
    exists x. split; [apply lookup_snoc|]. intros k Hk. unfold cap in Hk. cbn [sto_ty sto_bytes x] in Hk. rewrite Z.mul_comm, Z.div_mul in Hk by lia.
    destruct (lookup_lt_is_Some_2 (sp_data s) k) as [v Hv]; [lia|]. exists x, (map Some (sp_data s)), v. split; [apply lookup_snoc|]. split; [done|].
    rewrite list_lookup_fmap, Hv. done.
Qed.

(** ** queries *)
Lemma sf_byte h r p : SI h -> rd h r -> 0 <= p -> (exists idx, in_range (shape r) idx /\ p = pos (t_lay r) idx) -> sf (load_bool_byte (t_sto r) p) (fun _ h' => h' = h) h.
Proof.
  intros S Hr Hp (idx & Hi & Ep). destruct (geom_pos _ _ _ (proj1 Hr) Hi) as (x & Hx & HT & _ & _ & _ & Hc). rewrite <- Ep in Hc.
  pose proof (size_of_pos (sto_ty x)) as Hz. pose proof Hr as [_ (y & Hy & Hf)]. assert (y = x) as -> by congruence.
  assert (0 <= p / size_of (sto_ty x) <= p) as Hd by (split; [apply Z.div_pos; lia|apply Z.div_le_upper_bound; nia]).
  destruct (Hf (Z.to_nat (p / size_of (sto_ty x))) ltac:(lia)) as (y & cs & v & Hy' & Hb & Hv). assert (y = x) as -> by congruence.
  assert (sok x) as [_ Hk] by (eapply Forall_lookup_1; [apply S|done]). rewrite Hb in Hk. fold (cap x) in Hk.
  unfold sf, load_bool_byte, bind, get_sto. rewrite Hx, Hb. cbv zeta.
  replace ((0 <=? p) && (p <? size_of (sto_ty x) * Z.of_nat (length cs))) with true by nia. rewrite Hv.
  generalize (nth (Z.to_nat (p mod size_of (sto_ty x))) (val_bytes (sto_ty x) v) 0). intros b. destruct (b =? 0); [split; [apply grow_refl|done]|]. destruct (b =? 1); [split; [apply grow_refl|done]|done].
Qed.
Lemma sf_op_all h t : SI h -> full_at h t -> sf (op_all t) (fun _ _ => True) h.
Proof.
  intros S Hf. pose proof Hf as (r & Hr & _). pose proof (full_rd _ _ _ S Hf Hr) as Rr. unfold op_all. eapply sf_get_bind; [done|]. cbv zeta.
  destruct (existsb _ _) eqn:E0; [by apply sf_ret|].
  assert (forall sv, in_range (shape r) sv -> sf (let! p := idx_exact r sv in load_bool_byte (t_sto r) p) (fun _ h' => h' = h) h) as Hb.
  { intros sv Hi. unfold idx_exact. rewrite (exact_ok _ _ _ (proj1 Rr) Hi). apply sf_lift_bind; [done|done|]. intros p [= <-].
    destruct (geom_pos _ _ _ (proj1 Rr) Hi) as (x & _ & _ & _ & _ & _ & Hc). apply sf_byte; [done|done|lia|eauto]. }
  change (sizes (t_lay r)) with (shape r) in *. destruct (shape r) as [|n ss] eqn:Es.
  - eapply sf_weak, Hb. constructor.
  - rewrite <- Es in *. assert (Forall (fun k => 0 < k) (shape r)) as Hpos.
    { apply Forall_forall. intros k Hk. destruct Rr as [(_ & Hn & _) _]. rewrite Forall_forall in Hn. specialize (Hn k Hk).
      destruct (Z.eq_dec k 0) as [->|]; [|lia]. apply not_true_iff_false in E0. destruct E0. apply existsb_exists. exists 0. split; [by apply elem_of_list_In|done]. }
    eapply sf_bind; [|intros; by apply sf_ret].
    eapply sf_eq; [symmetry; apply odometer_run; [by rewrite Es|done]|].
    assert (forall l, Forall (in_range (shape r)) l -> sf (run_idx (fun sv => let! p := idx_exact r sv in let! b := load_bool_byte (t_sto r) p in mret (if b : bool then None else Some false)) l) (fun _ _ => True) h) as K.
    { induction l as [|sv l IH]; intros Hl; cbn [run_idx]; [by apply sf_ret|]. apply Forall_cons in Hl as [Hi Hl].
      eapply (sf_bind _ _ (fun _ h' => h' = h)).
      - eapply sf_eq; [apply (bind_assoc (idx_exact r sv))|]. eapply sf_bind; [by apply Hb|]. intros b h1 _ S1 ->. by apply sf_ret.
      - intros o h1 _ S1 ->. destruct o; [by apply sf_ret|by apply IH]. }
    apply K. apply Forall_forall. intros sv. apply elem_of_indices.
Qed.
Lemma sf_collect {A} h (l : list Z) (f : Z -> E A) : SI h -> (forall i, i ∈ l -> sf (f i) (fun _ h' => h' = h) h) -> sf (collect l f) (fun _ h' => h' = h) h.
Proof.
  intros S. induction l as [|i l IH]; intros H; cbn [collect]; [by apply sf_ret|].
  eapply sf_bind; [apply H; left|]. intros x h1 _ _ ->. eapply sf_bind; [apply IH; intros; apply H; by right|]. intros xs h1 _ _ ->. by apply sf_ret.
Qed.
Lemma sf_text h r : SI h -> rd h r -> forall ss sts off pre, (length ss <= length sts)%nat ->
  (forall idx, in_range ss idx -> in_range (sizes (t_lay r)) (pre ++ idx) /\ pos (t_lay r) (pre ++ idx) * size_of (t_dt r) = off + dot sts idx * size_of (t_dt r)) ->
  sf (to_string_helper (t_dt r) (t_sto r) ss sts (s64 off)) (fun _ h' => h' = h) h.
Proof.
  intros S Hr. pose proof (size_of_pos (t_dt r)) as Hpos.
  induction ss as [|n ss IH]; intros sts off pre Hl Hp; cbn [to_string_helper].
  - destruct (Hp [] ltac:(constructor)) as [Hi Ep]. rewrite app_nil_r in *. replace (off + dot sts [] * size_of (t_dt r)) with off in Ep by (destruct sts; cbn; lia).
    destruct (geom_pos _ _ _ (proj1 Hr) Hi) as (x & Hx & HT & _ & _ & _ & Hc).
    destruct (geom_count h r S (proj1 Hr)) as (y & Hy & HTy & By & _). assert (y = x) as -> by congruence.
    assert (size_of (t_dt r) * cap x <= sto_bytes x) as Hcb. { unfold cap. rewrite HT. apply Z.mul_div_le. done. }
    pose proof alloc_max_lt. rewrite s64_id by (rewrite <- Ep; unfold two63 in *; nia). unfold load_byte_off. rewrite <- Ep, Z_mod_mult, Z.div_mul by lia. cbn [Z.eqb].
    eapply sf_bind; [by apply (sf_load_pos h r pre (fun _ h' => h' = h))|]. intros v h1 _ _ ->. by apply sf_ret.
  - destruct sts as [|st sts]; [cbn in Hl; lia|].
    eapply sf_bind; [apply sf_collect; [done|]|intros ? h1 _ _ ->; by apply sf_ret]. intros i Hi%elem_of_seqZ.
    assert (s64 (u64 (s64 off + i * st * size_of (t_dt r))) = s64 (off + i * st * size_of (t_dt r))) as ->.
    { rewrite <- (s64_u64 (off + _)). f_equal. unfold u64. rewrite <- Zplus_mod_idemp_l, s64_mod, Zplus_mod_idemp_l. done. }
    apply (IH sts (off + i * st * size_of (t_dt r)) (pre ++ [i])).
    + cbn in Hl. lia.
    + intros idx Hidx. destruct (Hp (i :: idx)) as [H1 H2]; [constructor; [lia|done]|]. rewrite <- app_assoc. split; [done|]. cbn [app]. rewrite H2. cbn [dot]. ring.
Qed.
Lemma sf_to_string h t : SI h -> full_at h t -> sf (impl_to_string t) (fun _ _ => True) h.
Proof.
  intros S Hf. pose proof Hf as (r & Hr & _). pose proof (full_rd _ _ _ S Hf Hr) as Rr. unfold impl_to_string. eapply sf_get_bind; [done|].
  rewrite s64_u64. eapply sf_weak, (sf_text h r S Rr _ _ _ []).
  - apply Rr.
  - intros idx Hi. split; [done|]. cbn [app]. unfold pos. ring.
Qed.
Lemma sf_zero_grad h t r : SI h -> h_ten h !! t = Some r -> sf (zero_grad t) (fun _ _ => True) h.
Proof.
  intros S Hr. unfold zero_grad. eapply sf_get_bind; [done|]. destruct (t_grad r) as [g|] eqn:Eg; [|by apply sf_ret].
  destruct (ts_grad _ _ (si_ten _ S _ _ Hr) _ Eg) as [(gr & x & Hg & _ & _ & Hx & _)]. eapply sf_get_bind; [done|].
  eapply sf_weak, sf_zero; [done|by eexists].
Qed.
End with_fops.
