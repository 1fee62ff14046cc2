(** Memory safety of the kernels. *)
From Verif.Proofs Require Export Safe1.

(** an injective layout with as many elements as cells reaches every cell *)
Lemma dense_cover l n k : Forall (fun n => 0 <= n) (sizes l) -> lay_in l n -> lay_inj l -> size_prod (sizes l) = n ->
  0 <= k < n -> exists idx, in_range (sizes l) idx /\ pos l idx = k.
Proof.
  intros Hn Hin Hinj Hs Hk.
  assert (NoDup (pos l <$> indices (sizes l))) as Hd.
  { apply NoDup_fmap_2_strong; [|by apply NoDup_indices]. intros x y Hx Hy E. apply Hinj; [by apply in_indices..|done]. }
  assert (k ∈ pos l <$> indices (sizes l)) as Hx.
  { assert ((pos l <$> indices (sizes l)) ≡ₚ seqZ 0 n) as ->; [|apply elem_of_seqZ; lia].
    apply submseteq_Permutation_length_le.
    2:{ apply NoDup_submseteq; [done|]. intros z (idx & -> & Hi)%elem_of_list_fmap. apply elem_of_seqZ.
      apply in_indices in Hi; [|done]. specialize (Hin idx Hi). lia. }
    rewrite fmap_length, seqZ_length. pose proof (length_indices _ Hn). pose proof (size_prod_nonneg _ Hn). lia. }
  apply elem_of_list_fmap in Hx as (idx & -> & Hi). exists idx. split; [by apply in_indices|done].
Qed.

Section with_fops.
Context {fo : FOps}.

Definition rd (h : heap) (r : tensor) : Prop := geom h r /\ full h r.
Definition wr (h : heap) (r : tensor) : Prop :=
  geom h r /\ forall x, h_sto h !! t_sto r = Some x -> 0 < cap x -> allocd h (t_sto r).
Lemma rd_grow h h' r : grow h h' -> rd h r -> rd h' r.
Proof. intros G [H1 H2]. split; [by eapply geom_grow|by eapply full_grow]. Qed.
Lemma wr_grow h h' r : grow h h' -> wr h r -> wr h' r.
Proof.
  intros G [H1 H2]. split; [by eapply geom_grow|]. intros x' Hx' Hc. destruct H1 as [(x & Hx & _) _].
  destruct (proj1 (gw_rs _ _ G) _ _ Hx) as (x1 & Hx1 & S1 & S2 & _). assert (x1 = x') as -> by congruence.
  apply (gw_alloc _ _ G), (H2 _ Hx). unfold cap in *. by rewrite <- S1, <- S2.
Qed.
Lemma filled_alloc h s k : filled h s k -> allocd h s.
Proof. intros (x & cs & v & H1 & H2 & _). by exists x, cs. Qed.
Lemma full_wr h r : geom h r -> full h r -> wr h r.
Proof.
  intros H1 (y & Hy & H2). split; [done|]. intros x Hx Hc. assert (y = x) as -> by congruence. apply (filled_alloc _ _ 0%nat), H2. lia.
Qed.
Lemma rd_wr h r : rd h r -> wr h r.
Proof. intros [H1 H2]. by apply full_wr. Qed.

Definition done_at (d : tensor) (sv : list Z) (h : heap) : Prop :=
  in_range (shape d) sv -> filled h (t_sto d) (Z.to_nat (pos (t_lay d) sv)).
Lemma done_grow d sv h h' : done_at d sv h -> grow h h' -> done_at d sv h'.
Proof. intros H G Hi. by apply G, H. Qed.

Lemma full_cell h r idx : rd h r -> in_range (shape r) idx -> filled h (t_sto r) (Z.to_nat (pos (t_lay r) idx)).
Proof.
  intros [Hg (y & Hy & Hf)] Hi. destruct (geom_pos _ _ _ Hg Hi) as (x & Hx & _ & _ & _ & _ & Hp). assert (y = x) as -> by congruence.
  apply Hf. lia.
Qed.
Lemma sf_load_pos h r idx (Q : val -> heap -> Prop) : SI h -> rd h r -> in_range (shape r) idx -> (forall v, Q v h) ->
  sf (load (t_dt r) (t_sto r) (pos (t_lay r) idx)) Q h.
Proof.
  intros S H Hi HQ. destruct (geom_pos _ _ _ (proj1 H) Hi) as (x & Hx & HT & _ & _ & _ & Hp).
  eapply sf_load; [done|done|done|lia|by apply full_cell|done].
Qed.
Definition nn (l : list Z) : Prop := Forall (fun i => 0 <= i) l.
Lemma sf_load_aug h r sv (Q : val -> heap -> Prop) : SI h -> rd h r -> (length (shape r) <= length sv)%nat -> nn sv -> (forall v, Q v h) ->
  sf (load_aug (t_dt r) r sv) Q h.
Proof.
  intros S H Hl Hn HQ. unfold load_aug, idx_aug. destruct (aug_ok h r sv (proj1 H) Hl Hn) as [->|(i & Hi & ->)].
  - split; [apply grow_refl|done].
  - apply sf_lift_bind; [done|done|]. intros p [= <-]. by apply sf_load_pos.
Qed.
Lemma sf_load_exact h r sv (Q : val -> heap -> Prop) : SI h -> rd h r -> in_range (shape r) sv -> (forall v, Q v h) ->
  sf (load_exact (t_dt r) r sv) Q h.
Proof.
  intros S H Hi HQ. unfold load_exact, idx_exact. rewrite (exact_ok _ _ _ (proj1 H) Hi).
  apply sf_lift_bind; [done|done|]. intros p [= <-]. by apply sf_load_pos.
Qed.
Lemma sf_store_pos h F d idx v (Q : unit -> heap -> Prop) : SI h -> wr h d -> in_range (shape d) idx ->
  (forall h', filled h' (t_sto d) (Z.to_nat (pos (t_lay d) idx)) -> Q tt h') -> sf (store_cvt F (t_dt d) (t_sto d) (pos (t_lay d) idx) v) Q h.
Proof.
  intros S [Hg Ha] Hi HQ. destruct (geom_pos _ _ _ Hg Hi) as (x & Hx & HT & _ & _ & _ & Hp).
  eapply sf_store_cvt; [done|done|done|apply (Ha x Hx); lia|done|done].
Qed.
Lemma sf_store1_pos h d idx v (Q : unit -> heap -> Prop) : SI h -> wr h d -> in_range (shape d) idx ->
  (forall h', filled h' (t_sto d) (Z.to_nat (pos (t_lay d) idx)) -> Q tt h') -> sf (store (t_dt d) (t_sto d) (pos (t_lay d) idx) v) Q h.
Proof.
  intros S [Hg Ha] Hi HQ. destruct (geom_pos _ _ _ Hg Hi) as (x & Hx & HT & _ & _ & _ & Hp).
  eapply sf_store; [done|done|done|apply (Ha x Hx); lia|done|done].
Qed.
Lemma in_range_nn ss sv : in_range ss sv -> nn sv.
Proof. induction 1; constructor; [lia|done]. Qed.
Lemma sf_store_aug h F d sv v : SI h -> wr h d -> (length (shape d) <= length sv)%nat -> nn sv ->
  sf (let! p := idx_aug d sv in store_cvt F (t_dt d) (t_sto d) p v) (fun _ => done_at d sv) h.
Proof.
  intros S H Hl Hn. unfold idx_aug. destruct (aug_ok h d sv (proj1 H) Hl Hn) as [->|(i & Hi & E)].
  - split; [apply grow_refl|done].
  - rewrite E. apply sf_lift_bind; [done|done|]. intros p [= <-]. apply sf_store_pos; [done|done|done|].
    intros h' Hf Hr. rewrite (aug_self h d sv (proj1 H) Hr) in E. injection E as E. by rewrite E.
Qed.
Lemma sf_store_exact h F d sv v : SI h -> wr h d -> in_range (shape d) sv ->
  sf (let! p := idx_exact d sv in store_cvt F (t_dt d) (t_sto d) p v) (fun _ => done_at d sv) h.
Proof.
  intros S H Hi. unfold idx_exact. rewrite (exact_ok _ _ _ (proj1 H) Hi).
  apply sf_lift_bind; [done|done|]. intros p [= <-]. apply sf_store_pos; [done|done|done|]. intros h' Hf _. done.
Qed.
(** *p += ..., the destination being initialised *)
Lemma sf_acc_aug h d sv (k : val -> E val) F : SI h -> rd h d -> (length (shape d) <= length sv)%nat -> nn sv ->
  (forall v h', SI h' -> grow h h' -> sf (k v) (fun _ _ => True) h') ->
  sf (let! p := idx_aug d sv in let! v := load (t_dt d) (t_sto d) p in let! w := k v in store_cvt F (t_dt d) (t_sto d) p w) (fun _ _ => True) h.
Proof.
  intros S H Hl Hn Hk. unfold idx_aug. destruct (aug_ok h d sv (proj1 H) Hl Hn) as [->|(i & Hi & ->)].
  - split; [apply grow_refl|done].
  - apply sf_lift_bind; [done|done|]. intros p [= <-]. eapply sf_bind; [by apply (sf_load_pos h d _ (fun _ _ => True))|].
    intros v h1 G1 S1 _. eapply sf_bind; [by apply Hk|]. intros w h2 G2 S2 _. apply sf_store_pos; [done| |done|done].
    apply rd_wr. eapply rd_grow; [done|]. by eapply rd_grow.
Qed.
Lemma sf_acc_exact h d sv (k : val -> E val) F : SI h -> rd h d -> in_range (shape d) sv ->
  (forall v h', SI h' -> grow h h' -> sf (k v) (fun _ _ => True) h') ->
  sf (let! p := idx_exact d sv in let! v := load (t_dt d) (t_sto d) p in let! w := k v in store_cvt F (t_dt d) (t_sto d) p w) (fun _ _ => True) h.
Proof.
  intros S H Hi Hk. unfold idx_exact. rewrite (exact_ok _ _ _ (proj1 H) Hi).
  apply sf_lift_bind; [done|done|]. intros p [= <-]. eapply sf_bind; [by apply (sf_load_pos h d _ (fun _ _ => True))|].
  intros v h1 G1 S1 _. eapply sf_bind; [by apply Hk|]. intros w h2 G2 S2 _. apply sf_store_pos; [done| |done|done].
  apply rd_wr. eapply rd_grow; [done|]. by eapply rd_grow.
Qed.
Lemma sf_binop h o L R a b (Q : val -> heap -> Prop) : SI h -> (forall v, Q v h) -> sf (lift (binop o L R a b)) Q h.
Proof. intros S HQ. apply sf_lift; [done|auto|]. intros u. apply binop_soft. Qed.

(** ** element-wise kernels *)
Lemma sf_binary_body h o l r d sv : SI h -> rd h l -> rd h r -> wr h d -> nn sv ->
  (length (shape l) <= length sv)%nat -> (length (shape r) <= length sv)%nat -> (length (shape d) <= length sv)%nat ->
  sf (binary_body o (t_dt d) (t_dt l) (t_dt r) d l r sv) (fun _ => done_at d sv) h.
Proof.
  intros S Hl Hr Hd Hn L1 L2 L3. unfold binary_body.
  eapply sf_bind; [by apply (sf_load_aug h l sv (fun _ _ => True))|]. intros a h1 G1 S1 _.
  eapply sf_bind; [apply (sf_load_aug h1 r sv (fun _ _ => True)); [done|by eapply rd_grow|done|done|done]|]. intros b h2 G2 S2 _.
  eapply sf_bind; [by apply (sf_binop h2 _ _ _ _ _ (fun _ _ => True))|]. intros v h3 G3 S3 _.
  apply sf_store_aug; [done| |done|done]. eapply wr_grow; [eapply grow_trans; [exact G1|eapply grow_trans; [exact G2|exact G3]]|done].
Qed.
Definition covered (d : tensor) (h : heap) : Prop := forall sv, in_range (shape d) sv -> filled h (t_sto d) (Z.to_nat (pos (t_lay d) sv)).
Lemma sf_binary_loop h o l r d rg : SI h -> rd h l -> rd h r -> wr h d -> nn rg ->
  (length (shape l) <= length rg)%nat -> (length (shape r) <= length rg)%nat -> (length (shape d) <= length rg)%nat ->
  sf (for_each_sizevec rg (binary_body o (t_dt d) (t_dt l) (t_dt r) d l r)) (fun _ h' => shape d = rg -> covered d h') h.
Proof.
  intros S Hl Hr Hd Hn L1 L2 L3. eapply sf_mono; [apply (sf_for_each rg _ (done_at d)); [done|done| |]|].
  - intros sv h' Hi G' S'. pose proof (in_range_length _ _ Hi) as Hs. apply sf_binary_body; try (by eapply rd_grow); try lia; [done|by eapply wr_grow|by eapply in_range_nn].
  - intros sv h1 h2 H G. by eapply done_grow.
  - intros ? h' _ _ H <- sv Hi. by apply H.
Qed.
Lemma sf_add h l r d : SI h -> rd h l -> rd h r -> wr h d -> t_dt d = t_dt l -> nn (shape l) -> nn (shape r) -> (length (shape d) <= Nat.max (length (shape l)) (length (shape r)))%nat ->
  sf (tensor_add (t_dt l) (t_dt r) d l r) (fun _ h' => shape d = bmax (shape l) (shape r) -> covered d h') h.
Proof.
  intros S Hl Hr Hd Ht N1 N2 L3. unfold tensor_add. rewrite broadcast_range_max. apply sf_lift_bind; [done|done|]. intros rg [= <-].
  fold (shape l) (shape r). rewrite <- Ht at 1. apply sf_binary_loop; try done; [by apply bmax_Forall|..]; rewrite bmax_length; lia.
Qed.
Lemma sf_sub h l r d : SI h -> rd h l -> rd h r -> wr h d -> t_dt d = innc_common (t_dt l) (t_dt r) -> nn (shape l) -> nn (shape r) ->
  (length (shape d) <= Nat.max (length (shape l)) (length (shape r)))%nat ->
  sf (tensor_sub (t_dt l) (t_dt r) d l r) (fun _ h' => shape d = bmax (shape l) (shape r) -> covered d h') h.
Proof.
  intros S Hl Hr Hd Ht N1 N2 L3. unfold tensor_sub. rewrite broadcast_range_max. apply sf_lift_bind; [done|done|]. intros rg [= <-].
  fold (shape l) (shape r). rewrite <- Ht. apply sf_binary_loop; try done; [by apply bmax_Forall|..]; rewrite bmax_length; lia.
Qed.
Lemma sf_mul h l r d : SI h -> rd h l -> rd h r -> wr h d -> t_dt d = t_dt l ->
  (length (shape l) <= length (shape d))%nat -> (length (shape r) <= length (shape d))%nat ->
  sf (tensor_mul (t_dt l) (t_dt r) d l r) (fun _ => covered d) h.
Proof.
  intros S Hl Hr Hd Ht L1 L2. unfold tensor_mul. rewrite <- Ht at 1. eapply sf_mono; [apply sf_binary_loop; try done; apply Hd|]. intros ? h' _ _ H. by apply H.
Qed.
Lemma sf_div h l r d : SI h -> rd h l -> rd h r -> wr h d -> t_dt d = innc_common (t_dt l) (t_dt r) ->
  (length (shape l) <= length (shape d))%nat -> (length (shape r) <= length (shape d))%nat ->
  sf (tensor_div (t_dt l) (t_dt r) d l r) (fun _ => covered d) h.
Proof.
  intros S Hl Hr Hd Ht L1 L2. unfold tensor_div. rewrite <- Ht. eapply sf_mono; [apply sf_binary_loop; try done; apply Hd|]. intros ? h' _ _ H. by apply H.
Qed.
Lemma sf_loop h rg body (d : tensor) : SI h -> nn rg -> (forall sv h', in_range rg sv -> grow h h' -> SI h' -> sf (body sv) (fun _ => done_at d sv) h') ->
  sf (for_each_sizevec rg body) (fun _ h' => shape d = rg -> covered d h') h.
Proof.
  intros S Hn Hb. eapply sf_mono; [apply (sf_for_each rg _ (done_at d)); [done|done|done|]|].
  - intros sv h1 h2 H G. by eapply done_grow.
  - intros ? h' _ _ H <- sv Hi. by apply H.
Qed.
Lemma sf_loop0 h rg body : SI h -> nn rg -> (forall sv h', in_range rg sv -> grow h h' -> SI h' -> sf (body sv) (fun _ _ => True) h') ->
  sf (for_each_sizevec rg body) (fun _ _ => True) h.
Proof.
  intros S Hn Hb. eapply sf_mono; [by apply (sf_for_each rg _ (fun _ _ => True))|]. done.
Qed.
Lemma sf_cmp h c l r d : SI h -> rd h l -> rd h r -> wr h d -> t_dt d = I8 ->
  (length (shape l) <= length (shape d))%nat -> (length (shape r) <= length (shape d))%nat ->
  sf (tensor_cmp c (t_dt l) (t_dt r) d l r) (fun _ => covered d) h.
Proof.
  intros S Hl Hr Hd Ht L1 L2. unfold tensor_cmp. eapply sf_mono; [apply (sf_loop _ _ _ d); [done|apply Hd|]|intros ? h' _ _ H; by apply H].
  intros sv h' Hi G' S'. pose proof (in_range_length _ _ Hi) as Hs. pose proof (in_range_nn _ _ Hi) as Hn. fold (shape d) in Hs, Hi.
  eapply sf_bind; [apply (sf_load_aug h' l sv (fun _ _ => True)); [done|by eapply rd_grow|lia|done|done]|]. intros a h1 G1 S1 _.
  eapply sf_bind; [apply (sf_load_aug h1 r sv (fun _ _ => True)); [done|eapply rd_grow; [|exact Hr]; by eapply grow_trans|lia|done|done]|]. intros b h2 G2 S2 _.
  apply sf_lift_bind; [done|intros u; apply cmpop_soft|]. intros v _. rewrite <- Ht.
  apply sf_store_aug; [done| |lia|done]. eapply wr_grow; [|done]. eapply grow_trans; [exact G'|]. by eapply grow_trans.
Qed.
Lemma sf_copy_body h d src sv : SI h -> rd h src -> wr h d -> in_range (shape d) sv -> shape src = shape d ->
  sf (copy_body (t_dt d) (t_dt src) d src sv) (fun _ => done_at d sv) h.
Proof.
  intros S Hs Hd Hi E. unfold copy_body.
  eapply sf_bind; [apply (sf_load_exact h src sv (fun _ _ => True)); [done|done|by rewrite E|done]|]. intros v h1 G1 S1 _.
  apply sf_store_exact; [done|by eapply wr_grow|done].
Qed.
Lemma sf_copy h d src : SI h -> rd h src -> wr h d -> shape src = shape d ->
  sf (tensor_clone (t_dt d) (t_dt src) d src) (fun _ => covered d) h.
Proof.
  intros S Hs Hd E. unfold tensor_clone. eapply sf_mono; [apply (sf_loop _ _ _ d); [done|apply Hd|]|intros ? h' _ _ H; by apply H].
  intros sv h' Hi G' S'. apply sf_copy_body; [done|by eapply rd_grow|by eapply wr_grow|done|done].
Qed.
Lemma sf_totype h d src : SI h -> rd h src -> wr h d -> shape src = shape d ->
  sf (tensor_to_type (t_dt d) (t_dt src) d src) (fun _ => covered d) h.
Proof. apply sf_copy. Qed.

(** the destination has all its cells reached by its layout *)
Definition dense (h : heap) (d : tensor) : Prop := exists x, h_sto h !! t_sto d = Some x /\ (0 ∈ shape d -> cap x <= 0) /\
  (0 ∉ shape d -> lay_in (t_lay d) (cap x) /\ lay_inj (t_lay d) /\ size_prod (shape d) = cap x).
Lemma dense_grow h h' d : grow h h' -> dense h d -> dense h' d.
Proof.
  intros G (x & Hx & H1 & H2). destruct (proj1 (gw_rs _ _ G) _ _ Hx) as (x' & Hx' & S1 & S2 & _). exists x'. unfold cap in *. by rewrite S1, S2.
Qed.
Lemma cover_full h d : nn (shape d) -> dense h d -> covered d h -> full h d.
Proof.
  intros Hn (x & Hx & H0 & H1) Hc. exists x. split; [done|]. intros k Hk.
  destruct (decide (0 ∈ shape d)) as [Hz|Hz]; [specialize (H0 Hz); lia|]. destruct (H1 Hz) as (L1 & L2 & L3).
  destruct (dense_cover (t_lay d) (cap x) (Z.of_nat k) Hn L1 L2 L3 ltac:(lia)) as (idx & Hi & E).
  specialize (Hc idx Hi). by rewrite E, Nat2Z.id in Hc.
Qed.

(** ** fill, zero, eye *)
Lemma sto_zero_eq s x cs h : h_sto h !! s = Some x -> sto_blob x = Some cs ->
  sto_zero s h = (Ok tt, Hp (<[s := Sto (sto_ty x) (sto_bytes x) (Some (map (fun _ => Some (zero_val (sto_ty x))) cs))]> (h_sto h)) (h_ten h) (h_ver h)).
Proof. intros Hx Hb. unfold sto_zero, bind, get_sto, set_sto. by rewrite Hx, Hb. Qed.
Lemma sf_zero h s : SI h -> is_Some (h_sto h !! s) -> sf (sto_zero s) (fun _ h' => allocd h s -> fullsto h' s) h.
Proof.
  intros S [x Hx]. destruct (sto_blob x) as [cs|] eqn:Hb.
  - unfold sf. rewrite (sto_zero_eq s x cs h Hx Hb).
    match goal with |- grow h ?h' /\ _ => assert (grow h h') as G end.
    { eapply put_grow; [done|done|by rewrite map_length|]. intros k v Hv. exists (zero_val (sto_ty x)). rewrite list_lookup_fmap, Hv. done. }
    split; [done|]. split; [by eapply SI_cells|]. intros _. eexists. cbn [h_sto]. rewrite list_lookup_insert by (by eapply lookup_lt_Some).
    split; [done|]. intros k Hk. assert (sok x) as [_ Hs] by (eapply Forall_lookup_1; [apply S|done]). rewrite Hb in Hs. unfold cap in Hk. cbn [sto_ty sto_bytes] in Hk.
    destruct (cs !! k) as [c|] eqn:Ec; [|apply lookup_ge_None in Ec; lia].
    eexists _, _, _. cbn [h_sto]. rewrite list_lookup_insert by (by eapply lookup_lt_Some). split; [done|]. split; [done|]. rewrite list_lookup_fmap, Ec. done.
  - unfold sf, sto_zero, bind, get_sto. rewrite Hx, Hb. split; [apply grow_refl|]. split; [done|]. intros (y & c & Hy & Hc). congruence.
Qed.
Lemma sf_fill h d n : SI h -> wr h d -> rd h n -> shape n = [] -> offset (t_lay n) = 0 ->
  sf (tensor_fill (t_dt d) (t_dt n) d n) (fun _ => covered d) h.
Proof.
  intros S Hd Hn E0 E1. unfold tensor_fill.
  assert (in_range (shape n) []) as Hr by (rewrite E0; constructor).
  assert (pos (t_lay n) [] = 0) as Ep by (unfold pos; rewrite E1; by destruct (strides (t_lay n))).
  eapply sf_bind; [rewrite <- Ep at 1; by apply (sf_load_pos h n [] (fun _ _ => True))|]. intros v h1 G1 S1 _.
  apply sf_lift_bind; [done|intros u; apply cvt_soft|]. intros w _. assert (wr h1 d) as Hd1 by (by eapply wr_grow).
  destruct (sizes (t_lay d)) as [|k ss] eqn:Es.
  - assert (in_range (shape d) []) as Hi by (unfold shape; rewrite Es; constructor).
    assert (pos (t_lay d) [] = offset (t_lay d)) as Eo by (unfold pos; destruct (strides (t_lay d)); simpl; lia).
    rewrite <- Eo. apply sf_store1_pos; [done|done|done|]. intros h2 Hf sv Hsv. unfold shape in Hsv. rewrite Es in Hsv. by apply in_range_nil_inv in Hsv as ->.
  - rewrite <- Es. eapply sf_mono; [apply (sf_loop _ _ _ d); [done|apply Hd|]|intros ? h' _ _ H; by apply H].
    intros sv h' Hi G' S'. unfold idx_exact. rewrite (exact_ok h1 d sv (proj1 Hd1) Hi). apply sf_lift_bind; [done|done|]. intros p [= <-].
    apply sf_store1_pos; [done|by eapply wr_grow|done|]. intros h2 Hf _. done.
Qed.
Lemma sf_eye h d n m : SI h -> rd h d -> shape d = [n; m] -> sf (tensor_eye (t_dt d) d) (fun _ _ => True) h.
Proof.
  intros S Hd E. unfold tensor_eye. fold (shape d). rewrite E. cbn [nth].
  eapply sf_mono; [apply (sf_mapM _ _ (fun _ _ => True)); [done| |done]|done].
  intros i h' Hi G' S'. apply elem_of_seqZ in Hi. assert (in_range (shape d) [i; i]) as Hr.
  { rewrite E. repeat (apply in_range_cons; split; [lia|]). constructor. }
  eapply sf_mono; [apply (sf_store_exact h' I32 d [i; i] (VI 1)); [done| |done]|done]. apply rd_wr. by eapply rd_grow.
Qed.

(** ** reductions *)
Lemma sf_sum_body h d src sv : SI h -> rd h src -> rd h d -> shape d = [] -> offset (t_lay d) = 0 -> in_range (shape src) sv ->
  sf (sum_body (t_dt d) (t_dt src) d src sv) (fun _ _ => True) h.
Proof.
  intros S Hs Hd E0 E1 Hi. unfold sum_body.
  assert (in_range (shape d) []) as Hr by (rewrite E0; constructor).
  assert (pos (t_lay d) [] = 0) as Ep by (unfold pos; rewrite E1; by destruct (strides (t_lay d))).
  eapply sf_bind; [by apply (sf_load_exact h src sv (fun _ _ => True))|]. intros v h1 G1 S1 _.
  eapply sf_bind; [rewrite <- Ep at 1; apply (sf_load_pos h1 d [] (fun _ _ => True)); [done|by eapply rd_grow|done|done]|]. intros w h2 G2 S2 _.
  eapply sf_bind; [by apply (sf_binop h2 _ _ _ _ _ (fun _ _ => True))|]. intros z h3 G3 S3 _.
  rewrite <- Ep. apply sf_store_pos; [done| |done|done]. apply rd_wr. eapply rd_grow; [|done]. eapply grow_trans; [exact G1|]. by eapply grow_trans.
Qed.
Lemma odo_sum (ss : list Z) (f : list Z -> E unit) h : Forall (fun n => 0 <= n) ss -> 0 ∉ ss -> ss <> [] ->
  (let! _ := odometer ss (plain f) in mret tt) h = for_each_sizevec ss f h.
Proof.
  intros H1 H2 H3. unfold for_each_sizevec. assert (existsb (Z.eqb 0) ss = false) as ->.
  { apply not_true_iff_false. rewrite existsb_exists. intros (x & Hx & E). apply Z.eqb_eq in E as <-. by apply H2, elem_of_list_In. }
  destruct ss; done.
Qed.
Lemma sf_store_off h F d v : SI h -> wr h d -> shape d = [] -> offset (t_lay d) = 0 ->
  sf (store_cvt F (t_dt d) (t_sto d) 0 v) (fun _ _ => True) h.
Proof.
  intros S Hd E0 E1. assert (in_range (shape d) []) as Hr by (rewrite E0; constructor).
  assert (pos (t_lay d) [] = 0) as Ep by (unfold pos; rewrite E1; by destruct (strides (t_lay d))).
  rewrite <- Ep. by apply sf_store_pos.
Qed.
Lemma sf_load_off h s : SI h -> rd h s -> shape s = [] -> sf (load (t_dt s) (t_sto s) (offset (t_lay s))) (fun _ _ => True) h.
Proof.
  intros S Hd E0. assert (in_range (shape s) []) as Hr by (rewrite E0; constructor).
  assert (pos (t_lay s) [] = offset (t_lay s)) as Ep by (unfold pos; destruct (strides (t_lay s)); simpl; lia).
  rewrite <- Ep. by apply sf_load_pos.
Qed.
Lemma numel_zero_in r : 0 ∈ shape r -> lnumel (t_lay r) = 0.
Proof. intros H. unfold lnumel. rewrite numel_of_mod, (size_prod_zero (sizes (t_lay r))) by done. done. Qed.
Lemma sf_sum h d src : SI h -> rd h src -> rd h d -> shape d = [] -> offset (t_lay d) = 0 ->
  sf (tensor_sum (t_dt d) (t_dt src) d src) (fun _ _ => True) h.
Proof.
  intros S Hs Hd E0 E1. unfold tensor_sum. destruct (Z.eqb_spec (lnumel (t_lay src)) 0) as [Hz|Hz]; [by apply sf_ret|].
  destruct (sizes (t_lay src)) as [|k ss] eqn:Es.
  - eapply sf_bind; [by apply sf_load_off|]. intros v h1 G1 S1 _. apply sf_store_off; [done| |done|done]. apply rd_wr. by eapply rd_grow.
  - eapply sf_eq.
    { symmetry. apply odo_sum; [rewrite <- Es; apply Hs| |done]. rewrite <- Es. intros H0. by apply Hz, numel_zero_in. }
    apply sf_loop0; [done|rewrite <- Es; apply Hs|]. intros sv h' Hi G' S'. apply sf_sum_body; try done; try (by eapply rd_grow). unfold shape. by rewrite Es.
Qed.
Lemma sf_mean_div h d n : SI h -> rd h d -> shape d = [] -> offset (t_lay d) = 0 -> sf (mean_div (t_dt d) d n) (fun _ _ => True) h.
Proof.
  intros S Hd E0 E1. unfold mean_div. eapply sf_bind; [rewrite <- E1; by apply sf_load_off|]. intros v h1 G1 S1 _.
  eapply sf_bind; [by apply (sf_binop h1 _ _ _ _ _ (fun _ _ => True))|]. intros z h2 G2 S2 _. apply sf_store_off; [done| |done|done].
  apply rd_wr. eapply rd_grow; [|done]. by eapply grow_trans.
Qed.
Lemma sf_mean h d src : SI h -> rd h src -> rd h d -> shape d = [] -> offset (t_lay d) = 0 ->
  sf (tensor_mean (t_dt d) (t_dt src) d src) (fun _ _ => True) h.
Proof.
  intros S Hs Hd E0 E1. unfold tensor_mean. destruct (Z.eqb_spec (lnumel (t_lay src)) 0) as [Hz|Hz]; [by apply sf_ret|].
  apply sf_lift_bind; [done|intros u; apply cvt_soft|]. intros n _.
  destruct (sizes (t_lay src)) as [|k ss] eqn:Es.
  - eapply sf_bind; [by apply sf_load_off|]. intros v h1 G1 S1 _. assert (rd h1 d) by (by eapply rd_grow).
    eapply sf_bind; [apply sf_store_off; [done| |done|done]; by apply rd_wr|]. intros ? h2 G2 S2 _. apply sf_mean_div; [done|by eapply rd_grow|done|done].
  - eapply (sf_eq (bind (let! _ := odometer (k :: ss) (plain (sum_body (t_dt d) (t_dt src) d src)) in mret tt) (fun _ => mean_div (t_dt d) d n))).
    { by rewrite bind_assoc. }
    eapply sf_bind.
    + eapply sf_eq.
      { symmetry. apply odo_sum; [rewrite <- Es; apply Hs| |done]. rewrite <- Es. intros H0. by apply Hz, numel_zero_in. }
      apply sf_loop0; [done|rewrite <- Es; apply Hs|]. intros sv h' Hi G' S'. apply sf_sum_body; try done; try (by eapply rd_grow). unfold shape. by rewrite Es.
    + intros ? h2 G2 S2 _. apply sf_mean_div; [done|by eapply rd_grow|done|done].
Qed.

(** ** accumulating kernels *)
Lemma sf_mul_acc h d l r : SI h -> rd h d -> rd h l -> rd h r ->
  sf (tensor_mul_acc_f (t_dt d) (t_dt l) (t_dt r) d l r) (fun _ _ => True) h.
Proof.
  intros S Hd Hl Hr. unfold tensor_mul_acc_f. rewrite !broadcast_range_max. apply sf_lift_bind; [done|done|]. intros rg [= <-].
  rewrite broadcast_range_max. apply sf_lift_bind; [done|done|]. intros rg [= <-]. fold (shape d) (shape l) (shape r).
  assert (nn (bmax (bmax (shape d) (shape l)) (shape r))) as Hn by (apply bmax_Forall; [apply bmax_Forall|]; [apply Hd|apply Hl|apply Hr]).
  apply sf_loop0; [done|done|]. intros sv h' Hi G' S'. pose proof (in_range_length _ _ Hi) as Hs. pose proof (in_range_nn _ _ Hi) as Hsn.
  rewrite !bmax_length in Hs. unfold mul_acc_body.
  eapply sf_bind; [apply (sf_load_aug h' l sv (fun _ _ => True)); [done|by eapply rd_grow|lia|done|done]|]. intros a h1 G1 S1 _.
  assert (grow h h1) as G01 by (by eapply grow_trans).
  eapply sf_bind; [apply (sf_load_aug h1 r sv (fun _ _ => True)); [done|by eapply rd_grow|lia|done|done]|]. intros b h2 G2 S2 _.
  assert (grow h h2) as G02 by (by eapply grow_trans).
  eapply sf_bind; [by apply (sf_binop h2 _ _ _ _ _ (fun _ _ => True))|]. intros v h3 G3 S3 _.
  assert (grow h h3) as G03 by (by eapply grow_trans).
  apply (sf_acc_aug h3 d sv (fun x => lift (binop AAdd (t_dt d) (prom (t_dt l) (t_dt r)) x v))); [done|by eapply rd_grow|lia|done|].
  intros x h4 S4 G4. by apply sf_binop.
Qed.
Lemma sf_div_num h d og den : SI h -> rd h d -> rd h og -> rd h den -> (length (shape d) <= length (shape og))%nat -> (length (shape den) <= length (shape og))%nat ->
  sf (tensor_div_back_numerator (t_dt d) (t_dt og) (t_dt den) d og den) (fun _ _ => True) h.
Proof.
  intros S Hd Hl Hr L1 L2. unfold tensor_div_back_numerator.
  apply sf_loop0; [done|apply Hl|]. intros sv h' Hi G' S'. pose proof (in_range_length _ _ Hi) as Hs. pose proof (in_range_nn _ _ Hi) as Hsn. fold (shape og) in Hs.
  eapply sf_bind; [apply (sf_load_aug h' og sv (fun _ _ => True)); [done|by eapply rd_grow|lia|done|done]|]. intros a h1 G1 S1 _.
  assert (grow h h1) as G01 by (by eapply grow_trans).
  eapply sf_bind; [apply (sf_load_aug h1 den sv (fun _ _ => True)); [done|by eapply rd_grow|lia|done|done]|]. intros b h2 G2 S2 _.
  assert (grow h h2) as G02 by (by eapply grow_trans).
  eapply sf_bind; [by apply (sf_binop h2 _ _ _ _ _ (fun _ _ => True))|]. intros v h3 G3 S3 _.
  assert (grow h h3) as G03 by (by eapply grow_trans).
  apply (sf_acc_aug h3 d sv (fun x => lift (binop AAdd (t_dt d) (prom (t_dt og) (t_dt den)) x v))); [done|by eapply rd_grow|lia|done|].
  intros x h4 S4 G4. by apply sf_binop.
Qed.
Lemma sf_div_den h d og quot den : SI h -> rd h d -> rd h og -> rd h quot -> rd h den -> t_dt og = t_dt quot -> t_dt d = t_dt den ->
  shape d = shape quot -> (length (shape og) <= length (shape quot))%nat -> (length (shape den) <= length (shape quot))%nat ->
  sf (tensor_div_back_denominator (t_dt den) (t_dt quot) d og quot den) (fun _ _ => True) h.
Proof.
  intros S Hd Hg Hq Hr T1 T2 E L1 L2. unfold tensor_div_back_denominator.
  apply sf_loop0; [done|apply Hq|]. intros sv h' Hi G' S'. pose proof (in_range_length _ _ Hi) as Hs. pose proof (in_range_nn _ _ Hi) as Hsn. fold (shape quot) in Hs, Hi.
  eapply sf_bind; [rewrite <- T1; apply (sf_load_aug h' og sv (fun _ _ => True)); [done|by eapply rd_grow|lia|done|done]|]. intros a h1 G1 S1 _.
  assert (grow h h1) as G01 by (by eapply grow_trans).
  eapply sf_bind; [apply (sf_load_aug h1 quot sv (fun _ _ => True)); [done|by eapply rd_grow|lia|done|done]|]. intros b h2 G2 S2 _.
  assert (grow h h2) as G02 by (by eapply grow_trans).
  eapply sf_bind; [by apply (sf_binop h2 _ _ _ _ _ (fun _ _ => True))|]. intros v h3 G3 S3 _.
  assert (grow h h3) as G03 by (by eapply grow_trans).
  eapply sf_bind; [apply (sf_load_aug h3 den sv (fun _ _ => True)); [done|by eapply rd_grow|lia|done|done]|]. intros c h4 G4 S4 _.
  assert (grow h h4) as G04 by (by eapply grow_trans).
  eapply sf_bind; [by apply (sf_binop h4 _ _ _ _ _ (fun _ _ => True))|]. intros w h5 G5 S5 _.
  assert (grow h h5) as G05 by (by eapply grow_trans). rewrite <- T2.
  apply (sf_acc_exact h5 d sv (fun x => lift (binop ASub (t_dt d) (prom (prom (t_dt quot) (t_dt quot)) (t_dt d)) x w))); [done|by eapply rd_grow|by rewrite E|].
  intros x h6 S6 G6. by apply sf_binop.
Qed.

(** ** abs *)
Lemma sf_abs h d src g : SI h -> rd h src -> wr h d -> t_dt d = t_dt src -> shape src = shape d ->
  (forall gr, g = Some gr -> wr h gr /\ t_dt gr = t_dt src /\ shape gr = shape d) ->
  sf (tensor_abs (t_dt d) (t_dt src) d src g) (fun _ h' => covered d h' /\ forall gr, g = Some gr -> covered gr h') h.
Proof.
  intros S Hs Hd T E Hg. unfold tensor_abs.
  eapply sf_mono; [apply (sf_for_each _ _ (fun sv h' => done_at d sv h' /\ forall gr, g = Some gr -> done_at gr sv h')); [apply Hd|done| |]|].
  - intros sv h' Hi G' S'. fold (shape d) in Hi.
    eapply sf_bind; [apply (sf_load_exact h' src sv (fun _ _ => True)); [done|by eapply rd_grow|by rewrite E|done]|]. intros v h1 G1 S1 _.
    assert (grow h h1) as G01 by (by eapply grow_trans).
    apply sf_lift_bind; [done|intros u; apply cmpop_soft|]. intros ge _.
    assert (forall z, sf (match g with None => mret tt | Some g => let! p := idx_exact g sv in store_cvt I32 (t_dt src) (t_sto g) p (VI z) end)
      (fun _ h' => forall gr, g = Some gr -> done_at gr sv h') h1) as Hput.
    { intros z. destruct g as [gr|]; [|by apply sf_ret]. destruct (Hg gr eq_refl) as (Hw & Tg & Eg). rewrite <- Tg.
      eapply sf_mono; [apply sf_store_exact; [done|by eapply wr_grow|by rewrite Eg]|]. intros ? h2 _ _ H2 ? [= <-]. done. }
    destruct ge.
    + eapply sf_bind; [apply Hput|]. intros ? h2 G2 S2 H2. eapply sf_mono.
      * apply (sf_store_exact h2 (t_dt src) d sv v); [done| |done]. eapply wr_grow; [|done]. by eapply grow_trans.
      * intros ? h3 G3 S3 H3. split; [done|]. intros gr Egr. eapply done_grow; [by apply H2|done].
    + eapply sf_bind; [apply Hput|]. intros ? h2 G2 S2 H2. apply sf_lift_bind; [done|intros u; apply negop_soft|]. intros m _. eapply sf_mono.
      * apply (sf_store_exact h2 (prom (t_dt src) I32) d sv m); [done| |done]. eapply wr_grow; [|done]. by eapply grow_trans.
      * intros ? h3 G3 S3 H3. split; [done|]. intros gr Egr. eapply done_grow; [by apply H2|done].
  - intros sv h1 h2 [H1 H2] G. split; [by eapply done_grow|]. intros gr Egr. eapply done_grow; [by apply H2|done].
  - intros ? h' _ _ H. split.
    + intros sv Hi. by destruct (H sv Hi) as [H1 _]; apply H1.
    + intros gr Egr sv Hi. destruct (H sv) as [_ H1]; [|by apply (H1 gr Egr)]. destruct (Hg gr Egr) as (_ & _ & E'). unfold shape in *. by rewrite <- E'.
Qed.

(** ** max and min *)
Definition sfp {A} (m : M (heap * list Z) A) (Q : A -> heap * list Z -> Prop) (s : heap * list Z) : Prop :=
  match m s with
  | (Ok a, s') => grow s.1 s'.1 /\ SI s'.1 /\ Q a s'
  | (Throw _, s') => grow s.1 s'.1 /\ SI s'.1
  | (UB u, _) => soft u
  | (Diverge, _) => True
  end.
Lemma sfp_bind {A B} (m : M (heap * list Z) A) (k : A -> M (heap * list Z) B) P Q s : sfp m P s ->
  (forall a s', grow s.1 s'.1 -> SI s'.1 -> P a s' -> sfp (k a) Q s') -> sfp (bind m k) Q s.
Proof.
  unfold sfp, bind. destruct (m s) as [[a|e|u|] h1]; try done. intros (G & S & HP) Hk. specialize (Hk a h1 G S HP).
  destruct (k a h1) as [[b|e|u|] h2]; try done.
  - destruct Hk as (G2 & S2 & HQ). split; [by eapply grow_trans|done].
  - destruct Hk as (G2 & S2). split; [by eapply grow_trans|done].
Qed.
Lemma sfp_heap {A} (m : E A) P s : sf m P s.1 -> sfp (on_heap m) (fun a s' => P a s'.1 /\ s'.2 = s.2) s.
Proof.
  unfold sf, sfp, on_heap. destruct s as [h x]. cbn [fst snd]. destruct (m h) as [[a|e|u|] h1]; try done. intros (G & S & HP). done.
Qed.
Lemma sfp_mapM (f : list Z -> M (heap * list Z) unit) l (I : heap * list Z -> Prop) s : SI s.1 -> I s ->
  (forall x s', x ∈ l -> grow s.1 s'.1 -> SI s'.1 -> I s' -> sfp (f x) (fun _ => I) s') ->
  sfp (mapM_ f l) (fun _ => I) s.
Proof.
  intros HS HI Hf. revert s HS HI Hf. induction l as [|x l IH]; intros s HS HI Hf.
  - split; [apply grow_refl|done].
  - cbn [mapM_]. eapply sfp_bind; [apply Hf; [left|apply grow_refl|done|done]|]. intros ? s1 G1 S1 P1.
    apply IH; [done|done|]. intros y s2 Hy G2 S2 P2. apply Hf; [by right|by eapply grow_trans|done|done].
Qed.
Lemma sf_extremum h c d src g : SI h -> rd h src -> rd h d -> shape d = [] -> offset (t_lay d) = 0 -> t_dt d = t_dt src ->
  0 < size_prod (shape src) ->
  (forall gr, g = Some gr -> rd h gr /\ t_dt gr = t_dt src /\ shape gr = shape src) ->
  sf (tensor_extremum c (t_dt src) d src g) (fun _ _ => True) h.
Proof.
  intros S Hs Hd E0 E1 T Hp Hg. unfold tensor_extremum.
  assert (Forall (fun n => 0 < n) (shape src)) as Hpos.
  { apply pos_no_zero; [apply Hs|]. intros H0%size_prod_zero. lia. }
  assert (in_range (shape src) (repeat 0 (length (shape src)))) as Hz by (by apply in_range_repeat0).
  eapply sf_bind.
  { destruct (geom_pos _ _ _ (proj1 Hs) Hz) as (x & Hx & HT & _ & _ & _ & Hc).
    eapply (sf_load _ _ 0 x (fun _ _ => True)); [done|done|done|done| |done].
    destruct (proj2 Hs) as (y & Hy & Hf). assert (y = x) as -> by congruence. apply Hf. simpl. lia. }
  intros v h1 G1 S1 _. rewrite <- T. 
  assert (in_range (shape d) []) as Hr by (rewrite E0; constructor).
  assert (pos (t_lay d) [] = 0) as Ep by (unfold pos; rewrite E1; by destruct (strides (t_lay d))).
  eapply sf_bind.
  { rewrite <- Ep. apply (sf_store1_pos h1 d [] v (fun _ _ => True)); [done|apply rd_wr; by eapply rd_grow|done|done]. }
  intros u0 h2 G2 S2 _. assert (grow h h2) as G02 by (by eapply grow_trans).
  eapply (sf_bind _ _ (fun sv _ => sv = [] \/ in_range (shape src) sv)).
  - 
    assert (sfp (mapM_ (extremum_body c (t_dt d) d src) (indices (sizes (t_lay src)))) (fun _ s => s.2 = [] \/ in_range (shape src) s.2) (h2, [])) as Hm.
    { apply sfp_mapM; [done|by left|]. intros sv [h3 best] Hi G3 S3 H3. cbn [fst snd] in *. apply elem_of_indices in Hi.
      unfold extremum_body. eapply sfp_bind.
      { apply (sfp_heap _ (fun _ _ => True) (h3, best)). cbn [fst]. rewrite T. apply sf_load_exact; [done| |done|done]. eapply rd_grow; [|done]. by eapply grow_trans. }
      intros a [h4 b4] G4 S4 [_ E4]. cbn [fst snd] in *. subst b4. assert (grow h h4) as G04 by (eapply grow_trans; [exact G02|]; by eapply grow_trans).
      eapply sfp_bind.
      { apply (sfp_heap _ (fun _ _ => True) (h4, best)). cbn [fst]. rewrite <- Ep. apply sf_load_pos; [done|by eapply rd_grow|done|done]. }
      intros b [h5 b5] G5 S5 [_ E5]. cbn [fst snd] in *. subst b5. assert (grow h h5) as G05 by (by eapply grow_trans).
      eapply (sfp_bind _ _ (fun _ s => s.2 = best)).
      { unfold sfp, lift. destruct (cmpop c _ _ _ _) eqn:Ec; try done; cbn [fst snd].
        - split; [apply grow_refl|done]. - split; [apply grow_refl|done]. - by eapply cmpop_soft. }
      intros keep [h6 b6] G6 S6 E6. cbn [fst snd] in *. subst b6. assert (grow h h6) as G06 by (by eapply grow_trans).
      destruct keep; [split; [apply grow_refl|done]|].
      eapply sfp_bind.
      { apply (sfp_heap _ (fun _ _ => True) (h6, best)). cbn [fst]. rewrite <- Ep. apply sf_store1_pos; [done|apply rd_wr; by eapply rd_grow|done|done]. }
      intros ? [h7 b7] G7 S7 _. cbn. split; [apply grow_refl|]. split; [done|]. by right. }
    unfold sf. unfold sfp in Hm. rewrite <- for_each_run in Hm by apply Hs.
    destruct (for_each_sizevec _ _ _) as [[u|e|u|] [h3 sv]]; cbn [fst snd] in *; done.
  - intros best h3 G3 S3 Hb. destruct g as [gr|]; [|by apply sf_ret].
    destruct (Hg gr eq_refl) as (Hw & Tg & Eg). rewrite T, <- Tg. assert (grow h h3) as G03 by (by eapply grow_trans).
    assert (rd h3 gr) as Hw3 by (by eapply rd_grow).
    destruct Hb as [->|Hb].
    + destruct (shape gr) as [|n ss] eqn:Egr.
      * eapply sf_mono; [apply sf_store_exact; [done|by apply rd_wr|rewrite Egr; constructor]|done].
      * unfold idx_exact, cnt_from_index, ldim. fold (shape gr). rewrite Egr. split; [apply grow_refl|done].
    + eapply sf_mono; [apply sf_store_exact; [done|by apply rd_wr|by rewrite Eg]|done].
Qed.
End with_fops.
