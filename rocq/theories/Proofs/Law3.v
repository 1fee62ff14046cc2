(** Sums of views, mixed dtypes, in-place addition, splitting and joining. *)
From Verif.Proofs Require Export Law2 Reshape3 Inplace.
From Verif.Spec Require Export Inplace.

Section with_fops.
Context {fo : FOps}.

(** ** sums *)
Lemma sum_got h t r v u h' : tensor_at h t r v -> size_prod (shape r) < two63 -> exec (OSum (Some t)) h = (Ok (RHandle (Some u)), h') ->
  exists ru x, tensor_at h' u ru (fun _ => x) /\ t_dt ru = sum_type (t_dt r) /\ shape ru = [] /\ array_sum (t_dt r) (shape r) v = Some x.
Proof.
  intros Ht Hp E. pose proof (sum_new h t r v Ht Hp) as H. destruct (array_sum _ _ _) as [x|].
  - destruct H as (t' & h1 & E' & N). rewrite E' in E. injection E as -> ->. destruct (new_at _ _ _ _ _ _ _ N) as (ru & Hu & Du & Su & _). by exists ru, x.
  - destruct H as (u' & h1 & E' & _). by rewrite E' in E.
Qed.
Lemma fits_63 dt ss : Forall (fun n => 0 <= n) ss -> fits dt ss -> size_prod ss < two63.
Proof. intros H F. unfold fits in F. pose proof (size_of_pos dt). pose proof alloc_max_lt. pose proof (size_prod_nonneg _ H). nia. Qed.
Lemma sum_reshape h t r v xs ss : reachable h -> tensor_at h t r v -> plain_lay (t_lay r) -> fits (t_dt r) (shape r) ->
  asks_for xs (size_prod (shape r)) ss -> Forall in_ll xs -> (wildcards xs = 1%nat -> 0 < given xs < 2 ^ 64) -> (t_rg r = true -> shape r = [] -> xs = []) ->
  (floating (t_dt r) = true -> shape r = [] <-> ss = []) ->
  undefined (OSum (Some t)) h \/
  exists t' u z h', yields h [OReshape (Some t) xs; OSum (Some t'); OSum (Some t)] [t'; u; z] h' /\ same_array h' u z.
Proof.
  intros Hr Ht Hp F Hask Hll Hw Hrg H0. pose proof (fits_63 _ _ (holds_nonneg _ _ _ (proj2 Ht)) F) as Hb.
  destruct (reshape_new h t r v xs ss Hr Ht Hp F Hask Hll Hw Hrg) as (t' & h1 & E1 & Hk & _ & r' & w & Ht' & D' & S' & _ & Hh' & Hwv).
  destruct (data_kept_at _ _ _ _ _ Hk Ht) as (r1 & Ht1 & K1).
  assert (array_sum (t_dt r') (shape r') w = array_sum (t_dt r) (shape r) v) as Es.
  { rewrite D', S'. unfold array_sum, row_elems. destruct (floating (t_dt r)) eqn:Ef; [|by rewrite Hwv]. destruct (H0 eq_refl) as [H1 H2].
    destruct (shape r) as [|n ns]; destruct ss as [|m ms]; try (by specialize (H1 eq_refl)); try (by specialize (H2 eq_refl)).
    - simpl in Hwv. by injection Hwv as ->. - by rewrite Hwv. }
  assert (size_prod (shape r') < two63) as Hb'. { rewrite S'. destruct Hask as (_ & _ & ->). done. }
  pose proof (sum_new h t r v Ht Hb) as Hs. pose proof (sum_new h1 t' r' w (conj Ht' Hh') Hb') as Hs'. rewrite Es in Hs'.
  destruct (array_sum (t_dt r) (shape r) v) as [x|] eqn:Ex; [|left; destruct Hs as (u & h' & ? & ?); by exists u, h']. right.
  destruct Hs' as (u & h2 & E2 & N2). destruct (new_at _ _ _ _ _ _ _ N2) as (ru & Hu & Du & Su & _).
  destruct (step_at (OSum (Some t')) _ _ _ _ _ _ eq_refl E2 Ht1) as (r2 & Ht2 & K2). pose proof (same_data_trans _ _ _ K1 K2) as K.
  pose proof (sum_new h2 t r2 v Ht2) as H3. rewrite (sd_shape _ _ K), (sd_dt _ _ K), Ex in H3. destruct (H3 Hb) as (z & h3 & E3 & N3).
  destruct (new_at _ _ _ _ _ _ _ N3) as (rz & Hz & Dz & Sz & _). destruct (step_at (OSum (Some t)) _ _ _ _ _ _ eq_refl E3 Hu) as (ru3 & Hu3 & Ku).
  exists t', u, z, h3. split; [do 3 (eapply yields_cons; [done|]); apply yields_nil|].
  exists ru3, rz, (fun _ => x). split_and!; try done; [by rewrite (sd_dt _ _ Ku), Du, Dz, D'|by rewrite (sd_shape _ _ Ku), Su, Sz].
Qed.
Lemma zsum_perm l l' : Permutation l l' -> zsum l = zsum l'.
Proof. induction 1; cbn [zsum fold_right] in *; unfold zsum in *; simpl; lia. Qed.
Lemma sum_transpose h t r v d0 d1 t' u z h' : reachable h -> tensor_at h t r v -> floating (t_dt r) = false -> size_prod (shape r) < two63 ->
  0 <= d0 < Z.of_nat (length (shape r)) -> 0 <= d1 < Z.of_nat (length (shape r)) ->
  yields h [OTranspose (Some t) d0 d1; OSum (Some t'); OSum (Some t)] [t'; u; z] h' -> same_array h' u z.
Proof.
  intros Hr Ht Hf Hb H0 H1 (h1 & E1 & (h2 & E2 & (h3 & E3 & H)%yields_inv)%yields_inv)%yields_inv.
  assert (h3 = h') as -> by (unfold yields in H; simpl in H; by injection H). clear H.
  assert (d0 <> d1) as Hne. { intros ->. pose proof (transpose_reject h t r d1 d1 (proj1 Ht)) as H. rewrite H in E1 by auto. done. }
  destruct (transpose_view h t r d0 d1 Hr (proj1 Ht)) as (t2 & h1' & E1' & N1); [by destruct Ht as [_ [(cs & _ & ? & _) _]]|done..|].
  rewrite E1' in E1. injection E1 as -> ->. destruct (view_at _ _ _ _ _ _ _ v N1 (proj2 Ht)) as (r' & Ht' & D' & S' & _).
  assert (Z.to_nat d0 < length (shape r))%nat as L0 by lia. assert (Z.to_nat d1 < length (shape r))%nat as L1 by lia.
  destruct (sum_got h1 t' r' _ u h2 Ht') as (ru & x & Hu & Du & Su & Ex); [rewrite S', exchange_prod; [done..|by eapply holds_nonneg, Ht]|done|].
  destruct (step_at (OTranspose (Some t) d0 d1) _ _ _ _ _ _ eq_refl E1' Ht) as (r1 & Ht1 & K1). destruct (step_at (OSum (Some t')) _ _ _ _ _ _ eq_refl E2 Ht1) as (r2 & Ht2 & K2).
  pose proof (same_data_trans _ _ _ K1 K2) as K.
  destruct (sum_got h2 t r2 v z h' Ht2) as (rz & y & Hz & Dz & Sz & Ey); [by rewrite (sd_shape _ _ K)|done|]. rewrite (sd_shape _ _ K), (sd_dt _ _ K) in *.
  destruct (step_at (OSum (Some t)) _ _ _ _ _ _ eq_refl E3 Hu) as (ru3 & Hu3 & Ku).
  assert (x = y) as ->.
  { rewrite D', S' in Ex. unfold array_sum in Ex, Ey. rewrite Hf in Ex, Ey. destruct (partial_sums_fit _); [|done]. destruct (partial_sums_fit _); [|done].
    injection Ex as <-. injection Ey as <-. f_equal. unfold row_elems. apply zsum_perm, Permutation_map.
    change (fun idx => v (exchange (Z.to_nat d0) (Z.to_nat d1) idx)) with (fun idx => v (exchange (Z.to_nat d0) (Z.to_nat d1) idx)).
    rewrite <- (map_map (exchange (Z.to_nat d0) (Z.to_nat d1)) v). apply Permutation_map. by apply exchange_perm. }
  exists ru3, rz, (fun _ => y). split_and!; try done; [by rewrite (sd_dt _ _ Ku), Du, Dz, D'|by rewrite (sd_shape _ _ Ku), Su, Sz].
Qed.

(** ** mixed dtypes *)
(** converting to a wider dtype always succeeds *)
Lemma wider_cvt L D v : rank L <= rank D -> has_ty L v -> exists w, cpp_cvt L D v = Some w.
Proof.
  intros Hr Hv. unfold cpp_cvt. destruct (floating D) eqn:ED; [by eexists|]. destruct v as [z|f]; [by eexists|].
  apply has_ty_float in Hv. destruct L, D; simpl in *; try done; lia.
Qed.
Lemma join_rank L R : rank L <= rank (dt_join L R) /\ rank R <= rank (dt_join L R).
Proof. destruct L, R; simpl; lia. Qed.
Lemma arith_join o L R x y x' y' : has_ty L x -> has_ty R y -> cpp_cvt L (dt_join L R) x = Some x' -> cpp_cvt R (dt_join L R) y = Some y' ->
  cpp_arith o L R (dt_join L R) x y = cpp_arith o (dt_join L R) (dt_join L R) (dt_join L R) x' y'.
Proof.
  intros Hx Hy Ex Ey. unfold cpp_arith. rewrite dt_join_floating. rewrite orb_diag. destruct (floating L || floating R) eqn:Hf.
  - assert (common_float L R = dt_join L R) as -> by (by destruct L, R). assert (common_float (dt_join L R) (dt_join L R) = dt_join L R) as -> by (by destruct L, R).
    unfold cpp_cvt in Ex, Ey. rewrite dt_join_floating, Hf in Ex, Ey. injection Ex as <-. injection Ey as <-. cbn [to_float]. unfold conv at 3 4. by rewrite !bool_decide_true.
  - apply orb_false_elim in Hf as [HL HR]. destruct x as [a|a]; [|by apply has_ty_float in Hx; congruence]. destruct y as [b|b]; [|by apply has_ty_float in Hy; congruence].
    destruct (cvt_widen L (dt_join L R) (VI a) Hx) as [E1 _]; [by destruct L, R|done|destruct L, R; simpl in *; lia|].
    destruct (cvt_widen R (dt_join L R) (VI b) Hy) as [E2 _]; [by destruct L, R|done|destruct L, R; simpl in *; lia|].
    rewrite E1 in Ex. rewrite E2 in Ey. injection Ex as <-. injection Ey as <-.
    assert (common_width (dt_join L R) (dt_join L R) = common_width L R) as -> by (destruct L, R; done). done.
Qed.
Lemma cmp_join c L R x y x' y' : has_ty L x -> has_ty R y -> cpp_cvt L (dt_join L R) x = Some x' -> cpp_cvt R (dt_join L R) y = Some y' ->
  cpp_cmp c L R x y = cpp_cmp c (dt_join L R) (dt_join L R) x' y'.
Proof.
  intros Hx Hy Ex Ey. unfold cpp_cmp. rewrite dt_join_floating. rewrite orb_diag. destruct (floating L || floating R) eqn:Hf.
  - assert (common_float L R = dt_join L R) as -> by (by destruct L, R). assert (common_float (dt_join L R) (dt_join L R) = dt_join L R) as -> by (by destruct L, R).
    unfold cpp_cvt in Ex, Ey. rewrite dt_join_floating, Hf in Ex, Ey. injection Ex as <-. injection Ey as <-. cbn [to_float]. unfold conv. by rewrite !(bool_decide_true (dt_join L R = dt_join L R)).
  - apply orb_false_elim in Hf as [HL HR]. destruct x as [a|a]; [|by apply has_ty_float in Hx; congruence]. destruct y as [b|b]; [|by apply has_ty_float in Hy; congruence].
    destruct (cvt_widen L (dt_join L R) (VI a) Hx) as [E1 _]; [by destruct L, R|done|destruct L, R; simpl in *; lia|].
    destruct (cvt_widen R (dt_join L R) (VI b) Hy) as [E2 _]; [by destruct L, R|done|destruct L, R; simpl in *; lia|].
    rewrite E1 in Ex. rewrite E2 in Ey. injection Ex as <-. injection Ey as <-. done.
Qed.
Lemma type_to h t r v D : reachable h -> tensor_at h t r v -> fits D (shape r) -> rank (t_dt r) <= rank D ->
  exists x h' rx w, exec (OTypeTo (Some t) D) h = (Ok (RHandle (Some x)), h') /\ tensor_at h' x rx w /\ t_dt rx = D /\ shape rx = shape r /\
    forall idx, in_range (shape r) idx -> cpp_cvt (t_dt r) D (v idx) = Some (w idx).
Proof.
  intros Hr Ht F Hrk. assert (t_rg r = true -> floating (t_dt r) = true) as Hg. { intros Hg. by destruct (tracked_floating h t r Hr (proj1 Ht) Hg) as [-> | ->]. }
  destruct (decide (D = t_dt r)) as [->|Hne].
  - exists t, h, r, v. split; [by apply type_same, Hg; apply Ht|]. split_and!; try done. intros idx Hi. apply cpp_cvt_self. eapply holds_ty; [apply Ht|done].
  - destruct (type_new h t r v D Ht F Hne) as [HOk _]. { intros H%Hg. destruct (t_dt r), D; simpl in *; try done; lia. }
    destruct (all_defined_or (fun idx => cpp_cvt (t_dt r) D (v idx)) (shape r)) as [[w Hw]|(idx & Hi & Hn)].
    + destruct (HOk w Hw) as (x & h1 & E & N). destruct (new_at _ _ _ _ _ _ _ N) as (rx & Hx & Dx & Sx & _). by exists x, h1, rx, w.
    + destruct (wider_cvt (t_dt r) D (v idx) Hrk) as [w Hw]; [eapply holds_ty; [apply Ht|done]|]. congruence.
Qed.
(** the two operands converted to their common dtype *)
Lemma both_to h a b ra rb va vb (D := dt_join (t_dt ra) (t_dt rb)) : reachable h -> tensor_at h a ra va -> tensor_at h b rb vb -> fits D (shape ra) -> fits D (shape rb) ->
  exists x y h1 h2 rx ry wx wy, exec (OTypeTo (Some a) D) h = (Ok (RHandle (Some x)), h1) /\ exec (OTypeTo (Some b) D) h1 = (Ok (RHandle (Some y)), h2) /\
    tensor_at h2 x rx wx /\ tensor_at h2 y ry wy /\ t_dt rx = D /\ t_dt ry = D /\ shape rx = shape ra /\ shape ry = shape rb /\
    (forall idx, in_range (shape ra) idx -> cpp_cvt (t_dt ra) D (va idx) = Some (wx idx)) /\ (forall idx, in_range (shape rb) idx -> cpp_cvt (t_dt rb) D (vb idx) = Some (wy idx)).
Proof.
  intros Hr Ha Hb Fa Fb. destruct (join_rank (t_dt ra) (t_dt rb)) as [Ra Rb].
  destruct (type_to h a ra va D Hr Ha Fa Ra) as (x & h1 & rx & wx & E1 & Hx & Dx & Sx & Wx). pose proof (reach _ _ _ _ Hr E1) as R1.
  destruct (step_at (OTypeTo (Some a) D) _ _ _ _ _ _ eq_refl E1 Hb) as (rb1 & Hb1 & K1).
  destruct (type_to h1 b rb1 vb D R1 Hb1) as (y & h2 & ry & wy & E2 & Hy & Dy & Sy & Wy); [by rewrite (sd_shape _ _ K1)|by rewrite (sd_dt _ _ K1)|].
  rewrite (sd_shape _ _ K1), (sd_dt _ _ K1) in *. destruct (step_at (OTypeTo (Some b) D) _ _ _ _ _ _ eq_refl E2 Hx) as (rx2 & Hx2 & K2).
  exists x, y, h1, h2, rx2, ry, wx, wy. split_and!; try done; [by rewrite (sd_dt _ _ K2)|by rewrite (sd_shape _ _ K2)].
Qed.
Lemma promote o h a b ra rb va vb (D := dt_join (t_dt ra) (t_dt rb)) : f_commutative fo -> reachable h -> tensor_at h a ra va -> tensor_at h b rb vb ->
  compatible (shape ra) (shape rb) -> no_zero_one (shape ra) (shape rb) -> fits D (bshape (shape ra) (shape rb)) -> fits D (shape ra) -> fits D (shape rb) ->
  undefined (exec_arith o (Some a) (Some b)) h \/
  exists t x y z h', yields h [exec_arith o (Some a) (Some b); OTypeTo (Some a) D; OTypeTo (Some b) D; exec_arith o (Some x) (Some y)] [t; x; y; z] h' /\ same_array h' t z.
Proof.
  intros Hcm Hr Ha Hb Hc Hz F Fa Fb. destruct (arith_new o h a b (fun _ => Hcm) ra rb va vb Ha Hb Hc Hz F) as [HOk HUb].
  destruct (all_defined_or (fun idx => cpp_arith o (t_dt ra) (t_dt rb) D (va (bidx (shape ra) idx)) (vb (bidx (shape rb) idx))) (bshape (shape ra) (shape rb))) as [[w Hw]|Hn].
  2:{ left. by apply HUb. }
  right. destruct (HOk w Hw) as (t & h1 & E1 & N1). destruct (new_at _ _ _ _ _ _ _ N1) as (rt & Ht & Dt & St & _). pose proof (reach _ _ _ _ Hr E1) as R1.
  destruct (step_at _ _ _ _ _ _ _ (arith_mutates o _ _) E1 Ha) as (ra1 & Ha1 & Ka). destruct (step_at _ _ _ _ _ _ _ (arith_mutates o _ _) E1 Hb) as (rb1 & Hb1 & Kb).
  pose proof (both_to h1 a b ra1 rb1 va vb R1 Ha1 Hb1) as HB. rewrite (sd_dt _ _ Ka), (sd_dt _ _ Kb), (sd_shape _ _ Ka), (sd_shape _ _ Kb) in HB. fold D in HB.
  destruct (HB Fa Fb) as (x & y & h2 & h3 & rx & ry & wx & wy & E2 & E3 & Hx & Hy & Dx & Dy & Sx & Sy & Wx & Wy).
  destruct (arith_new o h3 x y (fun _ => Hcm) rx ry wx wy Hx Hy) as [HOk3 _]; [by rewrite Sx, Sy|by rewrite Sx, Sy|by rewrite Sx, Sy, Dx, Dy, dt_join_self|].
  rewrite Sx, Sy, Dx, Dy, dt_join_self in HOk3. destruct (HOk3 w) as (z & h4 & E4 & N4).
  { intros idx Hi. pose proof (bidx_in_l _ _ _ Hi) as Il. pose proof (bidx_in_r _ _ _ Hc Hi) as Ir.
    rewrite <- (Hw idx Hi). symmetry. apply arith_join; [eapply holds_ty; [apply Ha|done]|eapply holds_ty; [apply Hb|done]|by apply Wx|by apply Wy]. }
  destruct (new_at _ _ _ _ _ _ _ N4) as (rz & Hz4 & Dz & Sz & _).
  destruct (step_at (OTypeTo (Some a) D) _ _ _ _ _ _ eq_refl E2 Ht) as (rt2 & Ht2 & K2). destruct (step_at (OTypeTo (Some b) D) _ _ _ _ _ _ eq_refl E3 Ht2) as (rt3 & Ht3 & K3).
  destruct (step_at _ _ _ _ _ _ _ (arith_mutates o _ _) E4 Ht3) as (rt4 & Ht4 & K4). pose proof (same_data_trans _ _ _ (same_data_trans _ _ _ K2 K3) K4) as K.
  exists t, x, y, z, h4. split; [do 4 (eapply yields_cons; [done|]); apply yields_nil|].
  exists rt4, rz, w. split_and!; try done; [by rewrite (sd_dt _ _ K), Dt, Dz|by rewrite (sd_shape _ _ K), St, Sz].
Qed.

Lemma promote_cmp c h a b ra rb va vb (D := dt_join (t_dt ra) (t_dt rb)) : reachable h -> tensor_at h a ra va -> tensor_at h b rb vb ->
  compatible (shape ra) (shape rb) -> no_zero_one (shape ra) (shape rb) -> fits I8 (bshape (shape ra) (shape rb)) -> fits D (shape ra) -> fits D (shape rb) ->
  exists t x y z h', yields h [OCmp c (Some a) (Some b); OTypeTo (Some a) D; OTypeTo (Some b) D; OCmp c (Some x) (Some y)] [t; x; y; z] h' /\ same_array h' t z.
Proof.
  intros Hr Ha Hb Hc Hz F Fa Fb. destruct (cmp_new c h a b ra rb va vb Ha Hb Hc Hz F) as (t & h1 & E1 & N1).
  destruct (new_at _ _ _ _ _ _ _ N1) as (rt & Ht & Dt & St & _). pose proof (reach _ _ _ _ Hr E1) as R1.
  destruct (step_at (OCmp c (Some a) (Some b)) _ _ _ _ _ _ eq_refl E1 Ha) as (ra1 & Ha1 & Ka). destruct (step_at (OCmp c (Some a) (Some b)) _ _ _ _ _ _ eq_refl E1 Hb) as (rb1 & Hb1 & Kb).
  pose proof (both_to h1 a b ra1 rb1 va vb R1 Ha1 Hb1) as HB. rewrite (sd_dt _ _ Ka), (sd_dt _ _ Kb), (sd_shape _ _ Ka), (sd_shape _ _ Kb) in HB. fold D in HB.
  destruct (HB Fa Fb) as (x & y & h2 & h3 & rx & ry & wx & wy & E2 & E3 & Hx & Hy & Dx & Dy & Sx & Sy & Wx & Wy).
  destruct (cmp_new c h3 x y rx ry wx wy Hx Hy) as (z & h4 & E4 & N4); [by rewrite Sx, Sy|by rewrite Sx, Sy|by rewrite Sx, Sy|]. rewrite Sx, Sy, Dx, Dy in N4.
  destruct (new_at _ _ _ _ _ _ _ N4) as (rz & Hz4 & Dz & Sz & _).
  destruct (step_at (OTypeTo (Some a) D) _ _ _ _ _ _ eq_refl E2 Ht) as (rt2 & Ht2 & K2). destruct (step_at (OTypeTo (Some b) D) _ _ _ _ _ _ eq_refl E3 Ht2) as (rt3 & Ht3 & K3).
  destruct (step_at (OCmp c (Some x) (Some y)) _ _ _ _ _ _ eq_refl E4 Ht3) as (rt4 & Ht4 & K4). pose proof (same_data_trans _ _ _ (same_data_trans _ _ _ K2 K3) K4) as K.
  exists t, x, y, z, h4. split; [do 4 (eapply yields_cons; [done|]); apply yields_nil|].
  eexists rt4, rz, _. split_and!; [exact Ht4| |by rewrite (sd_dt _ _ K), Dt, Dz|by rewrite (sd_shape _ _ K), St, Sz].
  eapply at_ext; [exact Hz4|]. rewrite Sz. intros idx Hi. simpl. pose proof (bidx_in_l _ _ _ Hi) as Il. pose proof (bidx_in_r _ _ _ Hc Hi) as Ir.
  rewrite (cmp_join c (t_dt ra) (t_dt rb) _ _ _ _) with (4 := Wy _ Ir) (3 := Wx _ Il); [done|eapply holds_ty; [apply Ha|done]|eapply holds_ty; [apply Hb|done]].
Qed.

(** ** in-place addition to a copy *)
Lemma add_step_join T U x y : dt_join T U = T -> has_ty T x -> has_ty U y -> add_step T U x y = cpp_arith AAdd T U T x y.
Proof.
  intros Hj Hx Hy. unfold add_step, cpp_arith, usual. destruct (floating T || floating U) eqn:Hf.
  - assert (common_float T U = T) as -> by (by destruct T, U). unfold cpp_cvt. assert (floating T = true) as -> by (by destruct T, U).
    cbn [to_float]. unfold conv. by rewrite !(bool_decide_true (T = T)).
  - destruct x as [a|], y as [b|]; try done. cbn [zop]. destruct (in_width (common_width T U) (a + b)) eqn:Hw; [|done].
    unfold cpp_cvt. assert (floating T = false) as -> by (by destruct T, U). do 2 f_equal.
    assert (width (if common_width T U =? 64 then I64 else I32) = common_width T U) as -> by (by destruct T, U).
    f_equal. apply reduce_id; [by destruct T, U|done].
Qed.
Lemma at_extends h h' t r v : extends h h' -> tensor_at h t r v -> tensor_at h' t r v.
Proof. intros X [H1 H2]. split; [by apply X|by eapply holds_extends]. Qed.
Lemma new_tensor_inj h h' t D ss rg w r : new_tensor h h' t D ss rg w -> h_ten h' !! t = Some r -> size_prod ss < two63 -> lay_inj (t_lay r).
Proof.
  intros (_ & _ & r' & H1 & _ & _ & H3 & Hrm & _ & _ & H5) Hr Hb. assert (r' = r) as -> by congruence. intros i j Hi Hj. unfold row_major_lay in Hrm. rewrite !Hrm by done.
  rewrite H3 in *. apply row_major_inj; try done.
Qed.
Lemma inplace h a b ra rb va vb : f_commutative fo -> tensor_at h a ra va -> tensor_at h b rb vb -> t_rg ra = false -> dt_join (t_dt ra) (t_dt rb) = t_dt ra ->
  compatible (shape ra) (shape rb) -> no_zero_one (shape ra) (shape rb) -> bshape (shape ra) (shape rb) = shape ra -> fits (t_dt ra) (shape ra) ->
  undefined (OAdd (Some a) (Some b)) h \/
  exists t c h1 h2, yields h [OAdd (Some a) (Some b); OClone (Some a)] [t; c] h1 /\ exec (OAddEq (Some c) (Some b)) h1 = (Ok RUnit, h2) /\ same_array h2 c t.
Proof.
  intros Hcm Ha Hb Hg Hj Hc Hz Hs F. destruct (arith_new AAdd h a b (fun _ => Hcm) ra rb va vb Ha Hb Hc Hz) as [HOk HUb]; [by rewrite Hj, Hs|]. rewrite Hj, Hs in *.
  destruct (all_defined_or (fun idx => cpp_arith AAdd (t_dt ra) (t_dt rb) (t_dt ra) (va (bidx (shape ra) idx)) (vb (bidx (shape rb) idx))) (shape ra)) as [[w Hw]|Hn].
  2:{ left. by apply HUb. }
  right. destruct (HOk w Hw) as (t & h1 & E1 & N1). pose proof N1 as (X1 & _). destruct (new_at _ _ _ _ _ _ _ N1) as (rt & Ht & Dt & St & _).
  destruct (copy_new OClone h1 a ra va (or_introl eq_refl) (at_extends _ _ _ _ _ X1 Ha) F) as (c & h2 & E2 & N2). pose proof N2 as (X2 & _ & rc & Hc2 & Hns & Dc & Sc & _ & Gc & _ & Vc).
  pose proof (at_extends _ _ _ _ _ X2 (at_extends _ _ _ _ _ X1 Hb)) as Hb2. pose proof (at_extends _ _ _ _ _ X2 Ht) as Ht2.
  assert (forall r v, holds h1 r v -> t_sto rc <> t_sto r) as Hap. { intros r v Hh Eq. destruct (holds_some _ _ _ Hh) as [x Hx]. rewrite <- Eq in Hx. congruence. }
  destruct (addeq_elementwise h2 c b rc rb va vb) as [HA _]; try done.
  { eapply Hap. apply (at_extends _ _ _ _ _ X1 Hb). }
  { eapply new_tensor_inj; [exact N2|done|]. eapply fits_63; [|exact F]. eapply holds_nonneg, Ha. }
  { by rewrite Gc. }
  all: try (by unfold shape in *; rewrite Sc).
  unfold shape in HA. rewrite Sc, Dc in HA. destruct (HA w) as (h3 & E3 & Hten & Hsto & Hh & _).
  { intros idx Hi. pose proof Hi as Hi'. rewrite <- Hs in Hi'. pose proof (bidx_in_l _ _ _ Hi') as Il. pose proof (bidx_in_r _ _ _ Hc Hi') as Ir.
    rewrite <- (Hw idx Hi). rewrite (Binary.bidx_self (shape ra) idx) by done. rewrite add_step_join; [done|done|eapply holds_ty; [apply Ha|done]|eapply holds_ty; [apply Hb|done]]. }
  exists t, c, h2, h3. split; [do 2 (eapply yields_cons; [done|]); apply yields_nil|]. split; [done|].
  exists rc, rt, w. split_and!; try done.
  - split; [by rewrite Hten|done].
  - destruct Ht2 as [Ht2 Hv2]. split; [by rewrite Hten|]. eapply holds_sto; [|exact Hv2]. apply Hsto. intros Eq. eapply Hap; [apply Ht|done].
  - by rewrite Dc, Dt.
  - unfold shape in *. by rewrite Sc, St.
Qed.

(** ** cutting a tensor in two and putting it together *)
Lemma whole_len n : 0 <= n -> sel_len n None None None = n.
Proof. intros H. unfold sel_len, py_len, py_start, py_stop, py_step. cbn [default from_option]. unfold id. change (0 <? 1) with true. cbn match. destruct (0 <? n) eqn:E; lia. Qed.
Lemma whole_at n k : sel_at n None None k = k.
Proof. unfold sel_at, py_start, py_step. cbn [default from_option]. unfold id. change (0 <? 1) with true. cbn match. lia. Qed.
Lemma before_len n k : 0 <= k <= n -> sel_len n None (Some k) None = k.
Proof.
  intros H. unfold sel_len, py_len, py_start, py_stop, py_step, clamp, from_end. cbn [default from_option]. unfold id. change (0 <? 1) with true. cbn match.
  destruct (k <? 0) eqn:E; [lia|]. destruct (0 <? Z.max 0 (Z.min n k)) eqn:E2; lia.
Qed.
Lemma from_len n k : 0 <= k <= n -> sel_len n (Some k) None None = n - k.
Proof.
  intros H. unfold sel_len, py_len, py_start, py_stop, py_step, clamp, from_end. cbn [default from_option]. unfold id. change (0 <? 1) with true. cbn match.
  destruct (k <? 0) eqn:E; [lia|]. destruct (Z.max 0 (Z.min n k) <? n) eqn:E2; lia.
Qed.
Lemma from_at n k j : 0 <= k <= n -> sel_at n (Some k) None j = k + j.
Proof. intros H. unfold sel_at, py_start, py_step, clamp, from_end. cbn [default from_option]. unfold id. change (0 <? 1) with true. cbn match. destruct (k <? 0) eqn:E; lia. Qed.
Lemma before_shape d ss k : Forall (fun n => 0 <= n) ss -> (d < length ss)%nat -> 0 <= k <= nth d ss 0 -> out_shape ss (first_part d k) = <[d := k]> ss.
Proof.
  intros Hp. revert d. induction Hp as [|n ss Hn Hp IH]; intros [|d] Hd Hk; simpl in Hd, Hk; try lia; unfold first_part; simpl.
  - f_equal; [by apply before_len|by destruct ss].
  - unfold whole. rewrite whole_len by done. f_equal. apply IH; [lia|done].
Qed.
Lemma from_shape d ss k : Forall (fun n => 0 <= n) ss -> (d < length ss)%nat -> 0 <= k <= nth d ss 0 -> out_shape ss (last_part d k) = <[d := nth d ss 0 - k]> ss.
Proof.
  intros Hp. revert d. induction Hp as [|n ss Hn Hp IH]; intros [|d] Hd Hk; simpl in Hd, Hk; try lia; unfold last_part; simpl.
  - f_equal; [by apply from_len|by destruct ss].
  - unfold whole. rewrite whole_len by done. f_equal. apply IH; [lia|done].
Qed.
Lemma before_index d ss k idx : length idx = length ss -> (d < length ss)%nat -> src_index ss (first_part d k) idx = idx.
Proof.
  revert d idx. induction ss as [|n ss IH]; intros [|d] [|i idx] Hl Hd; simpl in Hl, Hd; try lia; unfold first_part; simpl.
  - rewrite whole_at. f_equal. by destruct ss.
  - unfold whole. rewrite whole_at. f_equal. apply IH; lia.
Qed.
Lemma from_index d ss k idx : length idx = length ss -> (d < length ss)%nat -> 0 <= k <= nth d ss 0 -> src_index ss (last_part d k) idx = <[d := k + nth d idx 0]> idx.
Proof.
  revert d idx. induction ss as [|n ss IH]; intros [|d] [|i idx] Hl Hd Hk; simpl in Hl, Hd, Hk; try lia; unfold last_part; simpl.
  - rewrite from_at by done. f_equal. by destruct ss.
  - unfold whole. rewrite whole_at. f_equal. apply IH; [lia|lia|done].
Qed.
Lemma cut_legal d ss x : (d < length ss)%nat -> (forall n, legal n x) -> all_legal ss (replicate d whole ++ [x]).
Proof.
  revert d. induction ss as [|n ss IH]; intros [|d] Hd Hx; simpl in Hd; try lia; simpl.
  - split; [done|by destruct ss].
  - split; [done|]. apply IH; [lia|done].
Qed.
Lemma cut_steps d ss b e : small_steps ss (replicate d whole ++ [Range b e None]).
Proof.
  revert d. induction ss as [|n ss IH]; intros [|d]; simpl; try done.
  - split; [by left|by destruct ss].
  - split; [by left|apply IH].
Qed.
Lemma insert_same_but d ss x : same_but d ss (<[d := x]> ss).
Proof. split; [apply insert_length|]. intros j Hj. by apply list_lookup_insert_ne. Qed.
Lemma same_but_trans d a b c : same_but d a b -> same_but d b c -> same_but d a c.
Proof. intros [H1 H2] [H3 H4]. split; [congruence|]. intros j Hj. rewrite H4, H2 by done. done. Qed.
Lemma split_law h t r v d k s1 s2 : reachable h -> tensor_at h t r v -> fits (t_dt r) (shape r) -> Forall (fun n => 0 < n) (shape r) -> small_strides r ->
  (d < length (shape r))%nat -> 0 <= k <= nth d (shape r) 0 -> subs_text s1 (first_part d k) -> subs_text s2 (last_part d k) ->
  exists x y z h', yields h [OSlice (Some t) s1; OSlice (Some t) s2; OCat [Some x; Some y] (Z.of_nat d)] [x; y; z] h' /\ same_array h' z t.
Proof.
  intros Hr Ht F Hp Hst Hd Hk T1 T2. assert (Forall (fun n => 0 <= n) (shape r)) as Hn by (by eapply holds_nonneg, Ht).
  pose proof (fits_63 _ _ Hn F) as Hb63.
  assert (Forall (fun n => 0 < n < two63) (shape r)) as Hb2.
  { clear -Hp Hb63. revert Hb63. generalize (shape r), Hp. intros ss Hs. induction Hs as [|n ss Hn Hs IH]; intros Hb; [done|]. pose proof (size_prod_pos _ Hs). cbn [size_prod] in Hb. constructor; [nia|]. apply IH. nia. }
  assert (forall h1 r1 s xs, reachable h1 -> tensor_at h1 t r1 v -> same_data r r1 -> subs_text s xs -> all_legal (shape r) xs -> small_steps (shape r) xs ->
    exists x h2, exec (OSlice (Some t) s) h1 = (Ok (RHandle (Some x)), h2) /\ new_view h1 h2 r1 x (out_shape (shape r) xs) (src_index (shape r) xs) (t_rg r1)) as Hsl.
  { intros h1 r1 s xs R Ht1 K T L St. rewrite <- (sd_shape _ _ K) in *. destruct Ht1 as [Ht1 [(cs & Hbk) _]].
    assert (Forall (fun s => - 2 ^ 63 < s < 2 ^ 63) (strides (t_lay r1))) as Hst1 by (by rewrite (sd_lay _ _ K)).
    eapply slice_new; try done.
    - eapply Forall_impl; [exact Hst1|]. intros z Hz. unfold in_s64. simpl in Hz. lia.
    - eapply Forall_impl; [exact Hb2|]. simpl. intros z Hz. lia.
    - by eapply subs_fit_backed. }
  destruct (Hsl h r s1 (first_part d k) Hr Ht ltac:(done) T1) as (x & h1 & E1 & V1); [by apply cut_legal|apply cut_steps|].
  destruct (view_at _ _ _ _ _ _ _ _ V1 (proj2 Ht)) as (rx & Hx & Dx & Sx & _). pose proof (reach _ _ _ _ Hr E1) as R1.
  destruct (step_at (OSlice (Some t) s1) _ _ _ _ _ _ eq_refl E1 Ht) as (r1 & Ht1 & K1).
  destruct (Hsl h1 r1 s2 (last_part d k) R1 Ht1 K1 T2) as (y & h2 & E2 & V2); [by apply cut_legal|apply cut_steps|].
  destruct (view_at _ _ _ _ _ _ _ _ V2 (proj2 Ht1)) as (ry & Hy & Dy & Sy & _).
  destruct (step_at (OSlice (Some t) s2) _ _ _ _ _ _ eq_refl E2 Ht1) as (r2 & Ht2 & K2). destruct (step_at (OSlice (Some t) s2) _ _ _ _ _ _ eq_refl E2 Hx) as (rx2 & Hx2 & Kx).
  pose proof (same_data_trans _ _ _ K1 K2) as K12. rewrite (before_shape d (shape r) k Hn Hd Hk) in Sx. rewrite (from_shape d (shape r) k Hn Hd Hk) in Sy.
  rewrite <- (sd_shape _ _ Kx) in Sx. rewrite <- (sd_dt _ _ Kx) in Dx. rewrite (sd_dt _ _ K1) in Dy. set (n := nth d (shape r) 0) in *.
  assert (nth d (<[d:=k]> (shape r)) 0 = k) as Nx by (by apply nth_lookup_Some, list_lookup_insert).
  assert (nth d (<[d:=n-k]> (shape r)) 0 = n - k) as Ny by (by apply nth_lookup_Some, list_lookup_insert).
  assert (shape r !! d = Some n) as Hnd. { destruct (nth_lookup_or_length (shape r) d 0) as [H|H]; [done|lia]. }
  assert (cat_shape d rx2 [rx2; ry] = shape r) as Cs. { unfold cat_shape, sizes_along. cbn [map]. rewrite Sx, Sy, Nx, Ny. cbn [total_len fold_right]. rewrite list_insert_insert. apply list_insert_id. rewrite Hnd. f_equal. lia. }
  assert (cat_type rx2 [rx2; ry] = t_dt r) as Ct. { unfold cat_type. cbn [fold_left]. by rewrite Dx, Dy, !dt_join_self. }
  pose proof (cat_new h2 [x; y] [rx2; ry] [fun idx => v (src_index (shape r) (first_part d k) idx); fun idx => v (src_index (shape r) (last_part d k) idx)] rx2 [ry] (Z.of_nat d)) as HC.
  cbv zeta in HC. rewrite !Nat2Z.id, Cs, Ct in HC. destruct HC as (z & h3 & w & E3 & N3 & Hw).
  { constructor; [apply Hx2|]. constructor; [apply Hy|constructor]. }
  { constructor; [apply Hx2|]. constructor; [apply Hy|constructor]. }
  { done. }
  { rewrite Sx, insert_length. lia. }
  { constructor; [by split|]. constructor; [|constructor]. rewrite Sx, Sy. eapply same_but_trans; [|apply insert_same_but]. split; [by rewrite insert_length|]. intros j Hj. by rewrite list_lookup_insert_ne. }
  { eapply Forall_impl; [exact Hb2|]. unfold two63, two64. simpl. lia. }
  { done. }
  destruct (new_at _ _ _ _ _ _ _ N3) as (rz & Hz & Dz & Sz & _). destruct (step_at (OCat [Some x; Some y] (Z.of_nat d)) _ _ _ _ _ _ eq_refl E3 Ht2) as (r3 & Ht3 & K3).
  pose proof (same_data_trans _ _ _ K12 K3) as K. exists x, y, z, h3. split; [do 3 (eapply yields_cons; [done|]); apply yields_nil|].
  exists rz, r3, v. split_and!; [|done|by rewrite Dz, (sd_dt _ _ K)|by rewrite Sz, (sd_shape _ _ K)].
  eapply at_ext; [exact Hz|]. rewrite Sz. intros idx Hi. destruct (Hw idx Hi) as (m & j & rm & vm & Ho & Hrm & Hvm & Hin & Hcv).
  pose proof (in_range_length _ _ Hi) as Hl. assert (d < length idx)%nat as Hdi by (unfold shape in *; lia). destruct (lookup_lt_is_Some_2 idx d Hdi) as [i Hid].
  assert (nth d idx 0 = i) as Ni by (by apply nth_lookup_Some). pose proof (Forall2_lookup_lr _ _ _ _ _ _ Hi Hnd Hid) as Hib. simpl in Hib.
  unfold sizes_along in Ho. cbn [map] in Ho. rewrite Sx, Sy, Nx, Ny, Ni in Ho. cbn [owner] in Ho. destruct (i <? k) eqn:Ek.
  - injection Ho as <- <-. simpl in Hrm, Hvm. injection Hrm as <-. injection Hvm as <-. rewrite list_insert_id in Hcv by done. rewrite before_index in Hcv by (unfold shape in *; congruence || done).
    rewrite Dx in Hcv. rewrite cpp_cvt_self in Hcv by (eapply holds_ty; [apply Ht|done]). by injection Hcv.
  - destruct (i - k <? n - k) eqn:En; [|lia]. injection Ho as <- <-. simpl in Hrm, Hvm. injection Hrm as <-. injection Hvm as <-.
    rewrite from_index in Hcv by (rewrite ?insert_length; unfold shape in *; congruence || done). rewrite (nth_lookup_Some _ d 0 (i - k)) in Hcv by (by apply list_lookup_insert).
    rewrite list_insert_insert, list_insert_id in Hcv by (rewrite Hid; f_equal; lia). rewrite Dy in Hcv. rewrite cpp_cvt_self in Hcv by (eapply holds_ty; [apply Ht|done]). by injection Hcv.
Qed.
End with_fops.
