(** Laws of integer arithmetic on tensors, and sums. *)
From Verif.Proofs Require Export Law Bsteps.

(** ** one element *)
Lemma width_cases T : floating T = false -> width T = 8 \/ width T = 16 \/ width T = 32 \/ width T = 64.
Proof. destruct T; simpl; auto. Qed.
Lemma reduce_shift w z : 0 < w -> exists k, reduce w z = z + k * 2 ^ w.
Proof.
  intros Hw. pose proof (Z.div_mod z (2 ^ w) ltac:(pose proof (Z.pow_pos_nonneg 2 w); lia)) as E. unfold reduce. cbv zeta.
  case_match; [exists (- (z / 2 ^ w))|exists (- (z / 2 ^ w) - 1)]; lia.
Qed.
Lemma congr_eq w x y k : 0 < w -> in_width w x = true -> in_width w y = true -> x = y + k * 2 ^ w -> x = y.
Proof.
  intros Hw Hx Hy E. apply in_width_spec in Hx, Hy. pose proof (pow_split _ Hw) as P. assert (0 < 2 ^ (w - 1)) by (apply Z.pow_pos_nonneg; lia).
  assert (k = 0) as ->; [|lia]. set (m := 2 ^ (w - 1)) in *. rewrite P in E. assert (k < 1) by nia. assert (-1 < k) by nia. lia.
Qed.

Section with_fops.
Context {fo : FOps}.

Lemma dt_join_self T : dt_join T T = T. Proof. by destruct T. Qed.
Lemma int_elem o T x y v : floating T = false -> has_ty T x -> has_ty T y -> cpp_arith o T T T x y = Some v ->
  exists a b c z, x = VI a /\ y = VI b /\ v = VI c /\ in_width (width T) a = true /\ in_width (width T) b = true /\ in_width (width T) c = true /\
    zop o a b = Some z /\ exists k, c = z + k * 2 ^ width T.
Proof.
  intros HT Hx Hy E. unfold cpp_arith in E. rewrite HT in E. cbn [orb] in E.
  destruct x as [a|a]; [|by apply has_ty_float in Hx; congruence]. destruct y as [b|b]; [|done].
  apply has_ty_int in Hx as [_ Hx], Hy as [_ Hy]. destruct (zop o a b) as [z|] eqn:Ez; [|done]. destruct (in_width _ z) eqn:Ew; [|done]. injection E as <-.
  exists a, b, (reduce (width T) z), z. split_and!; try done; [by apply reduce_in, width_pos|]. apply reduce_shift, width_pos.
Qed.

(** ** what a successful call made *)
Lemma arith_got o h a b ra rb va vb t h' : f_commutative fo -> tensor_at h a ra va -> tensor_at h b rb vb ->
  let ss := bshape (shape ra) (shape rb) in let D := dt_join (t_dt ra) (t_dt rb) in
  compatible (shape ra) (shape rb) -> no_zero_one (shape ra) (shape rb) -> fits D ss ->
  exec (exec_arith o (Some a) (Some b)) h = (Ok (RHandle (Some t)), h') ->
  exists rt w, tensor_at h' t rt w /\ t_dt rt = D /\ shape rt = ss /\
    forall idx, in_range ss idx -> cpp_arith o (t_dt ra) (t_dt rb) D (va (bidx (shape ra) idx)) (vb (bidx (shape rb) idx)) = Some (w idx).
Proof.
  intros Hcm Ha Hb ss D Hc Hz Hf E. destruct (arith_new o h a b (fun _ => Hcm) ra rb va vb Ha Hb Hc Hz Hf) as [HOk HUb].
  destruct (all_defined_or (fun idx => cpp_arith o (t_dt ra) (t_dt rb) D (va (bidx (shape ra) idx)) (vb (bidx (shape rb) idx))) ss) as [[w Hw]|Hn].
  - destruct (HOk w Hw) as (t' & h1 & E' & N). rewrite E' in E. injection E as -> ->. destruct (new_at _ _ _ _ _ _ _ N) as (rt & Ht & Dt & St & _). exists rt, w. done.
  - destruct (HUb Hn) as (u & h1 & E' & _). by rewrite E' in E.
Qed.

(** ** integer algebra. The tensors [a], [b], [c] have one integer dtype *)
Section ring.
Hypothesis Hcm : f_commutative fo.
Variables (h : heap) (T : dtype).
Hypothesis HT : floating T = false.

Lemma pos_nz (a b : list Z) : Forall (fun n => 0 < n) a -> Forall (fun n => 0 < n) b -> no_zero_one a b.
Proof.
  intros Ha Hb k x y Hx Hy. clear -Ha Hb Hx Hy. apply Forall_rev in Ha, Hb. pose proof (Forall_lookup_1 _ _ _ _ Ha Hx). pose proof (Forall_lookup_1 _ _ _ _ Hb Hy). simpl in *. lia.
Qed.
(** one successful call on integers *)
Lemma int_step o hh a b ra rb va vb t h' : intensor hh T a ra va -> intensor hh T b rb vb -> compatible (shape ra) (shape rb) -> fits T (bshape (shape ra) (shape rb)) ->
  exec (exec_arith o (Some a) (Some b)) hh = (Ok (RHandle (Some t)), h') ->
  exists rt w, intensor h' T t rt w /\ shape rt = bshape (shape ra) (shape rb) /\
    forall idx, in_range (bshape (shape ra) (shape rb)) idx -> exists x y z k, va (bidx (shape ra) idx) = VI x /\ vb (bidx (shape rb) idx) = VI y /\ zop o x y = Some z /\
      w idx = VI (z + k * 2 ^ width T) /\ in_width (width T) x = true /\ in_width (width T) (z + k * 2 ^ width T) = true.
Proof.
  intros (Ha & Da & Pa) (Hb & Db & Pb) Hc Hf E.
  destruct (arith_got o hh a b ra rb va vb t h' Hcm Ha Hb Hc) as (rt & w & Ht & Dt & St & Hw); [by apply pos_nz|by rewrite Da, Db, dt_join_self|done|].
  rewrite Da, Db, dt_join_self in *. exists rt, w. split; [|split; [done|]].
  - split; [done|]. split; [done|]. rewrite St. by apply bshape_Forall.
  - intros idx Hi. destruct (fun H1 H2 => int_elem o T _ _ _ HT H1 H2 (Hw idx Hi)) as (x & y & c & z & -> & -> & -> & H1 & H2 & H3 & H4 & k & ->).
    + rewrite <- Da. eapply holds_ty; [apply Ha|]. by eapply bidx_in_l.
    + rewrite <- Db. eapply holds_ty; [apply Hb|]. by eapply bidx_in_r.
    + exists x, y, z, k. done.
Qed.
Lemma int_keep o hh x h' t r v : mutates o = false -> exec o hh = (x, h') -> intensor hh T t r v -> exists r', intensor h' T t r' v /\ shape r' = shape r.
Proof.
  intros Hm E (Ht & D & P). destruct (step_at _ _ _ _ _ _ _ Hm E Ht) as (r' & Ht' & K). exists r'. split; [|by apply sd_shape].
  split; [done|]. split; [by rewrite (sd_dt _ _ K)|by rewrite (sd_shape _ _ K)].
Qed.

Variables (a b c : nat) (ra rb rc : tensor) (va vb vc : list Z -> val).
Hypothesis (Ia : intensor h T a ra va) (Ib : intensor h T b rb vb) (Ic : intensor h T c rc vc).
Hypothesis (Cab : compatible (shape ra) (shape rb)) (Cac : compatible (shape ra) (shape rc)) (Cbc : compatible (shape rb) (shape rc)).
Hypothesis (Fab : fits T (bshape (shape ra) (shape rb))) (Fbc : fits T (bshape (shape rb) (shape rc))) (Fac : fits T (bshape (shape ra) (shape rc)))
  (Fall : fits T (bshape (bshape (shape ra) (shape rb)) (shape rc))).

Lemma assoc_law o x u y z h' : o = AAdd \/ o = AMul ->
  yields h [exec_arith o (Some a) (Some b); exec_arith o (Some x) (Some c); exec_arith o (Some b) (Some c); exec_arith o (Some a) (Some y)] [x; u; y; z] h' ->
  same_array h' u z.
Proof.
  intros Ho (h1 & E1 & (h2 & E2 & (h3 & E3 & (h4 & E4 & H)%yields_inv)%yields_inv)%yields_inv)%yields_inv.
  assert (h4 = h') as -> by (unfold yields in H; simpl in H; by injection H). clear H.
  destruct (int_step o h a b ra rb va vb x h1 Ia Ib Cab Fab E1) as (rx & wx & Ix & Sx & Hx).
  destruct (int_keep _ _ _ _ _ _ _ (arith_mutates o _ _) E1 Ia) as (ra1 & Ia1 & Sa1). destruct (int_keep _ _ _ _ _ _ _ (arith_mutates o _ _) E1 Ib) as (rb1 & Ib1 & Sb1).
  destruct (int_keep _ _ _ _ _ _ _ (arith_mutates o _ _) E1 Ic) as (rc1 & Ic1 & Sc1).
  destruct (int_step o h1 x c rx rc1 wx vc u h2 Ix Ic1) as (ru & wu & Iu & Su & Hu); [rewrite Sx, Sc1; by apply compat_l|by rewrite Sx, Sc1|done|].
  destruct (int_keep _ _ _ _ _ _ _ (arith_mutates o _ _) E2 Ia1) as (ra2 & Ia2 & Sa2). destruct (int_keep _ _ _ _ _ _ _ (arith_mutates o _ _) E2 Ib1) as (rb2 & Ib2 & Sb2).
  destruct (int_keep _ _ _ _ _ _ _ (arith_mutates o _ _) E2 Ic1) as (rc2 & Ic2 & Sc2).
  rewrite Sb1 in Sb2. rewrite Sc1 in Sc2. rewrite Sa1 in Sa2.
  destruct (int_step o h2 b c rb2 rc2 vb vc y h3 Ib2 Ic2) as (ry & wy & Iy & Sy & Hy); [by rewrite Sb2, Sc2|by rewrite Sb2, Sc2|done|].
  destruct (int_keep _ _ _ _ _ _ _ (arith_mutates o _ _) E3 Ia2) as (ra3 & Ia3 & Sa3). rewrite Sa2 in Sa3.
  destruct (int_step o h3 a y ra3 ry va wy z h' Ia3 Iy) as (rz & wz & Iz & Sz & Hz).
  { rewrite Sa3, Sy, Sb2, Sc2. by apply compat_r. } { by rewrite Sa3, Sy, Sb2, Sc2, <- bshape_assoc. } { done. }
  destruct (int_keep _ _ _ _ _ _ _ (arith_mutates o _ _) E3 Iu) as (ru3 & Iu3 & Su3). destruct (int_keep _ _ _ _ _ _ _ (arith_mutates o _ _) E4 Iu3) as (ru4 & Iu4 & Su4).
  rewrite Su3, Su, Sx, Sc1 in Su4. rewrite Sa3, Sy, Sb2, Sc2, <- bshape_assoc in Sz. rewrite Sx, Sc1 in Hu. rewrite Sb2, Sc2 in Hy. rewrite Sa3, Sy, Sb2, Sc2, <- bshape_assoc in Hz.
  set (sa := shape ra) in *. set (sb := shape rb) in *. set (sc := shape rc) in *. exists ru4, rz, wz. destruct Iu4 as (Tu & Du & _), Iz as (Tz & Dz & _). split_and!; try done; [|by rewrite Du, Dz|by rewrite Su4, Sz].
  eapply at_ext; [done|]. intros idx Hi. rewrite Su4 in Hi.
  pose proof (in_range_length _ _ Hi) as Li. rewrite bshape_length in Li.
  destruct (Hu idx Hi) as (p & r & q & k & P1 & P2 & P3 & P4 & _ & W1). destruct (Hz idx Hi) as (p' & r' & q' & k' & Q1 & Q2 & Q3 & Q4 & _ & W2).
  assert (in_range (bshape sa sb) (bidx (bshape sa sb) idx)) as Hab by (by eapply bidx_in_l).
  assert (in_range (bshape sb sc) (bidx (bshape sb sc) idx)) as Hbc by (rewrite bshape_assoc in Hi; eapply bidx_in_r; [|exact Hi]; by apply compat_r).
  destruct (Hx _ Hab) as (a1 & b1 & z1 & k1 & A1 & B1 & C1 & D1 & _). destruct (Hy _ Hbc) as (b2 & c2 & z2 & k2 & B2 & A2 & C2 & D2 & _).
  rewrite bidx_two in A1; [|apply into_l|lia]. rewrite bidx_two in B1; [|by apply into_r|lia].
  assert (length (bshape sb sc) <= length idx)%nat as Lbc by (rewrite Li, !bshape_length; lia).
  rewrite bidx_two in B2; [|apply into_l|done]. rewrite bidx_two in A2; [|by apply into_r|done].
  rewrite D1 in P1. injection P1 as <-. rewrite D2 in Q2. injection Q2 as <-.
  assert (p' = a1) as -> by congruence. assert (b2 = b1) as -> by congruence. assert (c2 = r) as -> by congruence.
  rewrite P4, Q4. f_equal.
  destruct Ho as [-> | ->]; cbn [zop] in *; (apply (inj Some) in P3, Q3, C1, C2; subst q q' z1 z2).
  - eapply (congr_eq (width T) _ _ (k1 + k - k2 - k')); [apply width_pos|done|done|ring].
  - eapply (congr_eq (width T) _ _ (k1 * r + k - a1 * k2 - k')); [apply width_pos|done|done|ring].
Qed.
Lemma distrib_law s u p q z h' :
  yields h [OAdd (Some b) (Some c); OMul (Some a) (Some s); OMul (Some a) (Some b); OMul (Some a) (Some c); OAdd (Some p) (Some q)] [s; u; p; q; z] h' ->
  same_array h' u z.
Proof.
  intros (h1 & E1 & (h2 & E2 & (h3 & E3 & (h4 & E4 & (h5 & E5 & H)%yields_inv)%yields_inv)%yields_inv)%yields_inv)%yields_inv.
  assert (h5 = h') as -> by (unfold yields in H; simpl in H; by injection H). clear H.
  pose proof (compatible_self (shape ra)) as Caa.
  destruct (int_step AAdd h b c rb rc vb vc s h1 Ib Ic Cbc Fbc E1) as (rs & ws & Is & Ss & Hs).
  destruct (int_keep _ _ _ _ _ _ _ (arith_mutates AAdd _ _) E1 Ia) as (ra1 & Ia1 & Sa1). destruct (int_keep _ _ _ _ _ _ _ (arith_mutates AAdd _ _) E1 Ib) as (rb1 & Ib1 & Sb1).
  destruct (int_keep _ _ _ _ _ _ _ (arith_mutates AAdd _ _) E1 Ic) as (rc1 & Ic1 & Sc1).
  destruct (int_step AMul h1 a s ra1 rs va ws u h2 Ia1 Is) as (ru & wu & Iu & Su & Hu); [rewrite Ss, Sa1; by apply compat_r|by rewrite Ss, Sa1, <- bshape_assoc|done|].
  destruct (int_keep _ _ _ _ _ _ _ (arith_mutates AMul _ _) E2 Ia1) as (ra2 & Ia2 & Sa2). destruct (int_keep _ _ _ _ _ _ _ (arith_mutates AMul _ _) E2 Ib1) as (rb2 & Ib2 & Sb2).
  destruct (int_keep _ _ _ _ _ _ _ (arith_mutates AMul _ _) E2 Ic1) as (rc2 & Ic2 & Sc2). rewrite Sa1 in Sa2. rewrite Sb1 in Sb2. rewrite Sc1 in Sc2.
  destruct (int_step AMul h2 a b ra2 rb2 va vb p h3 Ia2 Ib2) as (rp & wp & Ip & Sp & Hp); [by rewrite Sa2, Sb2|by rewrite Sa2, Sb2|done|].
  destruct (int_keep _ _ _ _ _ _ _ (arith_mutates AMul _ _) E3 Ia2) as (ra3 & Ia3 & Sa3). destruct (int_keep _ _ _ _ _ _ _ (arith_mutates AMul _ _) E3 Ic2) as (rc3 & Ic3 & Sc3).
  rewrite Sa2 in Sa3. rewrite Sc2 in Sc3.
  destruct (int_step AMul h3 a c ra3 rc3 va vc q h4 Ia3 Ic3) as (rq & wq & Iq & Sq & Hq); [by rewrite Sa3, Sc3|by rewrite Sa3, Sc3|done|].
  destruct (int_keep _ _ _ _ _ _ _ (arith_mutates AMul _ _) E4 Ip) as (rp4 & Ip4 & Sp4). rewrite Sp, Sa2, Sb2 in Sp4. rewrite Sa3, Sc3 in Sq.
  destruct (int_step AAdd h4 p q rp4 rq wp wq z h' Ip4 Iq) as (rz & wz & Iz & Sz & Hz).
  { rewrite Sp4, Sq. apply compat_l; apply compat_r; try done. by apply compatible_sym. } { by rewrite Sp4, Sq, bshape_distr, <- bshape_assoc. } { done. }
  destruct (int_keep _ _ _ _ _ _ _ (arith_mutates AMul _ _) E3 Iu) as (ru3 & Iu3 & Su3). destruct (int_keep _ _ _ _ _ _ _ (arith_mutates AMul _ _) E4 Iu3) as (ru4 & Iu4 & Su4).
  destruct (int_keep _ _ _ _ _ _ _ (arith_mutates AAdd _ _) E5 Iu4) as (ru5 & Iu5 & Su5).
  rewrite Su4, Su3, Su, Sa1, Ss in Su5. rewrite Sp4, Sq in Sz, Hz. rewrite Sa1, Ss in Hu. rewrite Sa2, Sb2 in Hp. rewrite Sa3, Sc3 in Hq.
  set (sa := shape ra) in *. set (sb := shape rb) in *. set (sc := shape rc) in *. exists ru5, rz, wz.
  destruct Iu5 as (Tu & Du & _), Iz as (Tz & Dz & _). split_and!; try done; [|by rewrite Du, Dz|by rewrite Su5, Sz, bshape_distr].
  eapply at_ext; [done|]. intros idx Hi. rewrite Su5 in Hi. pose proof (in_range_length _ _ Hi) as Li. rewrite !bshape_length in Li.
  assert (in_range (bshape (bshape sa sb) (bshape sa sc)) idx) as Hi2 by (by rewrite bshape_distr).
  destruct (Hu idx Hi) as (a1 & s1 & z1 & k1 & A1 & S1 & C1 & V1 & _ & W1). destruct (Hz idx Hi2) as (p1 & q1 & z2 & k2 & P1 & Q1 & C2 & V2 & _ & W2).
  assert (compatible (bshape sa sb) (bshape sa sc)) as Cx. { apply compat_l; apply compat_r; try done. by apply compatible_sym. }
  assert (in_range (bshape sb sc) (bidx (bshape sb sc) idx)) as Hbc by (eapply bidx_in_r; [|exact Hi]; by apply compat_r).
  assert (in_range (bshape sa sb) (bidx (bshape sa sb) idx)) as Hab by (by eapply bidx_in_l).
  assert (in_range (bshape sa sc) (bidx (bshape sa sc) idx)) as Hac by (by eapply bidx_in_r).
  destruct (Hs _ Hbc) as (b1 & c1 & z3 & k3 & B1 & D1 & C3 & V3 & _). destruct (Hp _ Hab) as (a2 & b2 & z4 & k4 & A2 & B2 & C4 & V4 & _). destruct (Hq _ Hac) as (a3 & c3 & z5 & k5 & A3 & D3 & C5 & V5 & _).
  rewrite bidx_two in B1, D1, A2, B2, A3, D3; try (apply into_l || (by apply into_r) || (rewrite !bshape_length; lia)).
  rewrite V3 in S1. injection S1 as <-. rewrite V4 in P1. injection P1 as <-. rewrite V5 in Q1. injection Q1 as <-.
  assert (a2 = a1) as -> by congruence. assert (a3 = a1) as -> by congruence. assert (b2 = b1) as -> by congruence. assert (c3 = c1) as -> by congruence.
  rewrite V1, V2. f_equal. cbn [zop] in *. apply (inj Some) in C1, C2, C3, C4, C5. subst z1 z2 z3 z4 z5.
  eapply (congr_eq (width T) _ _ (a1 * k3 + k1 - k4 - k5 - k2)); [apply width_pos|done|done|ring].
Qed.
Lemma cancel_law x u h' : bshape (shape ra) (shape rb) = shape ra ->
  yields h [OAdd (Some a) (Some b); OSub (Some x) (Some b)] [x; u] h' -> same_array h' u a.
Proof.
  intros Hbs (h1 & E1 & (h2 & E2 & H)%yields_inv)%yields_inv.
  assert (h2 = h') as -> by (unfold yields in H; simpl in H; by injection H). clear H.
  destruct (int_step AAdd h a b ra rb va vb x h1 Ia Ib Cab Fab E1) as (rx & wx & Ix & Sx & Hx). rewrite Hbs in Sx, Hx.
  destruct (int_keep _ _ _ _ _ _ _ (arith_mutates AAdd _ _) E1 Ia) as (ra1 & Ia1 & Sa1). destruct (int_keep _ _ _ _ _ _ _ (arith_mutates AAdd _ _) E1 Ib) as (rb1 & Ib1 & Sb1).
  destruct (int_step ASub h1 x b rx rb1 wx vb u h' Ix Ib1) as (ru & wu & Iu & Su & Hu); [by rewrite Sx, Sb1|by rewrite Sx, Sb1|done|].
  destruct (int_keep _ _ _ _ _ _ _ (arith_mutates ASub _ _) E2 Ia1) as (ra2 & Ia2 & Sa2). rewrite Sx, Sb1, Hbs in Su, Hu. rewrite Sa1 in Sa2.
  destruct Iu as (Tu & Du & _), Ia2 as (Ta & Da & _). exists ru, ra2, va. split_and!; try done; [|by rewrite Du, Da|by rewrite Su, Sa2].
  eapply at_ext; [done|]. intros idx Hi. rewrite Su in Hi.
  destruct (Hu idx Hi) as (x1 & b1 & z1 & k1 & X1 & B1 & C1 & V1 & _ & W1). destruct (Hx idx Hi) as (a2 & b2 & z2 & k2 & A2 & B2 & C2 & V2 & W2 & _).
  rewrite bidx_self in X1, A2 by done. rewrite V2 in X1. injection X1 as <-. assert (b2 = b1) as -> by congruence. rewrite V1, A2. f_equal.
  cbn [zop] in *. apply (inj Some) in C1, C2. subst z1 z2.
  eapply (congr_eq (width T) _ _ (k1 + k2)); [apply width_pos|done|done|ring].
Qed.
End ring.
End with_fops.
