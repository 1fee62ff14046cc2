(** The error of a rounded addition, sum() of floats, and the elements of a + b, a - b, a * b, a / b. *)
From Coq Require Import QArith Qcanon Qabs Qpower Lqa Floats.SpecFloat.
From Verif.Proofs Require Export Round2 Api4 Floats.
From Verif.Spec Require Export Calls Round.
From Verif.Model Require Import Ieee Exact Api.
Local Open Scope Z_scope.

Section format.
Variables (p x : Z).
Hypothesis Hp : 1 < p.
Hypothesis Hx : p < x.
Notation em := (3 - x - p).
Lemma cand_error q f v m e : nearest p x q f -> sf_value f = Some v -> number p x m e -> (Qabs (v - q) <= Qabs (scale m e - q))%Q.
Proof.
  intros [Hv Hf] E Hn. destruct f as [s|s| |s m' e']; try done; destruct Hf as [_ (w & Ew & Hb)]; rewrite E in Ew; apply (inj Some) in Ew as ->; by apply Hb.
Qed.
Lemma finite_small q f v : nearest p x q f -> sf_value f = Some v -> (Qabs q < too_large p x)%Q.
Proof. intros [Hv Hf] E. destruct f as [s|s| |s m' e']; try done; by destruct Hf. Qed.
Lemma small_finite q f : nearest p x q f -> (Qabs q < too_large p x)%Q -> exists v, sf_value f = Some v.
Proof.
  intros [Hv Hf] Hq. destruct f as [s|s| |s m' e']; try done; [by eexists| |by eexists]. exfalso. absq q; destruct s; lra.
Qed.
Lemma scale_lt m m' e : m < m' -> (scale m e < scale m' e)%Q.
Proof. intros H. unfold scale. pose proof (pow2_pos e). apply Round.inj_lt in H. nra. Qed.
Lemma scale_le m m' e : m <= m' -> (scale m e <= scale m' e)%Q.
Proof. intros H. unfold scale. pose proof (pow2_pos e). apply Round.inj_le in H. nra. Qed.
Lemma scale_opp m e : (scale (- m) e == - scale m e)%Q.
Proof. unfold scale. rewrite inject_Z_opp. ring. Qed.
Lemma multiple_error_pos a f v s : 0 < a -> nearest p x (sgn s (scale a em)) f -> sf_value f = Some v -> (Qabs (v - sgn s (scale a em)) <= Qpower 2 (- p) * scale a em)%Q.
Proof.
  intros Ha Hn Hv. set (q := scale a em). assert (0 < q)%Q as Hq. { unfold q, scale. pose proof (pow2_pos em). assert (0 < inject_Z a)%Q by (by apply (Round.inj_lt 0)). nra. }
  pose proof (pow2_pos (- p)) as Hu.
  assert (forall m e, number p x m e -> (0 <= m)%Z -> Qabs (v - sgn s q) <= Qabs (scale m e - q))%Q as Hc.
  { intros m e Hm H0. assert (number p x (if s then - m else m) e) as Hm' by (unfold number in *; destruct s; lia).
    pose proof (cand_error _ f v _ _ Hn Hv Hm') as H. fold q in H. destruct s; unfold sgn in *; [|done]. rewrite scale_opp in H. rewrite (Qabs_Qminus (scale m e)). setoid_replace (q - scale m e)%Q with (- scale m e - - q)%Q by lra. done. }
  destruct (Z.le_gt_cases (2 ^ p) a) as [Hbig|Hsmall].
  - set (d := Z.log2 a). pose proof (Z.log2_spec a Ha) as Hd. fold d in Hd. assert (p <= d) as Hdp by (by apply Z.log2_le_pow2).
    set (k := d + 1 - p). assert (0 < k) as Hk by (unfold k; lia).
    assert (2 ^ d = 2 ^ (k - 1) * 2 ^ p) as Ed by (rewrite <- Z.pow_add_r by lia; f_equal; lia).
    assert (2 ^ k = 2 * 2 ^ (k - 1)) as Ek by (rewrite <- Z.pow_succ_r by lia; f_equal; lia).
    assert (0 < 2 ^ (k - 1)) as Hk1 by (apply Z.pow_pos_nonneg; lia).
    set (M := (a + 2 ^ (k - 1)) / 2 ^ k). pose proof (Z.div_mod (a + 2 ^ (k - 1)) (2 ^ k) ltac:(lia)) as HM. pose proof (Z.mod_pos_bound (a + 2 ^ (k - 1)) (2 ^ k) ltac:(lia)) as Hr. fold M in HM.
    set (r := (a + 2 ^ (k - 1)) mod 2 ^ k) in *.
    assert (Z.abs (M * 2 ^ k - a) <= 2 ^ (k - 1)) as Herr by lia.
    assert (2 ^ p = 2 * 2 ^ (p - 1)) as Ep by (rewrite <- Z.pow_succ_r by lia; f_equal; lia).
    assert (2 ^ Z.succ d = 2 ^ k * 2 ^ p) as Esd by (rewrite <- Z.pow_add_r by lia; f_equal; lia).
    assert (0 <= M <= 2 ^ p) as HMr. { rewrite Esd in Hd. assert (0 < 2 ^ p) by lia. split; [apply Z.div_pos; lia|]. assert (M < 2 ^ p + 1); [|lia]. apply Z.div_lt_upper_bound; [lia|]. nia. }
    pose proof (finite_small _ f v Hn Hv) as Hfin. fold q in Hfin. assert (Qabs (sgn s q) == q)%Q as Eq by (unfold sgn; destruct s; [rewrite Qabs_opp|]; apply Qabs_pos; lra). rewrite Eq, too_large_eq in Hfin by lia.
    assert (em + k <= x - p) as HE.
    { destruct (Z.le_gt_cases (em + k) (x - p)) as [|Hgt]; [done|exfalso]. assert (scale (2 ^ d) em <= q)%Q as H1 by (apply scale_le; lia).
      assert (scale (2 ^ d) em == inject_Z (2 ^ p) * Qpower 2 (em + k - 1))%Q as H2. { unfold scale. rewrite Ed, inject_Z_mult. assert (em + k - 1 = em + (k - 1)) as -> by lia. rewrite pow2_add, (pow2_Z (k - 1)) by lia. ring. }
      pose proof (pow2_le (x - p) (em + k - 1) ltac:(lia)). pose proof (pow2_pos (x - p)). assert (0 < inject_Z (2 ^ p))%Q by (apply (Round.inj_lt 0); lia). nra. }
    assert (scale M (em + k) == scale (M * 2 ^ k) em)%Q as Es by (by rewrite scale_shift by lia).
    assert (Qabs (scale M (em + k) - q) <= scale (2 ^ (k - 1)) em)%Q as Hdist.
    { rewrite Es. unfold q. rewrite <- (scale_sub (M * 2 ^ k) a em). apply Qabs_Qle_condition. split; [rewrite <- scale_opp|]; apply scale_le; lia. }
    assert (scale (2 ^ (k - 1)) em <= Qpower 2 (- p) * q)%Q as Hfin2.
    { apply (Qle_trans _ (Qpower 2 (- p) * scale (2 ^ d) em)).
      - unfold scale. rewrite Ed, inject_Z_mult, <- (pow2_Z p) by lia. assert (Qpower 2 (- p) * Qpower 2 p == 1)%Q as E1 by (rewrite <- pow2_add; assert (- p + p = 0) as -> by lia; done).
        setoid_replace (Qpower 2 (- p) * (inject_Z (2 ^ (k - 1)) * Qpower 2 p * Qpower 2 em))%Q with (Qpower 2 (- p) * Qpower 2 p * (inject_Z (2 ^ (k - 1)) * Qpower 2 em))%Q by ring. rewrite E1. lra.
      - assert (scale (2 ^ d) em <= q)%Q by (apply scale_le; lia). nra. }
    destruct (Z.eq_dec M (2 ^ p)) as [EM|NM].
    + assert (em + k + 1 <= x - p) as HE1.
      { destruct (Z.eq_dec (em + k) (x - p)) as [E|]; [exfalso|lia].
        assert (scale (2 ^ p * 2 ^ k - 2 ^ (k - 1)) em <= q)%Q as H1 by (apply scale_le; lia).
        rewrite scale_sub, scale_shift in H1 by lia. rewrite E in H1.
        assert (scale (2 ^ (k - 1)) em == (1 # 2) * Qpower 2 (x - p))%Q as H2.
        { rewrite <- E. replace (em + k) with (em + (k - 1) + 1) by lia. rewrite !pow2_add, (pow2_Z (k - 1)) by lia. change (Qpower 2 1) with 2%Q. unfold scale. lra. }
        rewrite H2 in H1. unfold scale in H1. lra. }
      assert (scale (2 ^ (p - 1)) (em + k + 1) == scale M (em + k))%Q as E2. { rewrite EM, Ep. assert (2 * 2 ^ (p - 1) = 2 ^ (p - 1) * 2 ^ 1) as -> by lia. rewrite scale_shift by lia. done. }
      assert (number p x (2 ^ (p - 1)) (em + k + 1)) as Hnum by (split; [assert (0 < 2 ^ (p - 1)) by (apply Z.pow_pos_nonneg; lia); lia|lia]).
      pose proof (Hc _ _ Hnum ltac:(apply Z.pow_nonneg; lia)) as H. rewrite E2 in H. lra.
    + assert (number p x M (em + k)) as Hnum by (split; lia). pose proof (Hc _ _ Hnum ltac:(lia)) as H. lra.
  - assert (number p x a em) as Hnum by (split; lia). pose proof (Hc _ _ Hnum ltac:(lia)) as H. fold q in H. setoid_replace (q - q)%Q with 0%Q in H by lra. change (Qabs 0) with 0%Q in H. nra.
Qed.
Lemma multiple_error z q f v : (q == scale z em)%Q -> nearest p x q f -> sf_value f = Some v -> (Qabs (v - q) <= Qpower 2 (- p) * Qabs q)%Q.
Proof.
  intros E Hn Hv. destruct (Z.lt_trichotomy z 0) as [Hz|[->|Hz]].
  - assert (q == sgn true (scale (- z) em))%Q as E'. { unfold sgn. rewrite scale_opp. lra. } pose proof (multiple_error_pos (- z) f v true ltac:(lia) (nearest_eq _ _ _ _ _ E' Hn) Hv) as H.
    rewrite <- E' in H. pose proof (scale_lt 0 (- z) em ltac:(lia)) as H0. unfold sgn in E'. setoid_replace (scale 0 em) with 0%Q in H0 by (unfold scale; ring). rewrite (Qabs_neg q) by lra. rewrite E' at 2. rewrite Qopp_opp. done.
  - assert (number p x 0 em) as Hnum. { split; [|lia]. rewrite Z.abs_0. apply Z.pow_pos_nonneg; lia. } pose proof (cand_error q f v 0 em Hn Hv Hnum) as H. rewrite <- E in H. setoid_replace (q - q)%Q with 0%Q in H by lra. change (Qabs 0) with 0%Q in H. pose proof (pow2_pos (- p)). pose proof (Qabs_nonneg q). nra.
  - pose proof (multiple_error_pos z f v false Hz (nearest_eq _ _ _ _ _ E Hn) Hv) as H. unfold sgn in H. rewrite <- E in H. pose proof (scale_lt 0 z em Hz) as H0. setoid_replace (scale 0 em) with 0%Q in H0 by (unfold scale; ring). rewrite (Qabs_pos q) by lra. done.
Qed.
(** numbers of a format are multiples of its smallest one *)
Lemma number_multiple m e : number p x m e -> exists z, (scale m e == scale z em)%Q.
Proof. intros [_ He]. exists (m * 2 ^ (e - em)). rewrite scale_shift by lia. by replace (em + (e - em)) with e by lia. Qed.
(** adding two numbers: the relative error is at most half a unit in the last place *)
Lemma add_error f g a b r v : valid_binary p x f = true -> valid_binary p x g = true -> fval f a -> fval g b -> r = SFadd p x f g -> sf_value r = Some v ->
  (Qabs (v - (a + b)) <= Qpower 2 (- p) * Qabs (a + b))%Q.
Proof.
  intros Vf Vg Fa Fb -> Hv. pose proof (add_nearest p x Hp Hx f g a b Vf Vg Fa Fb) as Hn.
  destruct Fa as (va & Ea & Ea'), Fb as (vb & Eb & Eb').
  destruct (value_number p x Hp Hx f va Vf Ea) as (m1 & e1 & N1 & E1), (value_number p x Hp Hx g vb Vg Eb) as (m2 & e2 & N2 & E2).
  destruct (number_multiple _ _ N1) as [z1 M1], (number_multiple _ _ N2) as [z2 M2].
  apply (multiple_error (z1 + z2) _ (SFadd p x f g)); [|done|done]. rewrite scale_add. rewrite <- Ea', <- Eb', E1, E2, M1, M2. done.
Qed.
End format.

Lemma rounds_valid t q f : rounds t q f -> valid_binary (precision t) (exp_limit t) f = true.
Proof. by intros []. Qed.
(** conversion to a format holding the value is exact *)
Lemma to_float_exact T D v q : floating D = true -> value_of T v q -> representable (fmt D) q ->
  valid_binary (precision (fmt D)) (exp_limit (fmt D)) (to_float T D v) = true /\ fval (to_float T D v) q.
Proof.
  intros HD Hv Hr. destruct v as [z|f].
  - destruct Hv as [_ E]. cbn [to_float]. assert (rounds (fmt D) q (@f_of_Z Ieee (fmt D) z)) as H by (eapply nearest_eq; [|apply ieee_of_rounds]; by rewrite E). split; [by eapply rounds_valid|]. by apply (rounds_exact _ _ _ H).
  - destruct Hv as (HT & Hv & Hf). cbn [to_float]. unfold conv. case_bool_decide as E; [by subst|]. destruct Hf as (a & Ea & Ha). assert (rounds (fmt D) q (@f_cvt Ieee (fmt D) f)) as H.
    { eapply nearest_eq; [exact Ha|]. apply (ieee_cvt_rounds (fmt D) (fmt T)). apply fval_denotes; [done|]. by exists a. } split; [by eapply rounds_valid|]. by apply (rounds_exact _ _ _ H).
Qed.
Lemma number_wider m e : number (precision FT32) (exp_limit FT32) m e -> number (precision FT64) (exp_limit FT64) m e.
Proof. unfold number. cbn. lia. Qed.
Lemma value_representable T v q : floating T = true -> value_of T v q -> representable (fmt T) q.
Proof.
  intros HT. destruct v as [z|f]; [intros [H _]; congruence|]. intros (_ & Hv & a & Ea & Ha). destruct (value_number _ _ (fmt_p (fmt T)) (fmt_x (fmt T)) f a Hv Ea) as (m & e & Hn & He). exists m, e. split; [done|]. by rewrite <- Ha.
Qed.
Lemma representable_double t q : representable t q -> representable FT64 q.
Proof. intros (m & e & Hn & E). exists m, e. split; [|done]. destruct t; [by apply number_wider|done]. Qed.

Lemma fop_rounds o t x y a b : valid_binary (precision t) (exp_limit t) x = true -> valid_binary (precision t) (exp_limit t) y = true -> fval x a -> fval y b -> (o = ADiv -> ~ b == 0)%Q -> rounds t (exact_op o a b) (@fop Ieee o t x y).
Proof.
  intros Vx Vy Fx Fy Hb. pose proof (fmt_p t). pose proof (fmt_x t). destruct o; cbn [exact_op fop].
  - by apply add_nearest.
  - by apply sub_nearest.
  - by apply mul_nearest.
  - apply div_nearest; try done. by apply Hb.
Qed.
Lemma common_join L R : floating L || floating R = true -> common_float L R = dt_join L R.
Proof. by destruct L, R. Qed.
Lemma join_float L R : floating L || floating R = true -> floating (dt_join L R) = true.
Proof. by destruct L, R. Qed.
#[local] Existing Instance Ieee.
Theorem cpp_rounds o L R a b x y : floating L || floating R = true -> value_of L a x -> value_of R b y ->
  representable (fmt (dt_join L R)) x -> representable (fmt (dt_join L R)) y -> (o = ADiv -> ~ y == 0)%Q ->
  exists f, cpp_arith o L R (dt_join L R) a b = Some (VF f) /\ rounds (fmt (dt_join L R)) (exact_op o x y) f.
Proof.
  intros HF Ha Hb Rx Ry Hy. unfold cpp_arith. rewrite HF, common_join by done. eexists. split; [done|]. unfold conv. rewrite bool_decide_eq_true_2 by done.
  destruct (to_float_exact L (dt_join L R) a x (join_float _ _ HF) Ha Rx), (to_float_exact R (dt_join L R) b y (join_float _ _ HF) Hb Ry). by apply fop_rounds.
Qed.
Theorem arith_rounds o h a b ra rb va vb x y :
  tensor_at h a ra va -> tensor_at h b rb vb -> floating (t_dt ra) || floating (t_dt rb) = true ->
  let ss := bshape (shape ra) (shape rb) in
  let D := dt_join (t_dt ra) (t_dt rb) in
  compatible (shape ra) (shape rb) -> no_zero_one (shape ra) (shape rb) -> fits D ss ->
  (forall idx, in_range ss idx ->
     value_of (t_dt ra) (va (bidx (shape ra) idx)) (x idx) /\ representable (fmt D) (x idx) /\
     value_of (t_dt rb) (vb (bidx (shape rb) idx)) (y idx) /\ representable (fmt D) (y idx) /\
     (o = ADiv -> ~ y idx == 0)%Q) ->
  exists t h' w, exec (exec_arith o (Some a) (Some b)) h = (Ok (RHandle (Some t)), h') /\
    new_tensor h h' t D ss (t_rg ra || t_rg rb) w /\
    forall idx, in_range ss idx -> exists f, w idx = VF f /\ rounds (fmt D) (exact_op o (x idx) (y idx)) f.
Proof.
  intros Ha Hb HF ss D Hc Hz Hf Hall.
  destruct (arith_new o h a b (fun _ => ieee_commutative) ra rb va vb Ha Hb Hc Hz Hf) as [Hok _].
  set (w := fun idx => default (VI 0) (cpp_arith o (t_dt ra) (t_dt rb) D (va (bidx (shape ra) idx)) (vb (bidx (shape rb) idx)))).
  assert (forall idx, in_range ss idx -> exists f, cpp_arith o (t_dt ra) (t_dt rb) D (va (bidx (shape ra) idx)) (vb (bidx (shape rb) idx)) = Some (VF f) /\ rounds (fmt D) (exact_op o (x idx) (y idx)) f) as Hw.
  { intros idx Hi. destruct (Hall idx Hi) as (H1 & H2 & H3 & H4 & H5). by apply cpp_rounds. }
  destruct (Hok w) as (t & h' & E & Hn). { intros idx Hi. destruct (Hw idx Hi) as (f & E & _). unfold w. fold D in E. by rewrite E. }
  exists t, h', w. split; [done|]. split; [done|]. intros idx Hi. destruct (Hw idx Hi) as (f & E' & Hr). exists f. split; [|done]. unfold w. by rewrite E'.
Qed.

(** ** sum() *)
Local Open Scope Q_scope.
Lemma growth_S n : growth (S n) == (1 + half_ulp) * growth n.
Proof.
  unfold growth. rewrite Nat2Z.inj_succ. unfold Z.succ. rewrite Qpower_plus by (unfold half_ulp; discriminate). change ((1 + half_ulp) ^ 1) with (1 + half_ulp). ring.
Qed.
Lemma growth_ge n : 1 <= growth n.
Proof. induction n as [|n IH]; [done|]. rewrite growth_S. assert (0 < half_ulp) by apply pow2_pos. nra. Qed.
Lemma growth_le n m : (n <= m)%nat -> growth n <= growth m.
Proof. induction 1 as [|m _ IH]; [lra|]. rewrite growth_S. assert (0 < half_ulp) by apply pow2_pos. pose proof (growth_ge m). nra. Qed.
Lemma qtotal_app l q : qtotal (l ++ [q]) == qtotal l + q.
Proof. induction l as [|a l IH]; cbn; [ring|]. unfold qtotal in IH. rewrite IH. ring. Qed.
Lemma qabs_total l : 0 <= qtotal (map Qabs l).
Proof. induction l as [|a l IH]; cbn; [lra|]. pose proof (Qabs_nonneg a). unfold qtotal in IH. lra. Qed.
Lemma qtotal_abs l : Qabs (qtotal l) <= qtotal (map Qabs l).
Proof. induction l as [|a l IH]; [done|]. change (qtotal (a :: l)) with (a + qtotal l). change (qtotal (map Qabs (a :: l))) with (Qabs a + qtotal (map Qabs l)). pose proof (Qabs_triangle a (qtotal l)). lra. Qed.
Notation ok := (fun f => valid_binary 53 1024 f = true).
Lemma sums_step l r q g : l <> [] -> ok r -> sums_to l r -> ok g -> fval g q -> sums_to (l ++ [q]) (SFadd 53 1024 r g).
Proof.
  intros Hl Hr Hs Hg Fq. unfold sums_to in *. rewrite map_app, app_length. cbn [map length].
  assert (pred (length l + 1) = S (pred (length l))) as -> by (destruct l; cbn in *; [done|lia]). set (k := pred (length l)) in *.
  pose proof (qtotal_app l q) as E1. pose proof (qtotal_app (map Qabs l) (Qabs q)) as E2. pose proof (growth_S k) as E3.
  set (Sg' := qtotal (l ++ [q])) in *. set (A' := qtotal (map Qabs l ++ [Qabs q])) in *. set (G' := growth (S k)) in *. set (A := qtotal (map Qabs l)) in *. set (Sg := qtotal l) in *. set (G := growth k) in *. pose proof (growth_ge k) as HG. fold G in HG.
  assert (0 <= A) as HA by apply qabs_total. assert (Qabs Sg <= A) as HSA by apply qtotal_abs. assert (0 < half_ulp) as Hu by apply pow2_pos. set (u := half_ulp) in *.
  pose proof (Qabs_nonneg q) as Hq0.
  destruct Hs as [(s & Es & He)|(b & -> & Hb)].
  - assert (fval r s) as Fs by (by exists s).
    assert (Qabs (s + q) <= G * (A + Qabs q)) as Hsq.
    { setoid_replace (s + q) with ((s - Sg) + (Sg + q)) by ring. pose proof (Qabs_triangle (s - Sg) (Sg + q)). pose proof (Qabs_triangle Sg q). nra. }
    pose proof (add_nearest 53 1024 ltac:(lia) ltac:(lia) r g s q Hr Hg Fs Fq) as Hn.
    destruct (Qlt_le_dec (Qabs (s + q)) (too_large 53 1024)) as [Hlt|Hge].
    + destruct (small_finite 53 1024 _ _ Hn Hlt) as [v Ev]. left. exists v. split; [done|]. rewrite E1, E2, E3.
      pose proof (add_error 53 1024 ltac:(lia) ltac:(lia) r g s q _ v Hr Hg Fs Fq eq_refl Ev) as H. change (Qpower 2 (- (53))) with u in H.
      setoid_replace (v - (Sg + q)) with ((v - (s + q)) + (s - Sg)) by ring. pose proof (Qabs_triangle (v - (s + q)) (s - Sg)).
      assert (u * Qabs (s + q) <= u * (G * (A + Qabs q))) by nra. assert (0 <= (G - 1) * Qabs q) by nra. nra.
    + right. pose proof Hn as [_ Hm]. destruct (SFadd 53 1024 r g) as [s'|s'| |s' m e] eqn:Er.
      * destruct Hm as [Hm _]. lra.
      * exists s'. split; [done|]. rewrite E2, E3. assert (0 <= G * (A + Qabs q)) by nra. nra.
      * done.
      * destruct Hm as [Hm _]. lra.
  - right. exists b. split. { destruct g as [?|?| |]; try done; destruct Fq as (? & ? & ?); done. } rewrite E2, E3. assert (0 <= G * (A + Qabs q)) by nra. nra.
Qed.
Lemma fsum_sums T vs qs : floating T = true -> vs <> [] -> Forall2 (value_of T) vs qs -> sums_to qs (@fsum Ieee T vs).
Proof.
  intros HT Hne Hall.
  assert (forall v q, value_of T v q -> ok (to_float T F64 v) /\ fval (to_float T F64 v) q) as Hv.
  { intros v q H. apply (to_float_exact T F64); [done|done|]. eapply representable_double, value_representable; done. }
  assert (forall vs qs, Forall2 (value_of T) vs qs -> forall l r, l <> [] -> ok r -> sums_to l r ->
     sums_to (l ++ qs) (fold_left (fun a x => @f_add Ieee FT64 a (to_float T F64 x)) vs r)) as Hgen.
  { clear vs qs Hne Hall. induction 1 as [|v q vs qs H _ IH]; intros l r Hl Hr Hs; [by rewrite app_nil_r|].
    change (l ++ q :: qs) with (l ++ [q] ++ qs). rewrite app_assoc. cbn [fold_left]. destruct (Hv v q H) as [V Fv]. apply IH.
    - by destruct l.
    - by apply add_valid.
    - by apply sums_step. }
  destruct Hall as [|v q vs qs H Hall]; [done|]. unfold fsum. cbn [fold_left]. destruct (Hv v q H) as [V Fv].
  change (q :: qs) with ([q] ++ qs). apply Hgen; [done|done|by apply add_valid|].
  left. destruct Fv as (s & Es & Eq). assert (@f_add Ieee FT64 f_zero (to_float T F64 v) = to_float T F64 v \/ exists b, to_float T F64 v = S754_zero b) as [->|[b E]].
  - destruct (to_float T F64 v) as [[]|[]| |]; eauto.
  - exists s. split; [done|]. change (qtotal [q]) with (q + 0). change (growth (pred (length [q]))) with 1. setoid_replace ((1 - 1) * qtotal (map Qabs [q])) with 0 by ring. rewrite Eq. setoid_replace (q - (q + 0)) with 0 by ring. done.
  - rewrite E in Es |- *. exists 0%Qc. cbn in Es. apply (inj Some) in Es. split; [by destruct b|]. change (qtotal [q]) with (q + 0). change (growth (pred (length [q]))) with 1. setoid_replace ((1 - 1) * qtotal (map Qabs [q])) with 0 by ring. rewrite <- Eq, <- Es. done.
Qed.

Lemma array_sum_rounds T ss v q : floating T = true -> Forall (fun n => 0 <= n)%Z ss -> size_prod ss <> 0%Z ->
  (forall idx, in_range ss idx -> value_of T (v idx) (q idx)) ->
  exists f, array_sum T ss v = Some (VF f) /\ ok f /\ sums_to (map q (indices ss)) f.
Proof.
  intros HT Hs Hnz Hq. unfold array_sum. rewrite HT. eexists. split; [done|].
  assert (Forall2 (value_of T) (row_elems ss v) (map q (indices ss))) as Hall.
  { unfold row_elems. apply Forall2_fmap_2, Forall_Forall2_diag. apply Forall_forall. intros idx Hi%elem_of_indices. by apply Hq. }
  assert (forall v q, value_of T v q -> ok (to_float T F64 v) /\ fval (to_float T F64 v) q) as Hv.
  { intros x y H. apply (to_float_exact T F64); [done|done|]. eapply representable_double, value_representable; done. }
  destruct ss as [|s0 ss].
  - cbn [indices map] in *. destruct (Forall2_cons_1 _ _ _ _ _ Hall) as [H0 _]. destruct (Hv _ _ H0) as [Hok (s & Ev & Eq)]. split; [done|]. left.
    exists s. split; [exact Ev|]. change (qtotal [q []]) with (q [] + 0). change (growth (pred (length [q []]))) with 1. setoid_replace ((1 - 1) * qtotal (map Qabs [q []])) with 0 by ring. rewrite Eq. setoid_replace (q [] - (q [] + 0)) with 0 by ring. done.
  - split.
    + unfold fsum. assert (ok (@f_zero Ieee)) as H0 by done. revert H0. generalize (@f_zero Ieee). induction Hall as [|x y vs qs Hx Hall IH]; intros a Ha; [done|]. cbn [fold_left]. apply IH. apply add_valid; [done|done|done|]. by destruct (Hv _ _ Hx).
    + apply (fsum_sums T); [done| |done]. unfold row_elems. pose proof (length_indices _ Hs) as Hl. destruct (indices (s0 :: ss)); [|done]. cbn [length] in Hl. lia.
Qed.
Theorem sum_rounds h t r v q : tensor_at h t r v -> floating (t_dt r) = true -> (0 < size_prod (shape r) < two63)%Z ->
  (forall idx, in_range (shape r) idx -> value_of (t_dt r) (v idx) (q idx)) ->
  exists t' h' f, exec (OSum (Some t)) h = (Ok (RHandle (Some t')), h') /\ new_tensor h h' t' F64 [] (t_rg r) (fun _ => VF f) /\
    sums_to (map q (indices (shape r))) f.
Proof.
  intros Ht HT Hsz Hq. pose proof (sum_new h t r v Ht ltac:(lia)) as H. unfold sum_type in H. rewrite HT in H.
  destruct (array_sum_rounds (t_dt r) (shape r) v q HT) as (f & E & _ & Hs); [destruct Ht; by eapply holds_nonneg|lia|done|].
  rewrite E in H. destruct H as (t' & h' & Ex & Hn). by exists t', h', f.
Qed.
Theorem mean_rounds h t r v q : tensor_at h t r v -> floating (t_dt r) = true -> (0 < size_prod (shape r) < 2 ^ 53)%Z ->
  (forall idx, in_range (shape r) idx -> value_of (t_dt r) (v idx) (q idx)) ->
  exists t' h' f g, exec (OMean (Some t)) h = (Ok (RHandle (Some t')), h') /\ new_tensor h h' t' F64 [] (t_rg r) (fun _ => VF g) /\
    sums_to (map q (indices (shape r))) f /\ forall s, sf_value f = Some s -> rounds FT64 (s / inject_Z (size_prod (shape r))) g.
Proof.
  intros Ht HT Hsz Hq. pose proof (mean_new h t r v Ht ltac:(unfold two63; lia)) as H. unfold sum_type, array_mean in H. rewrite HT in H.
  destruct (array_sum_rounds (t_dt r) (shape r) v q HT) as (f & E & Hok & Hs); [destruct Ht; by eapply holds_nonneg|lia|done|].
  rewrite E, (proj2 (Z.eqb_neq _ _)) in H by lia. destruct H as (t' & h' & Ex & Hn). eexists t', h', f, _. split; [exact Ex|]. split; [exact Hn|]. split; [done|]. intros s Hf.
  pose proof (ieee_of_rounds FT64 (size_prod (shape r))) as Hz.
  assert (representable FT64 (inject_Z (size_prod (shape r)))) as Hr. { exists (size_prod (shape r)), 0%Z. split; [unfold number; cbn; lia|]. unfold scale. change (Qpower 2 0) with 1. ring. }
  apply div_nearest; [done|done|exact Hok|by eapply rounds_valid|by exists s|by apply (rounds_exact _ _ _ Hz)|].
  intros Ez. assert (0 < inject_Z (size_prod (shape r))) by (apply (Round.inj_lt 0); lia). lra.
Qed.
Theorem ieee_compares t x y (a b : Qc) : denotes t x a = true -> denotes t y b = true ->
  (@f_lt Ieee x y = true <-> a < b) /\ (@f_le Ieee x y = true <-> a <= b) /\ (@f_eq Ieee x y = true <-> a == b) /\
  @f_trunc Ieee x = Some (Z.quot (Qnum a) (Zpos (Qden a))).
Proof.
  intros [Va (a' & Ea & Ha)]%denotes_fval [Vb (b' & Eb & Hb)]%denotes_fval. apply Qc_is_canon in Ha as ->. apply Qc_is_canon in Hb as ->.
  cbn [f_lt f_le f_eq f_trunc Ieee]. unfold SFltb, SFleb, SFeqb. rewrite (sf_compare t x y a b Va Vb Ea Eb).
  split; [|split; [|split; [|by apply sf_trunc]]].
  - rewrite Qlt_alt. by destruct (a ?= b).
  - rewrite Qle_alt. by destruct (a ?= b).
  - rewrite Qeq_alt. by destruct (a ?= b).
Qed.
Theorem ieee_converts t z u x (a : Qc) : denotes u x a = true -> rounds t (inject_Z z) (@f_of_Z Ieee t z) /\ rounds t a (@f_cvt Ieee t x).
Proof. intros H. split; [apply ieee_of_rounds|by apply (ieee_cvt_rounds t u)]. Qed.
