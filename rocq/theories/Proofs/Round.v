(** IEEE operations round to nearest, ties to even, and are exact where the exact result is a number of the format. *)
From Coq Require Import QArith Qcanon Qabs Qpower Lqa Floats.SpecFloat.
From Verif.Proofs Require Export Watch.
From Verif.Spec Require Export Round.
From Verif.Model Require Import Ieee Exact Api.
Local Open Scope Z_scope.

Lemma digits_log m : Zpos (digits2_pos m) = Z.log2 (Zpos m) + 1.
Proof. pose proof (digits_spec m) as H. rewrite (Z.log2_unique (Zpos m) (Zpos (digits2_pos m) - 1)); [lia|lia|]. replace (Z.succ (Zpos (digits2_pos m) - 1)) with (Zpos (digits2_pos m)) by lia. lia. Qed.
(** ** locations *)
(** where X / D is between two integers *)
Definition locf (r D : Z) : location := if r =? 0 then loc_Exact else loc_Inexact (2 * r ?= D).
Lemma new_location_locf D r : 0 < D -> new_location D r = locf r D.
Proof.
  intros HD. unfold new_location, locf. assert (Zeq_bool r 0 = (r =? 0)) as Hz.
  { destruct (Z.eqb_spec r 0); destruct (Zeq_bool r 0) eqn:E; try done; [by apply Zeq_bool_neq in E|by apply Zeq_bool_eq in E]. }
  destruct (Z.even D) eqn:Ev; unfold new_location_even, new_location_odd; rewrite Hz; [done|]. destruct (r =? 0); [done|]. f_equal.
  assert (Z.odd D = true) as Ho by (by rewrite <- Z.negb_even, Ev). apply Z.odd_spec in Ho as [j ->].
  destruct (Z.compare_spec (2 * r + 1) (2 * j + 1)); destruct (Z.compare_spec (2 * r) (2 * j + 1)); try done; lia.
Qed.
Definition recf (X D : Z) : shr_record := shr_record_of_loc (X / D) (locf (X mod D) D).
Lemma recf_m X D : shr_m (recf X D) = X / D.
Proof. unfold recf. by destruct (locf _ _) as [|[]]. Qed.
Lemma recf_l X D : loc_of_shr_record (recf X D) = locf (X mod D) D.
Proof. unfold recf. by destruct (locf _ _) as [|[]]. Qed.
Lemma shr_1_recf X D : 0 <= X -> 0 < D -> shr_1 (recf X D) = recf X (D * 2).
Proof.
  intros HX HD. unfold recf at 2. assert (X / (D * 2) = X / D / 2) as -> by (rewrite Z.div_div by lia; done).
  rewrite Z.rem_mul_r by lia. pose proof (Z.mod_pos_bound X D HD) as Hr. pose proof (Z.div_pos X D HX HD) as Hm.
  unfold recf. set (r := X mod D) in *. set (m := X / D) in *. clearbody r m.
  assert (shr_record_of_loc m (locf r D) = Build_shr_record m (if 2 * r <? D then false else true) (if (r =? 0) || (2 * r =? D) then false else true)) as ->.
  { unfold locf. destruct (Z.eqb_spec r 0) as [->|H0]; cbn [orb].
    - destruct (Z.ltb_spec (2 * 0) D); [done|lia].
    - destruct (Z.compare_spec (2 * r) D); destruct (Z.ltb_spec (2 * r) D); destruct (Z.eqb_spec (2 * r) D); try done; lia. }
  assert (shr_1 {| shr_m := m; shr_r := if 2 * r <? D then false else true; shr_s := if (r =? 0) || (2 * r =? D) then false else true |}
    = Build_shr_record (m / 2) (Z.odd m) (if r =? 0 then false else true)) as ->.
  { assert (orb (if 2 * r <? D then false else true) (if (r =? 0) || (2 * r =? D) then false else true) = if r =? 0 then false else true) as Hs.
    { destruct (Z.ltb_spec (2 * r) D), (Z.eqb_spec r 0), (Z.eqb_spec (2 * r) D); try done; lia. }
    unfold shr_1. rewrite Hs. rewrite <- Z.div2_div. destruct m as [|[m|m|]|]; try done; lia. }
  unfold locf. rewrite Zmod_odd. destruct (Z.odd m).
  - destruct (Z.eqb_spec (r + D * 1) 0); [lia|]. destruct (Z.eqb_spec r 0), (Z.compare_spec (2 * (r + D * 1)) (D * 2)); try done; lia.
  - rewrite Z.mul_0_r, Z.add_0_r. destruct (Z.eqb_spec r 0); [done|]. destruct (Z.compare_spec (2 * r) (D * 2)); try done; lia.
Qed.
Lemma shr_recf k : forall X D, 0 <= X -> 0 < D -> SpecFloat.iter_pos shr_1 k (recf X D) = recf X (D * 2 ^ Zpos k).
Proof.
  assert (forall k, 0 < 2 ^ Zpos k) as Hk by (intros; apply Z.pow_pos_nonneg; lia).
  assert (forall k, 2 ^ Zpos k~0 = 2 ^ Zpos k * 2 ^ Zpos k) as H0. { intros j. rewrite <- Z.pow_add_r by lia. f_equal. lia. }
  assert (forall k, 2 ^ Zpos k~1 = 2 * (2 ^ Zpos k * 2 ^ Zpos k)) as H1. { intros j. rewrite <- H0, <- Z.pow_succ_r by lia. f_equal. }
  induction k as [k IH|k IH|]; intros X D HX HD; cbn [SpecFloat.iter_pos].
  - rewrite shr_1_recf by done. rewrite IH by lia. specialize (Hk k). rewrite IH by nia. f_equal. rewrite H1. lia.
  - rewrite IH by done. specialize (Hk k). rewrite IH by nia. f_equal. rewrite H0. lia.
  - rewrite shr_1_recf by done. f_equal.
Qed.
Lemma recf_exact m : recf m 1 = Build_shr_record m false false.
Proof. unfold recf. rewrite Z.div_1_r, Z.mod_1_r. done. Qed.

(** ** powers of two *)
Lemma pow2_pos e : (0 < Qpower 2 e)%Q.
Proof. apply Qpower_0_lt. done. Qed.
Lemma pow2_add a b : (Qpower 2 (a + b) == Qpower 2 a * Qpower 2 b)%Q.
Proof. by apply Qpower_plus. Qed.
Lemma pow2_Z k : 0 <= k -> (Qpower 2 k == inject_Z (2 ^ k))%Q.
Proof. intros Hk. by rewrite Zpower_Qpower. Qed.
Lemma pow2_le a b : a <= b -> (Qpower 2 a <= Qpower 2 b)%Q.
Proof. intros H. by apply Qpower_le_compat_l. Qed.
Lemma scale_shift m e k : 0 <= k -> (scale (m * 2 ^ k) e == scale m (e + k))%Q.
Proof. intros Hk. unfold scale. rewrite pow2_add, inject_Z_mult, (pow2_Z k) by done. ring. Qed.
Lemma sq_scale s m e : (sq s m e == scale (cond_Zopp s (Zpos m)) e)%Q.
Proof.
  unfold sq. assert (forall a b, 0 < b -> (a # Z.to_pos b == inject_Z a / inject_Z b)%Q) as H.
  { intros a b Hb. rewrite Qmake_Qdiv. by rewrite Z2Pos.id by done. }
  rewrite H by (apply Z.pow_pos_nonneg; lia). rewrite inject_Z_mult, <- !pow2_Z by lia. unfold scale. pose proof (pow2_pos (Z.max (- e) 0)).
  assert (Qpower 2 (Z.max e 0) == Qpower 2 e * Qpower 2 (Z.max (- e) 0))%Q as ->. { rewrite <- pow2_add. assert (Z.max e 0 = e + Z.max (-e) 0) as -> by lia. done. }
  field. lra.
Qed.
Lemma inj_lt a b : a < b -> (inject_Z a < inject_Z b)%Q.
Proof. by rewrite <- Zlt_Qlt. Qed.
Lemma inj_le a b : a <= b -> (inject_Z a <= inject_Z b)%Q.
Proof. by rewrite <- Zle_Qle. Qed.
Lemma inj_succ a : (inject_Z (a + 1) == inject_Z a + 1)%Q.
Proof. by rewrite inject_Z_plus. Qed.

(** ** the nearest integer *)
Definition near (m : Z) (u : Q) : Prop := forall j, (Qabs (inject_Z m - u) <= Qabs (inject_Z j - u))%Q /\
  (Qabs (inject_Z m - u) == Qabs (inject_Z j - u) -> j = m \/ Z.even m = true)%Q.
Lemma int_cases j m : (inject_Z j <= inject_Z m - 1)%Q \/ j = m \/ j = m + 1 \/ (inject_Z m + 2 <= inject_Z j)%Q.
Proof.
  destruct (Z.le_gt_cases j (m - 1)) as [H|H]; [left|]. { assert (inject_Z (m - 1) == inject_Z m - 1)%Q as <- by (by rewrite <- Z.add_opp_r, inject_Z_plus). by apply inj_le. }
  destruct (Z.le_gt_cases (m + 2) j) as [H'|H']; [right; right; right|right; destruct (decide (j = m)); [by left|right; left; lia]].
  assert (inject_Z (m + 2) == inject_Z m + 2)%Q as <- by (by rewrite inject_Z_plus). by apply inj_le.
Qed.
Lemma abs_cases (x : Q) : ((0 <= x /\ Qabs x == x) \/ (x < 0 /\ Qabs x == - x))%Q.
Proof. destruct (Qlt_le_dec x 0) as [H|H]; [right|left]; split; try done; [apply Qabs_neg; lra|by apply Qabs_pos]. Qed.
Ltac absq x := let H := fresh in destruct (abs_cases x) as [[? H]|[? H]]; rewrite ?H in *.
Lemma near_low m u f : (u == inject_Z m + f -> 0 <= f -> f < 1 # 2 -> near m u)%Q.
Proof.
  intros Hu H0 H1 j. pose proof (inj_succ m) as Hs. destruct (int_cases j m) as [H|[->|[->|H]]]; (split; [|intros E]); try (by left); exfalso + idtac;
    absq (inject_Z m - u)%Q; try (absq (inject_Z j - u)%Q); try (absq (inject_Z (m + 1) - u)%Q); lra.
Qed.
Lemma near_high m u f : (u == inject_Z m + f -> 1 # 2 < f -> f < 1 -> near (m + 1) u)%Q.
Proof.
  intros Hu H0 H1 j. pose proof (inj_succ m) as Hs. destruct (int_cases j m) as [H|[->|[->|H]]]; (split; [|intros E]); try (by left); exfalso + idtac;
    absq (inject_Z (m + 1) - u)%Q; try (absq (inject_Z j - u)%Q); try (absq (inject_Z m - u)%Q); lra.
Qed.
Lemma near_tie m u f : (u == inject_Z m + f -> f == 1 # 2 -> near (if Z.even m then m else m + 1) u)%Q.
Proof.
  intros Hu H0 j. pose proof (inj_succ m) as Hs. assert (Z.even (if Z.even m then m else m + 1) = true) as Hev.
  { destruct (Z.even m) eqn:E; [done|]. rewrite Z.even_add, E. done. }
  split; [|intros _; by right]. clear Hev.
  destruct (Z.even m); destruct (int_cases j m) as [H|[->|[->|H]]]; 
    try (absq (inject_Z (m + 1) - u)%Q); try (absq (inject_Z j - u)%Q); try (absq (inject_Z m - u)%Q); lra.
Qed.
Lemma rne_near X D : 0 <= X -> 0 < D -> near (round_nearest_even (X / D) (locf (X mod D) D)) (inject_Z X / inject_Z D).
Proof.
  intros HX HD. set (u := (inject_Z X / inject_Z D)%Q). pose proof (Z.div_mod X D ltac:(lia)) as Hd. pose proof (Z.mod_pos_bound X D HD) as [Hr0 Hr1].
  set (m := X / D) in *. set (r := X mod D) in *. assert (0 < inject_Z D)%Q as HD' by (by apply (inj_lt 0)).
  assert (u == inject_Z m + inject_Z r / inject_Z D)%Q as Hu. { unfold u. rewrite Hd, inject_Z_plus, inject_Z_mult. field. lra. }
  set (f := (inject_Z r / inject_Z D)%Q) in *. assert (inject_Z r == f * inject_Z D)%Q as Hf by (unfold f; field; lra).
  assert (0 <= f)%Q as F0. { apply Qle_shift_div_l; [done|]. rewrite Qmult_0_l. by apply (inj_le 0). }
  assert (f < 1)%Q as F1. { apply Qlt_shift_div_r; [done|]. rewrite Qmult_1_l. by apply inj_lt. }
  unfold locf. destruct (Z.eqb_spec r 0) as [H0|H0]; cbn [round_nearest_even].
  - apply (near_low m u f Hu F0). rewrite H0 in Hf. change (inject_Z 0) with 0%Q in Hf. nra.
  - assert (inject_Z (2 * r) == 2 * f * inject_Z D)%Q as H2. { rewrite inject_Z_mult, Hf. change (inject_Z 2) with 2%Q. ring. }
    destruct (Z.compare_spec (2 * r) D) as [C|C|C].
    + apply (near_tie m u f Hu). rewrite C in H2. nra.
    + apply (near_low m u f Hu F0). apply inj_lt in C. rewrite H2 in C. nra.
    + apply (near_high m u f Hu); [|done]. apply inj_lt in C. rewrite H2 in C. nra.
Qed.

(** ** rounding *)
Section format.
Variables (p x : Z).
Hypothesis Hp : 1 < p.
Hypothesis Hx : p < x.
Definition fin (s : bool) (m e : Z) : spec_float :=
  match m with Z0 => S754_zero s | Zpos m => if Zle_bool e (x - p) then S754_finite s m e else S754_infinity s | _ => S754_nan end.
Lemma digits_lt m k : 0 <= m -> 0 <= k -> m < 2 ^ k -> Zdigits2 m <= k.
Proof. intros Hm Hk H. destruct m as [|m|m]; cbn; [lia| |lia]. pose proof (digits_spec m) as [H1 _]. destruct (Z.le_gt_cases (Zpos (digits2_pos m)) k); [done|]. assert (2 ^ k <= 2 ^ (Zpos (digits2_pos m) - 1)) by (apply Z.pow_le_mono_r; lia). lia. Qed.
Lemma digits_gt m k : 0 <= k -> 2 ^ k <= m -> k + 1 <= Zdigits2 m.
Proof. intros Hk H. assert (0 < 2 ^ k) by (apply Z.pow_pos_nonneg; lia). destruct m as [|m|m]; cbn; [lia| |lia]. pose proof (digits_spec m) as [_ H1]. destruct (Z.le_gt_cases (k + 1) (Zpos (digits2_pos m))); [done|]. assert (2 ^ Zpos (digits2_pos m) <= 2 ^ k) by (apply Z.pow_le_mono_r; lia). lia. Qed.
Lemma digits_bounds m : 0 < m -> 2 ^ (Zdigits2 m - 1) <= m < 2 ^ Zdigits2 m.
Proof. destruct m as [|m|m]; [lia| |lia]. intros _. apply digits_spec. Qed.
Lemma round_aux_result s X D e : 0 <= X -> 0 < D -> e <= fexp p x (Zdigits2 (X / D) + e) ->
  exists e1 m2, emin p x <= e1 /\ e <= e1 /\ 0 <= m2 <= 2 ^ p /\ X / (D * 2 ^ (e1 - e)) <= m2 /\
    m2 = round_nearest_even (X / (D * 2 ^ (e1 - e))) (locf (X mod (D * 2 ^ (e1 - e))) (D * 2 ^ (e1 - e))) /\
    X / (D * 2 ^ (e1 - e)) < 2 ^ p /\ (e1 = emin p x \/ 2 ^ (p - 1) <= X / (D * 2 ^ (e1 - e))) /\
    binary_round_aux p x s (X / D) e (locf (X mod D) D) = if m2 =? 2 ^ p then fin s (2 ^ (p - 1)) (e1 + 1) else fin s m2 e1.
Proof.
  intros HX HD He. set (e1 := fexp p x (Zdigits2 (X / D) + e)) in *. set (W := D * 2 ^ (e1 - e)). set (m2 := round_nearest_even (X / W) (locf (X mod W) W)).
  assert (0 < 2 ^ (e1 - e)) as HK by (apply Z.pow_pos_nonneg; lia). assert (0 < W) as HW by (unfold W; nia).
  assert (X / W = X / D / 2 ^ (e1 - e)) as Em1 by (unfold W; rewrite Z.div_div by lia; done).
  pose proof (Z.div_pos X D HX HD) as Hm. pose proof (Z.div_pos X W HX HW) as Hm1. assert (emin p x <= e1) as Hmin by (unfold e1, fexp; lia).
  assert (X / W < 2 ^ p) as Hlt.
  { rewrite Em1. apply Z.div_lt_upper_bound; [done|]. rewrite <- Z.pow_add_r by lia. destruct (Z.eq_dec (X / D) 0) as [->|H0]; [apply Z.pow_pos_nonneg; lia|].
    pose proof (digits_bounds (X / D) ltac:(lia)) as [_ H]. apply (Z.lt_le_trans _ _ _ H). apply Z.pow_le_mono_r; [lia|]. unfold e1, fexp. lia. }
  assert (e1 = emin p x \/ 2 ^ (p - 1) <= X / W) as Hn.
  { destruct (Z.eq_dec e1 (emin p x)) as [|Hne]; [by left|right]. rewrite Em1. apply Z.div_le_lower_bound; [done|]. rewrite <- Z.pow_add_r by lia.
    assert (e1 = Zdigits2 (X / D) + e - p) as E1 by (unfold e1, fexp in *; lia). destruct (Z.eq_dec (X / D) 0) as [H0|H0]; [rewrite H0 in E1; cbn in E1; lia|].
    pose proof (digits_bounds (X / D) ltac:(lia)) as [H _]. apply (Z.le_trans _ (2 ^ (Zdigits2 (X / D) - 1))); [|done]. apply Z.pow_le_mono_r; lia. }
  assert (X / W <= m2 <= X / W + 1) as Hm2. { unfold m2. destruct (locf _ _) as [|[]]; cbn; try lia. destruct (Z.even _); lia. }
  exists e1, m2. fold W. split; [done|]. split; [done|]. split; [lia|]. split; [lia|]. split; [done|]. split; [done|]. split; [done|].
  unfold binary_round_aux, shr_fexp. fold e1.
  change (shr_record_of_loc (X / D) (locf (X mod D) D)) with (recf X D).
  assert (shr (recf X D) e (e1 - e) = (recf X W, e1)) as ->.
  { unfold shr, W. destruct (e1 - e) as [|k|k] eqn:Ek; [| |lia].
    - rewrite Z.pow_0_r, Z.mul_1_r. f_equal. lia.
    - rewrite shr_recf by done. f_equal. lia. }
  rewrite recf_m, recf_l. fold m2. change (shr_record_of_loc m2 loc_Exact) with (Build_shr_record m2 false false).
  destruct (Z.eqb_spec m2 (2 ^ p)) as [E|E].
  - assert (Zdigits2 m2 = p + 1) as Ed. { pose proof (digits_gt m2 p ltac:(lia) ltac:(lia)). pose proof (digits_lt m2 (p + 1) ltac:(lia) ltac:(lia)). rewrite Z.pow_add_r in * by lia. lia. }
    rewrite Ed. assert (fexp p x (p + 1 + e1) - e1 = 1) as -> by (unfold fexp; lia). unfold shr. rewrite <- recf_exact, shr_recf by lia. rewrite recf_m.
    assert (m2 / (1 * 2 ^ 1) = 2 ^ (p - 1)) as ->. { rewrite E. replace p with (p - 1 + 1) at 1 by lia. rewrite Z.pow_add_r by lia. rewrite Z.mul_1_l. apply Z.div_mul. lia. }
    done.
  - assert (Zdigits2 m2 <= p) as Ed by (apply digits_lt; lia).
    assert (fexp p x (Zdigits2 m2 + e1) - e1 <= 0) as Hle by (unfold fexp; lia).
    unfold shr. destruct (fexp p x (Zdigits2 m2 + e1) - e1); [done|lia|done].
Qed.
Lemma too_large_eq : (too_large p x == (inject_Z (2 ^ p) - (1 # 2)) * Qpower 2 (x - p))%Q.
Proof.
  assert (Qpower 2 (x - p) == Qpower 2 (x - p - 1) * 2)%Q as ->. { rewrite <- (pow2_add _ 1). assert (x - p - 1 + 1 = x - p) as -> by lia. done. }
  unfold too_large, scale. rewrite (Z.pow_add_r 2 p 1) by lia. rewrite <- Z.add_opp_r, inject_Z_plus, inject_Z_mult.
  rewrite inject_Z_opp. change (inject_Z 1) with 1%Q. change (inject_Z (2 ^ 1)) with 2%Q. generalize (Qpower 2 (x - p - 1)), (inject_Z (2 ^ p)). intros. lra.
Qed.
Definition sgn (s : bool) (q : Q) : Q := if s then (- q)%Q else q.
Lemma fin_spec s m e : 0 <= m -> m < 2 ^ p -> emin p x <= e -> (e = emin p x \/ 2 ^ (p - 1) <= m) ->
  valid_binary p x (fin s m e) = true /\
  (fin s m e = S754_infinity s /\ x - p < e \/
   (m = 0 \/ e <= x - p) /\ (match fin s m e with S754_zero _ => m = 0 | S754_finite _ m' _ => Zpos m' = m | _ => False end) /\ exists v, sf_value (fin s m e) = Some v /\ (v == sgn s (scale m e))%Q).
Proof.
  intros Hm Hlt He Hc. destruct m as [|m|m]; [| |lia]; cbn [fin].
  - split; [done|]. right. split; [by left|]. split; [done|]. exists 0%Qc. split; [done|]. unfold scale. change (inject_Z 0) with 0%Q. change (this 0%Qc) with 0%Q. destruct s; unfold sgn; lra.
  - destruct (Zle_bool e (x - p)) eqn:El.
    + apply Z.leb_le in El. split.
      * cbn. unfold bounded, canonical_mantissa. apply andb_true_iff. split; [|by apply Z.leb_le]. apply Zeq_is_eq_bool.
        change (Zpos (digits2_pos m)) with (Zdigits2 (Zpos m)). pose proof (digits_lt (Zpos m) p ltac:(lia) ltac:(lia) Hlt). destruct Hc as [->|Hc].
        -- unfold fexp. lia.
        -- pose proof (digits_gt (Zpos m) (p - 1) ltac:(lia) Hc). unfold fexp. lia.
      * right. split; [by right|]. split; [done|]. eexists. split; [done|]. cbn [this Q2Qc]. rewrite Qred_correct. fold (sq s m e). rewrite sq_scale. unfold scale, sgn, cond_Zopp. destruct s; [|done].
        rewrite inject_Z_opp. lra.
    + apply Z.leb_gt in El. split; [done|]. left. split; [done|lia].
Qed.

Lemma round_aux_nearest s X D e : 0 <= X -> 0 < D -> e <= fexp p x (Zdigits2 (X / D) + e) ->
  nearest p x (sgn s (inject_Z X / inject_Z D * Qpower 2 e)) (binary_round_aux p x s (X / D) e (locf (X mod D) D)).
Proof.
  intros HX HD He. destruct (round_aux_result s X D e HX HD He) as (e1 & m2 & Hmin & He1 & Hm2 & Hge2 & Em2 & Hlt & Hn & ->).
  set (W := D * 2 ^ (e1 - e)) in *. assert (0 < 2 ^ (e1 - e)) as HK by (apply Z.pow_pos_nonneg; lia). assert (0 < W) as HW by (unfold W; nia).
  pose proof (rne_near X W HX HW) as Hnear. rewrite <- Em2 in Hnear. set (u := (inject_Z X / inject_Z W)%Q) in *. set (P := Qpower 2 e1).
  assert (0 < inject_Z D)%Q as HD' by (by apply (inj_lt 0)). assert (0 < inject_Z W)%Q as HW' by (by apply (inj_lt 0)).
  pose proof (pow2_pos e1) as HP. fold P in HP.
  assert (inject_Z X / inject_Z D * Qpower 2 e == u * P)%Q as Hq.
  { unfold u, P, W. rewrite inject_Z_mult, <- pow2_Z by lia. assert (e1 = e + (e1 - e)) as E by lia. rewrite E at 2. rewrite pow2_add. pose proof (pow2_pos (e1 - e)). field. split; lra. }
  set (q := (inject_Z X / inject_Z D * Qpower 2 e)%Q) in *. clearbody q.
  assert (0 <= u)%Q as Hu0. { apply Qle_shift_div_l; [done|]. rewrite Qmult_0_l. by apply (inj_le 0). }
  assert (inject_Z (X / W) <= u)%Q as Hu1.
  { apply Qle_shift_div_l; [done|]. rewrite <- inject_Z_mult. apply inj_le. pose proof (Z.mul_div_le X W HW). lia. }
  assert (u < inject_Z (X / W) + 1)%Q as Hu2.
  { apply Qlt_shift_div_r; [done|]. rewrite <- inj_succ, <- inject_Z_mult. apply inj_lt. pose proof (Z.mul_succ_div_gt X W HW). nia. }
  (* no number is nearer *)
  assert (forall M E, number p x M E -> Qabs (scale m2 e1 - q) <= Qabs (scale M E - q) /\ (Qabs (scale m2 e1 - q) == Qabs (scale M E - q) -> scale m2 e1 == scale M E \/ Z.even m2 = true))%Q as Hbest.
  { intros M E [HM HE]. assert (forall j, Qabs (inject_Z j * P - q) == Qabs (inject_Z j - u) * P)%Q as Hj.
    { intros j. rewrite Hq. assert (inject_Z j * P - u * P == (inject_Z j - u) * P)%Q as -> by ring. rewrite Qabs_Qmult, (Qabs_pos P) by lra. done. }
    unfold scale at 1 3 5. fold P. rewrite (Hj m2). destruct (Z.le_gt_cases e1 E) as [HE1|HE1].
    - assert (scale M E == inject_Z (M * 2 ^ (E - e1)) * P)%Q as Hs. { assert (E = e1 + (E - e1)) as E' by lia. rewrite E' at 1. rewrite <- scale_shift by lia. done. }
      rewrite !Hs, (Hj (M * 2 ^ (E - e1))). destruct (Hnear (M * 2 ^ (E - e1))) as [H1 H2]. split; [nra|]. intros H3. destruct H2 as [->|H2]; [|by left|by right].
      assert (Qabs (inject_Z m2 - u) * P == Qabs (inject_Z (M * 2 ^ (E - e1)) - u) * P)%Q as H4 by done. apply Qmult_inj_r in H4; [done|lra].
    - destruct Hn as [Hn|Hn]; [unfold emin in *; lia|].
      assert (Qabs (scale M E) < inject_Z (2 ^ (p - 1)) * P)%Q as Hlow.
      { unfold scale. rewrite Qabs_Qmult, (Qabs_pos (Qpower 2 E)) by (pose proof (pow2_pos E); lra). assert (Qabs (inject_Z M) == inject_Z (Z.abs M))%Q as -> by done.
        assert (inject_Z (2 ^ (p - 1)) * P == inject_Z (2 ^ p) * Qpower 2 (e1 - 1))%Q as ->.
        { unfold P. rewrite <- !pow2_Z by lia. rewrite <- !pow2_add. assert (p - 1 + e1 = p + (e1 - 1)) as -> by lia. done. }
        pose proof (pow2_le E (e1 - 1) ltac:(lia)). apply inj_lt in HM. pose proof (pow2_pos E). assert (0 <= inject_Z (2 ^ p))%Q by (apply (inj_le 0); lia). nra. }
      destruct (Hnear (2 ^ (p - 1))) as [H1 _]. apply inj_le in Hn.
      assert (Qabs (inject_Z (2 ^ (p - 1)) - u) == u - inject_Z (2 ^ (p - 1)))%Q as H2. { rewrite Qabs_neg by lra. ring. }
      rewrite H2 in H1. pose proof (Qabs_triangle_reverse q (scale M E)) as H3. rewrite (Qabs_Qminus q) in H3. rewrite (Qabs_pos q) in H3 by nra.
      assert (Qabs (inject_Z m2 - u) * P < Qabs (scale M E - q))%Q as H4 by nra. split; [lra|]. intros H5. lra. }
  (* the result *)
  assert (forall m e', (scale m e' == scale m2 e1)%Q -> 0 <= m -> m < 2 ^ p -> emin p x <= e' -> (e' = emin p x \/ 2 ^ (p - 1) <= m) ->
    (x - p < e' -> (too_large p x <= q)%Q) -> (m = 0 \/ e' <= x - p -> (q < too_large p x)%Q) -> (Z.even m2 = true -> Z.even m = true) ->
    nearest p x (sgn s q) (fin s m e')) as Hres.
  { intros m e' Hs H0 H1 H2 H3 H4 H5 H6. destruct (fin_spec s m e' H0 H1 H2 H3) as [Hv [[Ef Hover]|(Hin & Hm & v & Ev & Hve)]]; split; try done.
    - rewrite Ef. specialize (H4 Hover). destruct s; unfold sgn; lra.
    - assert (Z.even m2 = true -> even_significand (fin s m e')) as Hev. { intros E. apply H6 in E. destruct (fin s m e'); cbn; try done. by subst m. }
      assert (Qabs (sgn s q) < too_large p x /\ exists v, sf_value (fin s m e') = Some v /\ forall M E, number p x M E ->
        Qabs (v - sgn s q) <= Qabs (scale M E - sgn s q) /\ (Qabs (v - sgn s q) == Qabs (scale M E - sgn s q) -> v == scale M E \/ even_significand (fin s m e')))%Q as Hfin.
      { assert (0 <= q)%Q as Hq0 by nra. split. { assert (Qabs (sgn s q) == q)%Q as ->; [|by apply H5]. unfold sgn. destruct s; [rewrite Qabs_opp|]; by apply Qabs_pos. }
        exists v. split; [done|]. intros M E HM.
        assert (forall a b : Q, Qabs (sgn s a - sgn s b) == Qabs (a - b))%Q as Habs. { intros a b. unfold sgn. destruct s; [|done]. rewrite <- (Qabs_opp (a - b)). assert (- a - - b == - (a - b))%Q as -> by ring. done. }
        assert (exists M', number p x M' E /\ scale M E == sgn s (scale M' E))%Q as (M' & HM' & HsM).
        { destruct s; [|by exists M]. exists (- M). split; [unfold number in *; lia|]. unfold sgn, scale. rewrite inject_Z_opp. ring. }
        assert (Qabs (v - sgn s q) == Qabs (scale m2 e1 - q))%Q as ->. { rewrite Hve. rewrite Habs. by rewrite Hs. }
        assert (Qabs (scale M E - sgn s q) == Qabs (scale M' E - q))%Q as ->. { rewrite HsM. by rewrite Habs. }
        destruct (Hbest M' E HM') as [B1 B2]. split; [done|]. intros HE. destruct (B2 HE) as [Hl|Hr]; [left|right; by apply Hev].
        rewrite Hve, HsM. rewrite <- Hs in Hl. unfold sgn. destruct s; by rewrite Hl. }
      clear - Hm Hfin. destruct (fin s m e'); done. }
  pose proof too_large_eq as HT.
  assert (0 < inject_Z (2 ^ p))%Q as H2p. { apply (inj_lt 0). apply Z.pow_pos_nonneg; lia. }
  assert (1 < inject_Z (2 ^ p))%Q as H2p1. { apply (inj_lt 1). apply Z.pow_gt_1; lia. }
  assert (u < inject_Z (2 ^ p))%Q as Hup. { assert (inject_Z (X / W + 1) <= inject_Z (2 ^ p))%Q by (apply inj_le; lia). rewrite inj_succ in *. lra. }
  assert (e1 < x - p -> (q < too_large p x)%Q) as Hsmall.
  { intros Hl. rewrite HT, Hq. assert (Qpower 2 (x - p) == 2 * Qpower 2 (x - p - 1))%Q as ->. { rewrite <- (pow2_add 1). assert (1 + (x - p - 1) = x - p) as -> by lia. done. }
    pose proof (pow2_le e1 (x - p - 1) ltac:(lia)) as HPl. fold P in HPl. nra. }
  assert (x - p < e1 -> (too_large p x <= q)%Q) as Hbig.
  { intros Hl. destruct Hn as [Hn|Hn]; [unfold emin in *; lia|]. rewrite HT, Hq. apply inj_le in Hn.
    assert (Qpower 2 (x - p + 1) <= P)%Q as HPl by (apply pow2_le; lia). rewrite pow2_add in HPl. change (Qpower 2 1) with 2%Q in HPl.
    assert (inject_Z (2 ^ p) == 2 * inject_Z (2 ^ (p - 1)))%Q as E2. { rewrite <- (inject_Z_mult 2), <- Z.pow_succ_r by lia. assert (Z.succ (p - 1) = p) as -> by lia. done. }
    pose proof (pow2_pos (x - p)). rewrite E2. nra. }
  destruct (Z.eqb_spec m2 (2 ^ p)) as [E|E].
  - assert (inject_Z (2 ^ p) - (1 # 2) <= u)%Q as Hhalf.
    { destruct (Hnear (2 ^ p - 1)) as [H _]. rewrite E in H. rewrite (Qabs_pos (inject_Z (2 ^ p) - u)) in H by lra.
      assert (inject_Z (2 ^ p - 1) == inject_Z (2 ^ p) - 1)%Q as Ep by (by rewrite <- Z.add_opp_r, inject_Z_plus). rewrite Ep in H.
      absq (inject_Z (2 ^ p) - 1 - u)%Q; lra. }
    apply Hres.
    + replace (2 ^ (p - 1)) with (1 * 2 ^ (p - 1)) by lia. rewrite E, scale_shift by lia. replace (2 ^ p) with (1 * 2 ^ p) by lia. rewrite scale_shift by lia. replace (e1 + 1 + (p - 1)) with (e1 + p) by lia. done.
    + apply Z.pow_nonneg. lia.
    + apply Z.pow_lt_mono_r; lia.
    + lia.
    + by right.
    + intros Hl. destruct (Z.eq_dec e1 (x - p)) as [Ee|Ee]; [|apply Hbig; lia]. rewrite HT, Hq. unfold P. rewrite Ee. pose proof (pow2_pos (x - p)). nra.
    + intros [H0|Hl]; [assert (0 < 2 ^ (p - 1)) by (apply Z.pow_pos_nonneg; lia); lia|]. apply Hsmall. lia.
    + intros _. rewrite Z.even_pow by lia. done.
  - apply Hres; [done|lia|lia|done| |apply Hbig| |done].
    + destruct Hn as [Hn|Hn]; [by left|right]. lia.
    + intros Hl. destruct (Z.lt_ge_cases e1 (x - p)) as [|Hge]; [by apply Hsmall|].
      assert (u < inject_Z (2 ^ p) - (1 # 2))%Q as Hhalf.
      { destruct (Hnear (2 ^ p)) as [H H']. assert (inject_Z m2 <= inject_Z (2 ^ p) - 1)%Q as Hm. { assert (inject_Z (2 ^ p - 1) == inject_Z (2 ^ p) - 1)%Q as <- by (by rewrite <- Z.add_opp_r, inject_Z_plus). apply inj_le. lia. }
        rewrite (Qabs_pos (inject_Z (2 ^ p) - u)) in H, H' by lra.
        destruct (Qlt_le_dec u (inject_Z (2 ^ p) - (1 # 2))) as [|Hge']; [done|exfalso].
        absq (inject_Z m2 - u)%Q; [lra|]. assert (- (inject_Z m2 - u) == inject_Z (2 ^ p) - u)%Q as He' by lra. destruct (H' He') as [E'|E']; [done|].
        assert (m2 = 2 ^ p - 1) as Em. { destruct (Z.lt_ge_cases m2 (2 ^ p - 1)) as [Hl'|Hl']; [|lia]. exfalso. assert (inject_Z (m2 + 1) < inject_Z (2 ^ p))%Q as Hi by (apply inj_lt; lia). rewrite inj_succ in Hi. assert (inject_Z (m2 + 2) <= inject_Z (2 ^ p))%Q as Hi2 by (apply inj_le; lia). rewrite inject_Z_plus in Hi2. change (inject_Z 2) with 2%Q in Hi2. lra. }
        rewrite Em in E'. rewrite Z.even_sub, Z.even_pow in E' by lia. done. }
      destruct Hl as [H0|Hl].
      * destruct Hn as [Hn|Hn]; [unfold emin in *; lia|]. exfalso. assert (0 < 2 ^ (p - 1)) by (apply Z.pow_pos_nonneg; lia).
        lia.
      * assert (e1 = x - p) as Ee by lia. rewrite HT, Hq. unfold P. rewrite Ee. pose proof (pow2_pos (x - p)). nra.
Qed.

Lemma nearest_eq q q' f : (q == q')%Q -> nearest p x q f -> nearest p x q' f.
Proof.
  intros E [Hv H]. split; [done|]. destruct f as [s|s| |s m e]; try done.
  - destruct H as [H1 (v & Ev & H2)]. split; [by rewrite <- E|]. exists v. split; [done|]. intros M e HM. rewrite <- E. by apply H2.
  - by destruct s; rewrite <- E.
  - destruct H as [H1 (v & Ev & H2)]. split; [by rewrite <- E|]. exists v. split; [done|]. intros M e' HM. rewrite <- E. by apply H2.
Qed.
Lemma too_large_pos : (0 < too_large p x)%Q.
Proof. rewrite too_large_eq. pose proof (pow2_pos (x - p)). assert (1 < inject_Z (2 ^ p))%Q by (apply (inj_lt 1), Z.pow_gt_1; lia). nra. Qed.
Lemma number_small m e : number p x m e -> (Qabs (scale m e) < too_large p x)%Q.
Proof.
  intros [Hm He]. rewrite too_large_eq. unfold scale. rewrite Qabs_Qmult, (Qabs_pos (Qpower 2 e)) by (pose proof (pow2_pos e); lra). assert (Qabs (inject_Z m) == inject_Z (Z.abs m))%Q as -> by done.
  assert (inject_Z (Z.abs m) <= inject_Z (2 ^ p - 1))%Q as H by (apply inj_le; lia). rewrite <- Z.add_opp_r, inject_Z_plus, inject_Z_opp in H. change (inject_Z 1) with 1%Q in H.
  pose proof (pow2_le e (x - p) ltac:(lia)). pose proof (pow2_pos e). assert (1 < inject_Z (2 ^ p))%Q by (apply (inj_lt 1), Z.pow_gt_1; lia).
  set (N := inject_Z (2 ^ p)) in *. set (A := inject_Z (Z.abs m)) in *. apply (Qle_lt_trans _ ((N - 1) * Qpower 2 e)); [nra|]. apply (Qle_lt_trans _ ((N - 1) * Qpower 2 (x - p))); nra.
Qed.
Lemma valid_number s m e : bounded p x m e = true -> number p x (cond_Zopp s (Zpos m)) e.
Proof.
  unfold bounded, canonical_mantissa. rewrite andb_true_iff. intros [B1 B2]. apply Zeq_bool_eq in B1. apply Z.leb_le in B2. unfold fexp, emin in B1.
  pose proof (digits_spec m) as [_ H]. assert (2 ^ Zpos (digits2_pos m) <= 2 ^ p) by (apply Z.pow_le_mono_r; lia). unfold number. split; [|lia]. destruct s; cbn; lia.
Qed.
Lemma value_number f v : valid_binary p x f = true -> sf_value f = Some v -> exists m e, number p x m e /\ (v == scale m e)%Q.
Proof.
  intros Hv Ev. destruct f as [s|s| |s m e]; cbn in Ev; try done; apply (inj Some) in Ev as <-.
  - exists 0, (x - p). split; [|done]. split; [by apply Z.pow_pos_nonneg; lia|]. lia.
  - exists (cond_Zopp s (Zpos m)), e. split; [by apply valid_number|]. cbn [this Q2Qc]. rewrite Qred_correct. fold (sq s m e). apply sq_scale.
Qed.
Lemma nearest_self q f v : valid_binary p x f = true -> sf_value f = Some v -> (v == q)%Q -> nearest p x q f.
Proof.
  intros Hv Ev E. destruct (value_number f v Hv Ev) as (m & e & Hn & Es). split; [done|].
  assert (Qabs q < too_large p x /\ exists v, sf_value f = Some v /\ forall M e, number p x M e ->
        Qabs (v - q) <= Qabs (scale M e - q) /\ (Qabs (v - q) == Qabs (scale M e - q) -> v == scale M e \/ even_significand f))%Q as H.
  { split. { rewrite <- E, Es. by apply number_small. } exists v. split; [done|]. intros M e' HM. assert (Qabs (v - q) == 0)%Q as ->. { rewrite E. unfold Qminus. rewrite Qplus_opp_r. done. }
    split; [apply Qabs_nonneg|]. intros H0. left. absq (scale M e' - q)%Q; lra. }
  destruct f; done.
Qed.
Lemma round_nearest s m e : nearest p x (sgn s (scale (Zpos m) e)) (binary_round p x s m e).
Proof.
  unfold binary_round. destruct (shl_align m e (fexp p x (Zpos (digits2_pos m) + e))) as [mz ez] eqn:E.
  assert ((scale (Zpos mz) ez == scale (Zpos m) e)%Q /\ ez <= fexp p x (Zdigits2 (Zpos mz) + ez)) as [Hs He].
  { unfold shl_align in E. set (f := fexp p x (Zpos (digits2_pos m) + e)) in *. destruct (f - e) as [|k|k] eqn:Ek; injection E as <- <-.
    - split; [done|]. cbn [Zdigits2]. fold f. lia.
    - split; [done|]. cbn [Zdigits2]. fold f. lia.
    - assert (Zpos (shift_pos k m) = Zpos m * 2 ^ Zpos k) as Ez by (rewrite shift_pos_correct; unfold Z.pow; lia). split.
      + rewrite Ez, scale_shift by lia. replace (f + Zpos k) with e by lia. done.
      + cbn [Zdigits2]. rewrite digits_log, Ez, Z.log2_mul_pow2 by lia. pose proof (digits_log m) as Hd.
        replace (Zpos k + Z.log2 (Zpos m) + 1 + f) with (Zpos (digits2_pos m) + e) by lia. fold f. lia. }
  pose proof (round_aux_nearest s (Zpos mz) 1 ez ltac:(lia) ltac:(lia)) as H. rewrite Z.div_1_r, Z.mod_1_r in H. specialize (H He).
  revert H. change (locf 0 1) with loc_Exact. apply nearest_eq. destruct s; unfold sgn; rewrite <- Hs; unfold scale; change (inject_Z 1) with 1%Q; field.
Qed.

Lemma normalize_nearest z e s : nearest p x (scale z e) (binary_normalize p x z e s).
Proof.
  destruct z as [|m|m]; cbn [binary_normalize].
  - apply (nearest_self _ _ 0%Qc); [done|done|]. unfold scale. change (inject_Z 0) with 0%Q. change (this 0%Qc) with 0%Q. lra.
  - apply (round_nearest false).
  - eapply nearest_eq; [|apply (round_nearest true m e)]. unfold sgn, scale. change (Zneg m) with (Z.opp (Zpos m)). rewrite inject_Z_opp. lra.
Qed.
Lemma align_mul m e z : z <= e -> Zpos (shl_align m e z).1 = Zpos m * 2 ^ (e - z).
Proof.
  intros H. unfold shl_align. destruct (z - e) as [|k|k] eqn:E; [|lia|].
  - replace (e - z) with 0 by lia. cbn. lia.
  - cbn [fst]. rewrite shift_pos_correct. replace (e - z) with (Zpos k) by lia. unfold Z.pow. lia.
Qed.
Lemma align_scale s m e z : z <= e -> (scale (cond_Zopp s (Zpos (shl_align m e z).1)) z == sq s m e)%Q.
Proof.
  intros H. rewrite sq_scale, align_mul by done. replace (cond_Zopp s (Zpos m * 2 ^ (e - z))) with (cond_Zopp s (Zpos m) * 2 ^ (e - z)) by (destruct s; cbn [cond_Zopp]; lia).
  rewrite scale_shift by lia. replace (z + (e - z)) with e by lia. done.
Qed.
Lemma scale_add a b e : (scale (a + b) e == scale a e + scale b e)%Q.
Proof. unfold scale. rewrite inject_Z_plus. ring. Qed.
Lemma scale_sub a b e : (scale (a - b) e == scale a e - scale b e)%Q.
Proof. unfold scale. rewrite <- Z.add_opp_r, inject_Z_plus, inject_Z_opp. ring. Qed.
Lemma fval_zero s q : fval (S754_zero s) q -> (q == 0)%Q.
Proof. intros (v & E & H). apply (inj Some) in E as <-. by rewrite <- H. Qed.
Lemma fval_finite s m e q : fval (S754_finite s m e) q -> (q == sq s m e)%Q.
Proof. intros (v & E & H). apply (inj Some) in E as <-. rewrite <- H. cbn [this Q2Qc]. rewrite Qred_correct. done. Qed.
Lemma nearest_fval q f q' : valid_binary p x f = true -> fval f q' -> (q' == q)%Q -> nearest p x q f.
Proof. intros Hv (v & Ev & E) E'. apply (nearest_self _ _ v Hv Ev). by rewrite E. Qed.
Lemma add_nearest f g a b : valid_binary p x f = true -> valid_binary p x g = true -> fval f a -> fval g b -> nearest p x (a + b) (SFadd p x f g).
Proof.
  intros Vf Vg Ha Hb. destruct f as [s|s| |s m e]; try (by destruct Ha as (? & ? & ?)); destruct g as [s'|s'| |s' m' e']; try (by destruct Hb as (? & ? & ?)); cbn [SFadd].
  - pose proof (fval_zero _ _ Ha). pose proof (fval_zero _ _ Hb). destruct (Bool.eqb s s'); (eapply (nearest_fval _ _ 0%Q); [done|by exists 0%Qc|lra]).
  - pose proof (fval_zero _ _ Ha). apply (nearest_fval _ _ b); [done|done|lra].
  - pose proof (fval_zero _ _ Hb). apply (nearest_fval _ _ a); [done|done|lra].
  - apply fval_finite in Ha, Hb. eapply nearest_eq; [|apply normalize_nearest]. rewrite scale_add, !align_scale by lia. by rewrite Ha, Hb.
Qed.
Lemma sub_nearest f g a b : valid_binary p x f = true -> valid_binary p x g = true -> fval f a -> fval g b -> nearest p x (a - b) (SFsub p x f g).
Proof.
  intros Vf Vg Ha Hb. destruct f as [s|s| |s m e]; try (by destruct Ha as (? & ? & ?)); destruct g as [s'|s'| |s' m' e']; try (by destruct Hb as (? & ? & ?)); cbn [SFsub].
  - pose proof (fval_zero _ _ Ha). pose proof (fval_zero _ _ Hb). destruct (Bool.eqb s (negb s')); (eapply (nearest_fval _ _ 0%Q); [done|by exists 0%Qc|lra]).
  - pose proof (fval_zero _ _ Ha). apply fval_finite in Hb. apply (nearest_fval _ _ (sq (negb s') m' e')); [done| |].
    + eexists. split; [done|]. cbn [this Q2Qc]. by rewrite Qred_correct.
    + rewrite H, Hb, !sq_scale. unfold scale. destruct s'; cbn [negb cond_Zopp]; rewrite inject_Z_opp; ring.
  - pose proof (fval_zero _ _ Hb). apply (nearest_fval _ _ a); [done|done|lra].
  - apply fval_finite in Ha, Hb. eapply nearest_eq; [|apply normalize_nearest]. rewrite scale_sub, !align_scale by lia. by rewrite Ha, Hb.
Qed.
Lemma sgn_mul s s' a b : (sgn s a * sgn s' b == sgn (xorb s s') (a * b))%Q.
Proof. destruct s, s'; unfold sgn; cbn; ring. Qed.
Lemma sq_sgn s m e : (sq s m e == sgn s (scale (Zpos m) e))%Q.
Proof. rewrite sq_scale. unfold sgn, scale. destruct s; cbn [cond_Zopp]; [rewrite inject_Z_opp; ring|done]. Qed.
Lemma sgn_eq s a b : (a == b -> sgn s a == sgn s b)%Q.
Proof. intros H. destruct s; unfold sgn; by rewrite H. Qed.
Lemma mul_nearest f g a b : valid_binary p x f = true -> valid_binary p x g = true -> fval f a -> fval g b -> nearest p x (a * b) (SFmul p x f g).
Proof.
  intros Vf Vg Ha Hb. destruct f as [s|s| |s m e]; try (by destruct Ha as (? & ? & ?)); destruct g as [s'|s'| |s' m' e']; try (by destruct Hb as (? & ? & ?)); cbn [SFmul].
  - pose proof (fval_zero _ _ Ha). eapply (nearest_fval _ _ 0%Q); [done|by exists 0%Qc|nra].
  - pose proof (fval_zero _ _ Ha). eapply (nearest_fval _ _ 0%Q); [done|by exists 0%Qc|nra].
  - pose proof (fval_zero _ _ Hb). eapply (nearest_fval _ _ 0%Q); [done|by exists 0%Qc|nra].
  - apply fval_finite in Ha, Hb. pose proof (round_aux_nearest (xorb s s') (Zpos (m * m')) 1 (e + e') ltac:(lia) ltac:(lia)) as H. rewrite Z.div_1_r, Z.mod_1_r in H.
    eapply nearest_eq; [|apply H].
    + rewrite Ha, Hb, !sq_sgn, sgn_mul. apply sgn_eq. unfold scale. rewrite pow2_add, Pos2Z.inj_mul, inject_Z_mult. change (inject_Z 1) with 1%Q. field.
    + cbn in Vf, Vg. unfold bounded, canonical_mantissa in Vf, Vg. apply andb_true_iff in Vf as [Vf _], Vg as [Vg _]. apply Zeq_bool_eq in Vf, Vg.
      cbn [Zdigits2]. assert (Zpos (digits2_pos m) + Zpos (digits2_pos m') - 1 <= Zpos (digits2_pos (m * m'))) as Hd.
      { rewrite !digits_log, Pos2Z.inj_mul. pose proof (Z.log2_mul_below (Zpos m) (Zpos m') ltac:(lia) ltac:(lia)). lia. }
      unfold fexp, emin in *. lia.
Qed.
Lemma div_nearest f g a b : valid_binary p x f = true -> valid_binary p x g = true -> fval f a -> fval g b -> ~ (b == 0)%Q -> nearest p x (a / b) (SFdiv p x f g).
Proof.
  intros Vf Vg Ha Hb Hb0. destruct f as [s|s| |s m e]; try (by destruct Ha as (? & ? & ?)); destruct g as [s'|s'| |s' m' e']; try (by destruct Hb as (? & ? & ?)); cbn [SFdiv].
  - exfalso. apply Hb0. by apply fval_zero in Hb.
  - pose proof (fval_zero _ _ Ha) as H. eapply (nearest_fval _ _ 0%Q); [done|by exists 0%Qc|]. rewrite H. by field.
  - exfalso. apply Hb0. by apply fval_zero in Hb.
  - apply fval_finite in Ha, Hb. unfold SFdiv_core_binary. cbn [Zdigits2]. set (d := Zpos (digits2_pos m)). set (d' := Zpos (digits2_pos m')).
    set (ez := Z.min (fexp p x (d + e - (d' + e'))) (e - e')). set (k := e - e' - ez).
    assert (match k with 0 => Zpos m | Zpos _ => Z.shiftl (Zpos m) k | Zneg _ => 0 end = Zpos m * 2 ^ k) as ->.
    { destruct k as [|j|j] eqn:Ek; [lia|by rewrite Z.shiftl_mul_pow2|lia]. }
    assert (0 < 2 ^ k) as Hk by (apply Z.pow_pos_nonneg; lia). set (X := Zpos m * 2 ^ k). assert (0 < X) as HX by (unfold X; lia).
    destruct (Z.div_eucl X (Zpos m')) as [q r] eqn:Eq. assert (q = X / Zpos m') as -> by (unfold Z.div; by rewrite Eq). assert (r = X mod Zpos m') as -> by (unfold Z.modulo; by rewrite Eq).
    rewrite new_location_locf by lia. eapply nearest_eq; [|apply round_aux_nearest; [lia|lia|]].
    + pose proof (pow2_pos e'). assert (0 < inject_Z (Zpos m'))%Q by (by apply (inj_lt 0)). assert (0 < scale (Zpos m') e')%Q by (unfold scale; nra).
      assert (inject_Z X / inject_Z (Zpos m') * Qpower 2 ez == scale (Zpos m) e / scale (Zpos m') e')%Q as Hmag.
      { unfold scale, X. rewrite inject_Z_mult, <- pow2_Z by lia.
        assert (Qpower 2 e == Qpower 2 e' * Qpower 2 k * Qpower 2 ez)%Q as ->. { rewrite <- !pow2_add. replace (e' + k + ez) with e by lia. done. }
        field. split; lra. }
      rewrite Ha, Hb, !sq_sgn. destruct s, s'; unfold sgn; cbn [xorb]; rewrite Hmag; field; lra.
    + pose proof (digits_bounds (Zpos m) ltac:(lia)) as [M1 M2]. pose proof (digits_bounds (Zpos m') ltac:(lia)) as [N1 N2]. cbn [Zdigits2] in *. fold d in M1, M2. fold d' in N1, N2.
      assert (d + k - d' <= Zdigits2 (X / Zpos m')) as Hd.
      { destruct (Z.le_gt_cases (d + k - d') 0) as [Hle|Hgt]; [pose proof (Z.div_pos X (Zpos m') ltac:(lia) ltac:(lia)); destruct (X / Zpos m'); cbn; lia|].
        replace (d + k - d') with (d + k - d' - 1 + 1) by lia. apply digits_gt; [lia|]. apply Z.div_le_lower_bound; [lia|].
        apply (Z.le_trans _ (2 ^ d' * 2 ^ (d + k - d' - 1))); [assert (0 < 2 ^ (d + k - d' - 1)) by (apply Z.pow_pos_nonneg; lia); nia|].
        rewrite <- Z.pow_add_r by lia. replace (d' + (d + k - d' - 1)) with (d - 1 + k) by lia. rewrite Z.pow_add_r by lia. unfold X. nia. }
      apply (Z.le_trans _ (fexp p x (d + e - (d' + e')))); [lia|]. unfold fexp. lia.
Qed.
End format.
