(** The model's element operations against the C++ specification. *)
From Verif.Spec Require Export Result.
From Verif.Proofs Require Export Cells.

Lemma larger_join a b : larger_type a b = dt_join a b.
Proof. by destruct a, b. Qed.
Lemma innc_common_join a b : innc_common a b = dt_join a b.
Proof. by destruct a, b. Qed.
Lemma bits_width t : bits_of t = width t.
Proof. by destruct t. Qed.
Lemma width_pos t : 0 < width t.
Proof. by destruct t. Qed.
Lemma is_float_floating t : is_float t = floating t.
Proof. by destruct t. Qed.
Lemma is_int_floating t : is_int t = negb (floating t).
Proof. by destruct t. Qed.
Lemma fty_of_fmt t : fty_of t = fmt t.
Proof. by destruct t. Qed.
Lemma fits_in_width t z : fits_int t z = in_width (width t) z.
Proof. unfold fits_int, in_width. by rewrite bits_width. Qed.
Lemma pow_split w : 0 < w -> 2 ^ w = 2 * 2 ^ (w - 1).
Proof. intros. rewrite <- Z.pow_succ_r by lia. f_equal. lia. Qed.
Lemma wrap_reduce t z : wrap_int t z = reduce (width t) z.
Proof.
  unfold wrap_int, reduce. rewrite bits_width. pose proof (width_pos t) as Hw.
  rewrite (pow_split _ Hw). set (h := 2 ^ (width t - 1)).
  assert (0 < h) by (apply Z.pow_pos_nonneg; lia).
  pose proof (Z.div_mod z (2 * h) ltac:(lia)).
  pose proof (Z.mod_pos_bound z (2 * h) ltac:(lia)).
  cbv zeta. destruct (Z.ltb_spec (z mod (2 * h)) h).
  - assert ((z + h) mod (2 * h) = z mod (2 * h) + h); [|lia].
    symmetry. apply Z.mod_unique with (z / (2 * h)); lia.
  - assert ((z + h) mod (2 * h) = z mod (2 * h) - h); [|lia].
    symmetry. apply Z.mod_unique with (z / (2 * h) + 1); lia.
Qed.
Lemma in_width_spec w z : in_width w z = true <-> - 2 ^ (w - 1) <= z < 2 ^ (w - 1).
Proof. unfold in_width. lia. Qed.
Lemma reduce_id w z : 0 < w -> in_width w z = true -> reduce w z = z.
Proof.
  intros Hw H. apply in_width_spec in H. unfold reduce. rewrite (pow_split _ Hw).
  set (h := 2 ^ (w - 1)) in *. cbv zeta.
  destruct (Z.ltb_spec z 0).
  - assert (z mod (2 * h) = z + 2 * h) as ->.
    { symmetry. apply Z.mod_unique with (-1); lia. }
    destruct (Z.ltb_spec (z + 2 * h) h); lia.
  - rewrite Z.mod_small by lia. destruct (Z.ltb_spec z h); lia.
Qed.
Lemma reduce_in w z : 0 < w -> in_width w (reduce w z) = true.
Proof.
  intros Hw. apply in_width_spec. unfold reduce. rewrite (pow_split _ Hw).
  set (h := 2 ^ (w - 1)). assert (0 < h) by (apply Z.pow_pos_nonneg; lia). cbv zeta.
  pose proof (Z.mod_pos_bound z (2 * h) ltac:(lia)).
  destruct (Z.ltb_spec (z mod (2 * h)) h); lia.
Qed.
Lemma reduce_congr w z : 0 < w -> (reduce w z) mod 2 ^ w = z mod 2 ^ w.
Proof.
  intros Hw. unfold reduce. cbv zeta. set (m := z mod 2 ^ w).
  destruct (_ <? _).
  - unfold m. by rewrite Z.mod_mod by (pose proof (Z.pow_pos_nonneg 2 w); lia).
  - replace (m - 2 ^ w) with (m + (-1) * 2 ^ w) by lia. rewrite Z_mod_plus_full.
    unfold m. by rewrite Z.mod_mod by (pose proof (Z.pow_pos_nonneg 2 w); lia).
Qed.
Lemma in_width_mono w w' z : 0 < w <= w' -> in_width w z = true -> in_width w' z = true.
Proof.
  rewrite !in_width_spec. intros H Hz.
  assert (2 ^ (w - 1) <= 2 ^ (w' - 1)) by (apply Z.pow_le_mono_r; lia). lia.
Qed.

Section with_fops.
Context {fo : FOps}.

Lemma cvt_cpp S D v :
  cvt S D v = match cpp_cvt S D v with Some w => Ok w | None => UB FloatRange end.
Proof.
  unfold cvt, cpp_cvt, to_float, conv. rewrite is_int_floating, fty_of_fmt. destruct v as [z|f].
  - destruct (floating D); simpl; [done|]. by rewrite wrap_reduce.
  - destruct (floating D); simpl; [by case_bool_decide|]. destruct (f_trunc f) as [z|]; [|done].
    rewrite fits_in_width. by destruct (in_width _ z).
Qed.

Lemma prom_float L R : floating L || floating R = true -> prom L R = common_float L R.
Proof. by destruct L, R. Qed.
Lemma prom_int L R :
  floating L || floating R = false ->
  floating (prom L R) = false /\ width (prom L R) = common_width L R /\
  width L <= width (prom L R) /\ width R <= width (prom L R).
Proof. destruct L, R; try done; intros _; repeat split; simpl; lia. Qed.
Lemma floating_common L R : floating (common_float L R) = true.
Proof. by destruct L, R. Qed.



Lemma has_ty_int t z : has_ty t (VI z) <-> floating t = false /\ in_width (width t) z = true.
Proof.
  simpl. rewrite is_int_floating, fits_in_width. destruct (floating t); simpl; intuition congruence.
Qed.
Lemma has_ty_float t f : has_ty t (VF f) <-> floating t = true.
Proof. simpl. by rewrite is_float_floating. Qed.

Lemma binop_cpp o L R D a b :
  has_ty L a -> has_ty R b ->
  floating D = floating L || floating R ->
  match cpp_arith o L R D a b with
  | Some w => obind (binop o L R a b) (cvt (prom L R) D) = Ok w /\ has_ty D w
  | None => exists u, obind (binop o L R a b) (cvt (prom L R) D) = UB u /\ arith_ub u
  end.
Proof.
  intros Ha Hb HD. unfold cpp_arith, binop. destruct (floating L || floating R) eqn:Hf.
  - rewrite prom_float by done. split; [|by apply has_ty_float].
    rewrite !cvt_cpp. unfold cpp_cvt at 1 2. rewrite floating_common. cbn [obind].
    unfold arith. rewrite fty_of_fmt. cbn [obind].
    rewrite cvt_cpp. unfold cpp_cvt. rewrite HD. simpl.
    unfold fop. by destruct o.
  - destruct (prom_int L R Hf) as (Hpf & Hpw & HwL & HwR).
    apply orb_false_elim in Hf as [HfL HfR].
    destruct a as [x|f]; [|apply has_ty_float in Ha; congruence].
    destruct b as [y|f]; [|apply has_ty_float in Hb; congruence].
    apply has_ty_int in Ha as [_ Ha], Hb as [_ Hb].
    pose proof (width_pos L). pose proof (width_pos R).
    rewrite !cvt_cpp. unfold cpp_cvt. rewrite Hpf. cbn [obind].
    rewrite !reduce_id by (lia || (eapply in_width_mono; [|eassumption]; lia)).
    unfold arith, int_chk. rewrite !fits_in_width, Hpw. unfold zop.
    destruct o.
    all: try (destruct (in_width (common_width L R) _) eqn:Ew;
      [cbn [obind]; rewrite cvt_cpp; unfold cpp_cvt; rewrite HD; split; [done|];
       apply has_ty_int; split; [done|]; apply reduce_in, width_pos
      |exists SignedOverflow; split; [done|by left]]).
    destruct (Z.eqb_spec y 0) as [->|Hy].
    + exists DivByZero. split; [done|by right].
    + destruct (in_width (common_width L R) _) eqn:Ew.
      * cbn [obind]. rewrite cvt_cpp. unfold cpp_cvt. rewrite HD. split; [done|].
        apply has_ty_int. split; [done|]. apply reduce_in, width_pos.
      * exists SignedOverflow. split; [done|by left].
Qed.

Lemma cmpop_cpp c L R a b :
  has_ty L a -> has_ty R b -> cmpop c L R a b = Ok (cpp_cmp c L R a b).
Proof.
  intros Ha Hb. unfold cpp_cmp, cmpop. destruct (floating L || floating R) eqn:Hf.
  - rewrite prom_float by done. rewrite !cvt_cpp. unfold cpp_cvt.
    rewrite floating_common. cbn [obind]. unfold compare_vals, fcmp. by destruct c.
  - destruct (prom_int L R Hf) as (Hpf & Hpw & HwL & HwR).
    apply orb_false_elim in Hf as [HfL HfR].
    destruct a as [x|f]; [|apply has_ty_float in Ha; congruence].
    destruct b as [y|f]; [|apply has_ty_float in Hb; congruence].
    apply has_ty_int in Ha as [_ Ha], Hb as [_ Hb].
    pose proof (width_pos L). pose proof (width_pos R).
    rewrite !cvt_cpp. unfold cpp_cvt. rewrite Hpf. cbn [obind].
    rewrite !reduce_id by (lia || (eapply in_width_mono; [|eassumption]; lia)).
    unfold compare_vals, zcmp. by destruct c.
Qed.

Lemma cpp_arith_comm o L R D a b :
  f_commutative fo -> o = AAdd \/ o = AMul ->
  cpp_arith o L R D a b = cpp_arith o R L D b a.
Proof.
  intros Hc Ho. unfold cpp_arith. rewrite (orb_comm (floating L)).
  assert (common_float L R = common_float R L) as -> by (by destruct L, R).
  assert (common_width L R = common_width R L) as -> by (by destruct L, R).
  destruct (floating R || floating L).
  - do 3 f_equal. unfold fop. destruct (Hc (fmt (common_float R L)) (to_float L (common_float R L) a)
      (to_float R (common_float R L) b)) as [H1 H2]. by destruct Ho as [->| ->].
  - destruct a, b; try done. destruct Ho as [->| ->]; simpl.
    + by rewrite Z.add_comm. + by rewrite Z.mul_comm.
Qed.

Lemma cpp_cvt_ty S D v w : cpp_cvt S D v = Some w -> has_ty D w.
Proof.
  unfold cpp_cvt. destruct (floating D) eqn:E.
  - intros [= <-]. by apply has_ty_float.
  - destruct v as [z|f].
    + intros [= <-]. apply has_ty_int. split; [done|apply reduce_in, width_pos].
    + destruct (f_trunc f) as [z|]; [|done]. destruct (in_width _ z) eqn:Ew; [|done].
      intros [= <-]. by apply has_ty_int.
Qed.
End with_fops.
