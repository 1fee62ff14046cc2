(** Least squares. *)
From Verif.Proofs Require Export Train Calculus.
From Verif.Spec Require Export Fit.
From Verif.Model Require Export Exact Api.
From Coq Require Import Qround.
#[local] Existing Instance Exact.
#[local] Open Scope Qc_scope.

Section fit.
Context (h : heap) (x w y c : nat).
Hypothesis Hx : x <> w.
Hypothesis Hy : y <> w.
Hypothesis Hc : c <> w.
Local Notation e := (fit x w y).
Local Notation stp := (descent h (fit x w y) c [w]).

Lemma at_add i f g : at_element h x w y i f + at_element h x w y i g = at_element h x w y i (fun idx => f idx + g idx).
Proof. unfold at_element. rewrite sum_over_add. apply sum_over_ext. intros idx _. case_decide; ring. Qed.
Lemma at_scale i k f : k * at_element h x w y i f = at_element h x w y i (fun idx => k * f idx).
Proof. unfold at_element. rewrite sum_over_scale. apply sum_over_ext. intros idx _. case_decide; ring. Qed.
Lemma at_ext i f g : (forall idx, in_range (form h e) idx -> bidx (shape_of h w) idx = i -> f idx = g idx) -> at_element h x w y i f = at_element h x w y i g.
Proof. intros E. unfold at_element. apply sum_over_ext. intros idx Hi. case_decide; [auto|done]. Qed.
Lemma seen_put f idx a : a <> w -> seen h (put h w f) idx a = reads h idx a.
Proof. intros Ha. unfold seen, put, reads. by rewrite decide_False. Qed.
Lemma seen_put_w f idx : seen h (put h w f) idx w = f (bidx (shape_of h w) idx).
Proof. unfold seen, put. by rewrite decide_True. Qed.
Lemma best_eq i : gram h x w y i <> 0 -> at_element h x w y i (fun idx => reads h idx x * reads h idx y) = gram h x w y i * best h x w y i.
Proof. intros Hg. unfold best. field. done. Qed.
Lemma fit_rate V i : (forall a j, a <> w -> V a j = value h a j) -> gram h x w y i <> 0 -> loss_rate h e V w i = (1 + 1) * gram h x w y i * (V w i - best h x w y i).
Proof.
  intros HV Hg. transitivity (at_element h x w y i (fun idx => ((1 + 1) * V w i) * (reads h idx x * reads h idx x) + (- (1 + 1)) * (reads h idx x * reads h idx y))).
  - unfold loss_rate, at_element. apply sum_over_ext. intros idx _. case_decide as Ei; [|done]. unfold fit. cbn [rate eval calc].
    rewrite (decide_False (P := x = w)), (decide_False (P := y = w)), (decide_True (P := w = w)) by done. unfold seen. rewrite Ei, !(HV x), !(HV y) by done. unfold reads. ring.
  - rewrite <- at_add, <- !at_scale. fold (gram h x w y i). rewrite (best_eq i Hg). ring.
Qed.
Lemma iter_other V n a i : a <> w -> Nat.iter n stp V a i = V a i.
Proof.
  intros Ha. induction n as [|n IH]; [done|]. rewrite Nat.iter_succ. unfold descent at 1. rewrite decide_False; [done|]. rewrite elem_of_list_singleton. done.
Qed.
Lemma iter_w n i : gram h x w y i <> 0 -> Nat.iter n stp (value h) w i = nearer h x w y c n i.
Proof.
  intros Hg. induction n as [|n IH].
  { change (Nat.iter 0 stp (value h)) with (value h). unfold nearer. change (factor h x w y c i ^ 0) with 1. ring. }
  rewrite Nat.iter_succ. set (V := Nat.iter n stp (value h)) in *. assert (forall a j, a <> w -> V a j = value h a j) as HV by (intros a j Ha; by apply iter_other).
  assert (stp V w i = V w i + reads h i c * loss_rate h e V w i) as ->. { unfold descent. rewrite decide_True by mem. rewrite (HV c) by done. done. }
  rewrite (fit_rate V i HV Hg), IH. unfold nearer, factor. cbn [Qcpower]. ring.
Qed.
(** the sum splits by the elements of w *)
Lemma split_sum (f g : list Z -> Qc) : (forall idx, in_range (form h e) idx -> in_range (shape_of h w) (bidx (shape_of h w) idx)) ->
  sum_over (form h e) (fun idx => g (bidx (shape_of h w) idx) * f idx) = sum_over (shape_of h w) (fun i => g i * at_element h x w y i f).
Proof.
  intros Hin. transitivity (sum_over (form h e) (fun idx => sum_over (shape_of h w) (fun i => if decide (bidx (shape_of h w) idx = i) then g i * f idx else 0))).
  - apply sum_over_ext. intros idx Hi. unfold sum_over. rewrite (sumq_one _ _ (bidx (shape_of h w) idx)).
    + by rewrite decide_True.
    + apply NoDup_indices.
    + apply elem_of_indices. auto.
    + intros j _ Hne. by rewrite decide_False.
  - unfold sum_over at 1 2. rewrite sumq_swap. apply sum_over_ext. intros i _. unfold at_element. rewrite sum_over_scale. apply sum_over_ext. intros idx _. case_decide; ring.
Qed.
Lemma fit_loss V : (forall a j, a <> w -> V a j = value h a j) ->
  loss h e V = sum_over (form h e) (fun idx => (reads h idx x * V w (bidx (shape_of h w) idx) - reads h idx y) * (reads h idx x * V w (bidx (shape_of h w) idx) - reads h idx y)).
Proof. intros HV. unfold loss. apply sum_over_ext. intros idx _. unfold fit. cbn [eval calc]. unfold seen. rewrite !(HV x), !(HV y) by done. done. Qed.
Lemma put_other f a j : a <> w -> put h w f a j = value h a j.
Proof. intros Ha. unfold put. by rewrite decide_False. Qed.
Lemma put_w f j : put h w f w j = f j.
Proof. unfold put. by rewrite decide_True. Qed.
Lemma sum_squares ss (f : list Z -> Qc) : 0 <= sum_over ss (fun i => f i * f i).
Proof.
  unfold sum_over. induction (indices ss) as [|i l IH]; [done|]. cbn [map sumq foldr]. fold (sumq (map (fun i => f i * f i) l)). revert IH. generalize (sumq (map (fun i => f i * f i) l)), (f i). qc_nra.
Qed.
Lemma best_least f : (forall idx, in_range (form h e) idx -> in_range (shape_of h w) (bidx (shape_of h w) idx)) -> (forall i, in_range (shape_of h w) i -> gram h x w y i <> 0) ->
  loss h e (put h w f) = loss h e (put h w (best h x w y)) + sum_over (shape_of h w) (fun i => gram h x w y i * ((f i - best h x w y i) * (f i - best h x w y i))) /\
  loss h e (put h w (best h x w y)) <= loss h e (put h w f).
Proof.
  intros Hin Hg. set (B := best h x w y). rewrite (fit_loss (put h w B)), (fit_loss (put h w f)) by (intros; by apply put_other).
  set (b := bidx (shape_of h w)). set (D := fun idx => reads h idx x * (f (b idx) - B (b idx))). set (E := fun idx => reads h idx x * B (b idx) - reads h idx y).
  assert (sum_over (form h e) (fun idx => (reads h idx x * put h w f w (b idx) - reads h idx y) * (reads h idx x * put h w f w (b idx) - reads h idx y))
    = sum_over (form h e) (fun idx => (reads h idx x * put h w B w (b idx) - reads h idx y) * (reads h idx x * put h w B w (b idx) - reads h idx y))
      + (sum_over (form h e) (fun idx => D idx * D idx) + (1 + 1) * sum_over (form h e) (fun idx => (f (b idx) - B (b idx)) * (reads h idx x * E idx)))) as ->.
  { rewrite sum_over_scale, !sum_over_add. apply sum_over_ext. intros idx _. rewrite !put_w. unfold D, E. ring. }
  assert (sum_over (form h e) (fun idx => (f (b idx) - B (b idx)) * (reads h idx x * E idx)) = 0) as ->.
  { unfold b. rewrite (split_sum (fun idx => reads h idx x * E idx) (fun i => f i - B i) Hin). unfold sum_over. apply sumq_zero. intros i Hi. apply elem_of_indices in Hi.
    assert (at_element h x w y i (fun idx => reads h idx x * E idx) = 0) as ->; [|ring].
    transitivity (at_element h x w y i (fun idx => B i * (reads h idx x * reads h idx x) + (- (1)) * (reads h idx x * reads h idx y))).
    - apply at_ext. intros idx _ Ei. unfold E, b. rewrite Ei. ring.
    - rewrite <- at_add, <- !at_scale. fold (gram h x w y i). rewrite (best_eq i (Hg i Hi)). unfold B. ring. }
  pose proof (sum_squares (form h e) D) as Hs. split.
  { assert (sum_over (form h e) (fun idx => D idx * D idx) = sum_over (form h e) (fun idx => (fun i => (f i - B i) * (f i - B i)) (bidx (shape_of h w) idx) * (reads h idx x * reads h idx x))) as ->.
    { apply sum_over_ext. intros idx _. unfold D, b. ring. }
    rewrite (split_sum (fun idx => reads h idx x * reads h idx x) (fun i => (f i - B i) * (f i - B i)) Hin). rewrite Qcmult_0_r, Qcplus_0_r. f_equal. apply sum_over_ext. intros i _. unfold gram. ring. }
  revert Hs. match goal with |- _ -> ?u <= ?u + (?v + _) => generalize u, v end. clear. qc_nra.
Qed.
End fit.

Lemma rate_not_param h H e c ls a : may_train h H e c ls -> a ∈ ls -> c <> a.
Proof. intros Hm Ha ->. destruct (mt_params _ _ _ _ _ Hm a Ha) as (_ & (ra & rc & [A1 A2] & _ & A3 & [A4 A5] & A6 & _) & _). congruence. Qed.
Lemma positions h H e idx b : may_write h H e -> in_range (form h e) idx -> mentions e b -> in_range (shape_of h b) (bidx (shape_of h b) idx).
Proof. intros Hm Hi Hb. eapply reads_in; [done| | |done]; [by rewrite (in_range_length _ _ Hi)|by rewrite (Binary.bidx_self _ _ Hi)]. Qed.
Lemma fit_best h H x w y c f : may_train h H (fit x w y) c [w] -> x <> w -> y <> w -> (forall i, in_range (shape_of h w) i -> gram h x w y i <> 0) ->
  loss h (fit x w y) (put h w f) = loss h (fit x w y) (put h w (best h x w y)) + sum_over (shape_of h w) (fun i => gram h x w y i * ((f i - best h x w y i) * (f i - best h x w y i))) /\
  loss h (fit x w y) (put h w (best h x w y)) <= loss h (fit x w y) (put h w f).
Proof. intros Hm Hx Hy Hg. apply best_least; [done|done| |done]. intros idx Hi. eapply positions; [apply Hm|done|]. cbn. tauto. Qed.
Lemma fit_train n ops H h x w y c : program ops H none h -> may_train h H (fit x w y) c [w] -> zero_grads h [w] ->
  x <> w -> y <> w -> (forall i, in_range (shape_of h w) i -> gram h x w y i <> 0) ->
  exists l h', trained (fit x w y) c [w] h (map (fun k => loss h (fit x w y) (put h w (nearer h x w y c k))) (seq 0 n)) l h' /\
    program (ops ++ l) H none h' /\ forall a i, a ∈ H -> in_range (shape_of h a) i -> value h' a i = put h w (nearer h x w y c n) a i.
Proof.
  intros Hp Hm Hz Hx Hy Hg. assert (c <> w) as Hc by (eapply rate_not_param; [done|mem]).
  destruct (train n ops H h _ c [w] Hp Hm Hz) as (l & h' & Tr & P & V). exists l, h'. split; [|split; [done|]].
  - erewrite map_ext; [exact Tr|]. intros k. cbv beta. rewrite !(fit_loss h x w y Hx Hy) by (intros; (by apply put_other) || (by apply iter_other)).
    apply sum_over_ext. intros idx Hi. rewrite put_w, iter_w; [done|done|done|done|]. apply Hg. eapply positions; [apply Hm|done|]. cbn. tauto.
  - intros a i Ha Hi. rewrite (V a i Ha Hi). unfold put. case_decide as E; [|by apply iter_other]. subst a. apply iter_w; auto.
Qed.

(** ** powers of small numbers *)
Definition nat_q (n : nat) : Qc := Q2Qc (inject_Z (Z.of_nat n)).
Lemma nat_q_S n : nat_q (S n) = nat_q n + 1.
Proof.
  unfold nat_q. apply Qc_is_canon. unfold Qcplus. cbn [this Q2Qc]. rewrite !Qred_correct. rewrite Nat2Z.inj_succ. unfold Z.succ. rewrite inject_Z_plus. reflexivity.
Qed.
Lemma nat_q_pos n : 0 <= nat_q n.
Proof. induction n as [|n IH]; [done|]. rewrite nat_q_S. revert IH. generalize (nat_q n). qc_nra. Qed.
Lemma nat_q_mono n m : (n <= m)%nat -> nat_q n <= nat_q m.
Proof. induction 1 as [|m _ IH]; [apply Qcle_refl|]. rewrite nat_q_S. revert IH. generalize (nat_q n), (nat_q m). qc_nra. Qed.
Lemma nat_q_above q : exists n, q < nat_q n.
Proof.
  exists (S (Z.to_nat (Qceiling q))). unfold Qclt. apply Qle_lt_trans with (inject_Z (Qceiling q)); [apply Qle_ceiling|]. unfold nat_q. cbn [this Q2Qc]. rewrite Qred_correct, <- Zlt_Qlt. lia.
Qed.
Lemma bernoulli d n : 0 <= d -> 1 + nat_q n * d <= (1 + d) ^ n.
Proof.
  intros Hd. induction n as [|n IH]; [cbn [Qcpower]; change (nat_q 0) with 0; replace (1 + 0 * d) with 1 by ring; apply Qcle_refl|]. rewrite nat_q_S. cbn [Qcpower]. pose proof (nat_q_pos n) as Hn. revert IH Hd Hn. generalize (nat_q n), ((1 + d) ^ n). qc_nra.
Qed.
Lemma pow_mul a b n : (a * b) ^ n = a ^ n * b ^ n.
Proof. induction n as [|n IH]; cbn [Qcpower]; [ring|]. rewrite IH. ring. Qed.
Lemma pow_one n : 1 ^ n = 1.
Proof. induction n as [|n IH]; cbn [Qcpower]; [done|]. rewrite IH. ring. Qed.
Lemma pow_pos a n : 0 <= a -> 0 <= a ^ n.
Proof. intros Ha. induction n as [|n IH]; cbn [Qcpower]; [done|]. revert Ha IH. generalize (a ^ n). qc_nra. Qed.
Lemma qabs_pow q n : qabs (q ^ n) = qabs q ^ n.
Proof. induction n as [|n IH]; cbn [Qcpower]; [done|]. by rewrite qabs_mul, IH. Qed.
Lemma pow_small q eps : qabs q < 1 -> 0 < eps -> exists N, forall n, (N <= n)%nat -> qabs (q ^ n) < eps.
Proof.
  intros Hq He. destruct (decide (q = 0)) as [->|Hn].
  { exists 1%nat. intros [|n] Hl; [lia|]. cbn [Qcpower]. replace (0 * 0 ^ n) with 0 by ring. by rewrite qabs_0. }
  pose proof (qabs_pos q Hn) as Hp. set (a := qabs q) in *. assert (a <> 0) as Ha by (intros E; rewrite E in Hp; by apply Qclt_not_eq in Hp).
  set (d := / a - 1). assert (a * (1 + d) = 1) as Had by (unfold d; field; done).
  assert (0 < d) as Hd. { revert Had Hq Hp. clearbody a d. clear. intros Had Hq Hp. apply Qcnot_le_lt. intros Hd. assert (a * (1 + d) <= a) by (revert Hd Hp; clear; qc_nra). rewrite Had in H. apply (Qclt_not_le a 1); done. }
  destruct (nat_q_above (/ (d * eps))) as [N HN]. exists N. intros n Hl. rewrite qabs_pow. fold a.
  pose proof (nat_q_mono _ _ Hl) as Hm. assert (/ (d * eps) < nat_q n) as Hn' by (eapply Qclt_le_trans; done). assert (0 < d * eps) as Hde by (revert Hd He; clear; qc_nra).
  assert (d <> 0) as Nd by (intros E; rewrite E in Hd; by apply Qclt_not_eq in Hd). assert (eps <> 0) as Ne by (intros E; rewrite E in He; by apply Qclt_not_eq in He).
  assert (1 < nat_q n * (d * eps)) as H1.
  { assert (/ (d * eps) * (d * eps) = 1) as <-. { field. by split. } revert Hn' Hde. generalize (/ (d * eps)), (d * eps), (nat_q n). clear. qc_nra. }
  assert (a ^ n * (1 + nat_q n * d) <= 1) as H2.
  { assert (a ^ n * (1 + d) ^ n = 1) as E1 by (by rewrite <- pow_mul, Had, pow_one). apply Qcle_trans with (a ^ n * (1 + d) ^ n); [|rewrite E1; apply Qcle_refl]. pose proof (bernoulli d n ltac:(by apply Qclt_le_weak)) as B. pose proof (pow_pos a n ltac:(by apply Qclt_le_weak)) as Pp. revert B Pp. generalize (a ^ n), ((1 + d) ^ n), (1 + nat_q n * d). clear. qc_nra. }
  apply Qcnot_le_lt. intros Hge. pose proof (nat_q_pos n) as Hnn. 
  assert (eps * (nat_q n * d) <= a ^ n * (nat_q n * d)) as H3. { assert (0 <= nat_q n * d) as Hnd by (revert Hnn Hd; generalize (nat_q n); clear; qc_nra). revert Hge Hnd. generalize (a ^ n), (nat_q n * d). clear. qc_nra. }
  pose proof (pow_pos a n ltac:(by apply Qclt_le_weak)) as Pp.
  replace (nat_q n * (d * eps)) with (eps * (nat_q n * d)) in H1 by ring. replace (a ^ n * (1 + nat_q n * d)) with (a ^ n + a ^ n * (nat_q n * d)) in H2 by ring.
  revert H1 H2 H3 Pp. generalize (eps * (nat_q n * d)), (a ^ n * (nat_q n * d)), (a ^ n). clear. qc_nra.
Qed.
Lemma pow_small_times q r eps : qabs q < 1 -> 0 < eps -> exists N, forall n, (N <= n)%nat -> qabs (q ^ n * r) < eps.
Proof.
  intros Hq He. pose proof (qabs_nonneg r) as Hr. assert (0 < 1 + qabs r) as Hr1 by (revert Hr; generalize (qabs r); clear; qc_nra).
  assert (1 + qabs r <> 0) as Hne by (intros E; rewrite E in Hr1; by apply Qclt_not_eq in Hr1).
  assert (0 < eps / (1 + qabs r)) as He'. { apply Qcnot_le_lt. intros Hle. assert (eps = eps / (1 + qabs r) * (1 + qabs r)) as E by (field; done). revert Hle Hr1 E He. generalize (eps / (1 + qabs r)), (1 + qabs r). clear. intros u v Hu Hv -> He. revert Hu Hv He. qc_nra. }
  destruct (pow_small q _ Hq He') as [N HN]. exists N. intros n Hl. specialize (HN n Hl). rewrite qabs_mul. assert (eps = eps / (1 + qabs r) * (1 + qabs r)) as -> by (field; done).
  revert HN Hr He'. generalize (qabs (q ^ n)), (qabs r), (eps / (1 + qabs r)). clear. qc_nra.
Qed.
Lemma all_small {A} (f r : A -> Qc) (l : list A) eps : (forall x, x ∈ l -> qabs (f x) < 1) -> 0 < eps -> exists N, forall n x, (N <= n)%nat -> x ∈ l -> qabs (f x ^ n * r x) < eps.
Proof.
  intros Hl He. induction l as [|y l IH]; [exists 0%nat; intros n x _ []%elem_of_nil|].
  destruct IH as [N HN]; [intros x Hx; apply Hl; by right|]. destruct (pow_small_times (f y) (r y) eps (Hl y ltac:(mem)) He) as [M HM].
  exists (Nat.max N M). intros n x Hn [->|Hx]%elem_of_cons; [apply HM; lia|apply HN; [lia|done]].
Qed.
Lemma fit_converges ops H h x w y c eps : program ops H none h -> may_train h H (fit x w y) c [w] -> zero_grads h [w] ->
  x <> w -> y <> w -> (forall i, in_range (shape_of h w) i -> gram h x w y i <> 0 /\ qabs (factor h x w y c i) < 1) -> 0 < eps ->
  exists N, forall n, (N <= n)%nat -> exists qs l h', length qs = n /\ trained (fit x w y) c [w] h qs l h' /\ program (ops ++ l) H none h' /\
    forall i, in_range (shape_of h w) i -> qabs (value h' w i - best h x w y i) < eps.
Proof.
  intros Hp Hm Hz Hx Hy Hlt He. destruct (all_small (factor h x w y c) (fun i => value h w i - best h x w y i) (indices (shape_of h w)) eps) as [N HN]; [intros i Hi; apply Hlt; by apply elem_of_indices|done|].
  exists N. intros n Hn. destruct (fit_train n ops H h x w y c Hp Hm Hz Hx Hy ltac:(apply Hlt)) as (l & h' & Tr & P & R). eexists _, l, h'. split; [|split; [exact Tr|split; [done|]]]; [by rewrite map_length, seq_length|].
  intros i Hi. rewrite (R w i); [|eapply may_write_held; [apply Hm|cbn; tauto]|done]. rewrite put_w. unfold nearer.
  replace (best h x w y i + factor h x w y c i ^ n * (value h w i - best h x w y i) - best h x w y i) with (factor h x w y c i ^ n * (value h w i - best h x w y i)) by ring.
  apply (HN n i Hn). by apply elem_of_indices.
Qed.
Lemma pow_large q r B : 1 < qabs q -> r <> 0 -> exists N, forall n, (N <= n)%nat -> B < qabs (q ^ n * r).
Proof.
  intros Hq Hr. pose proof (qabs_pos r Hr) as Hp. set (d := qabs q - 1). assert (0 < d) as Hd by (unfold d; revert Hq; generalize (qabs q); clear; qc_nra). assert (qabs q = 1 + d) as Eq by (unfold d; ring). clearbody d.
  assert (0 < d * qabs r) as Hdr by (revert Hd Hp; generalize (qabs r); clear; qc_nra). assert (d * qabs r <> 0) as Hne by (intros E; rewrite E in Hdr; by apply Qclt_not_eq in Hdr).
  destruct (nat_q_above (B / (d * qabs r))) as [N HN]. exists N. intros n Hl. rewrite qabs_mul, qabs_pow, Eq.
  pose proof (nat_q_mono _ _ Hl) as Hm. assert (B / (d * qabs r) < nat_q n) as Hn by (eapply Qclt_le_trans; done).
  pose proof (bernoulli d n ltac:(by apply Qclt_le_weak)) as Hb. assert (B = B / (d * qabs r) * (d * qabs r)) as E by (unfold Qcdiv; rewrite <- Qcmult_assoc, (Qcmult_comm (/ _)), Qcmult_inv_r by done; ring).
  assert (B < nat_q n * (d * qabs r)) as H1. { rewrite E at 1. revert Hn Hdr. generalize (B / (d * qabs r)), (d * qabs r), (nat_q n). clear. qc_nra. }
  eapply Qclt_le_trans; [exact H1|]. assert ((1 + nat_q n * d) * qabs r <= (1 + d) ^ n * qabs r) as H2. { apply Qcmult_le_compat_r; [done|by apply Qclt_le_weak]. }
  eapply Qcle_trans; [|exact H2]. replace (nat_q n * (d * qabs r)) with (nat_q n * d * qabs r) by ring. revert Hp. generalize (nat_q n * d), (qabs r). clear. qc_nra.
Qed.
Lemma fit_diverges ops H h x w y c i B : program ops H none h -> may_train h H (fit x w y) c [w] -> zero_grads h [w] ->
  x <> w -> y <> w -> (forall i, in_range (shape_of h w) i -> gram h x w y i <> 0) ->
  in_range (shape_of h w) i -> 1 < qabs (factor h x w y c i) -> value h w i <> best h x w y i ->
  exists N, forall n, (N <= n)%nat -> exists qs l h', length qs = n /\ trained (fit x w y) c [w] h qs l h' /\ program (ops ++ l) H none h' /\
    B < qabs (value h' w i - best h x w y i).
Proof.
  intros Hp Hm Hz Hx Hy Hg Hi Hlt Hne. destruct (pow_large (factor h x w y c i) (value h w i - best h x w y i) B Hlt) as [N HN].
  { intros E. apply Hne. replace (value h w i) with (value h w i - best h x w y i + best h x w y i) by ring. rewrite E. ring. }
  exists N. intros n Hn. destruct (fit_train n ops H h x w y c Hp Hm Hz Hx Hy Hg) as (l & h' & Tr & P & R). eexists _, l, h'. split; [|split; [exact Tr|split; [done|]]]; [by rewrite map_length, seq_length|].
  rewrite (R w i); [|eapply may_write_held; [apply Hm|cbn; tauto]|done]. rewrite put_w. unfold nearer.
  replace (best h x w y i + factor h x w y c i ^ n * (value h w i - best h x w y i) - best h x w y i) with (factor h x w y c i ^ n * (value h w i - best h x w y i)) by ring.
  by apply HN.
Qed.
