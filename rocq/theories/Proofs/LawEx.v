(** For the laws: views of the demo history, and sums of floats in two orders. *)
From Verif.Proofs Require Export Law3 Refute1 InplaceEx Part2.
From Verif.Proofs Require Export Refute2.
From Verif.Model Require Export Ieee Api.
#[local] Existing Instance Ieee.

Lemma same_array_elem {fo : FOps} h t u r s idx : same_array h t u -> h_ten h !! t = Some r -> h_ten h !! u = Some s -> in_range (shape r) idx -> elem h r idx = elem h s idx.
Proof.
  intros (r' & s' & v & [H1 [_ H2]] & [H3 [_ H4]] & _ & Es) Hr Hs Hi. assert (r' = r) as -> by congruence. assert (s' = s) as -> by congruence.
  rewrite (proj1 (H2 idx Hi)). unfold shape in *. rewrite Es in Hi. by rewrite (proj1 (H4 idx Hi)).
Qed.

(** 9: the first row of 0, shape [3];  10: its column 1, shape [2,1];  11, 12, 13: f64 scalars 2^60, -2^60, 1 *)
Definition law_ops : list op := demo_ops ++ [OSlice (Some 0%nat) (chars "0"); OSlice (Some 0%nat) (chars ":,1:2");
  OScalar F64 (f64 (2 ^ 60)); OScalar F64 (f64 (- 2 ^ 60)); OScalar F64 (f64 1)].
Definition lawh : heap := Eval vm_compute in after law_ops.
Definition row (h : @heap Ieee) (t : nat) : list val := row_elems (shape (rec_of h t)) (contents h (rec_of h t)).

Definition float_calls : list op := [OAdd (Some 11%nat) (Some 12%nat); OAdd (Some 14%nat) (Some 13%nat); OAdd (Some 12%nat) (Some 13%nat); OAdd (Some 11%nat) (Some 16%nat)].
Definition floath : heap := Eval vm_compute in (run lawh float_calls).2.
Lemma law_reach : reachable lawh.
Proof. exists law_ops, (match (run empty_heap law_ops).1 with Ok l => l | _ => [] end). vm. Qed.
Lemma float_refuted : exists h a b c x u y z h', reachable h /\ yields h [OAdd (Some a) (Some b); OAdd (Some x) (Some c); OAdd (Some b) (Some c); OAdd (Some a) (Some y)] [x; u; y; z] h' /\
  ~ same_array h' u z.
Proof.
  exists lawh, 11%nat, 12%nat, 13%nat, 14%nat, 15%nat, 16%nat, 17%nat, floath. split; [exact law_reach|]. split; [unfold yields; vm|].
  intros H. apply (fun H => same_array_elem _ _ _ (rec_of floath 15) (rec_of floath 17) [] H) in H; [|vm|vm|apply Forall2_nil_2].
  assert (elem floath (rec_of floath 15) [] = Some (f64 1)) as E1 by vm. assert (elem floath (rec_of floath 17) [] = Some (f64 0)) as E2 by vm. rewrite E1, E2 in H. clear E1 E2. discriminate H.
Qed.

(** ** the operators in the laws *)
Section laws.
Context {fo : FOps}.
Lemma transpose_arith o h a b ra rb va vb d0 d1 : f_commutative fo -> reachable h -> tensor_at h a ra va -> tensor_at h b rb vb ->
  shape ra = shape rb -> fits (dt_join (t_dt ra) (t_dt rb)) (shape ra) ->
  0 <= d0 < Z.of_nat (length (shape ra)) -> 0 <= d1 < Z.of_nat (length (shape ra)) -> d0 <> d1 ->
  undefined (exec_arith o (Some a) (Some b)) h \/
  exists t u x y z h', yields h [exec_arith o (Some a) (Some b); OTranspose (Some t) d0 d1; OTranspose (Some a) d0 d1; OTranspose (Some b) d0 d1; exec_arith o (Some x) (Some y)]
    [t; u; x; y; z] h' /\ same_array h' u z.
Proof. intros Hc. exact (transpose_commutes _ _ _ h a b ra rb va vb d0 d1 (arith_elementwise o Hc)). Qed.
Lemma no_ub_cmp c h a b ra rb va vb : tensor_at h a ra va -> tensor_at h b rb vb -> shape ra = shape rb -> fits I8 (shape ra) -> ~ undefined (OCmp c (Some a) (Some b)) h.
Proof.
  intros Ha Hb Es F (u & h' & E & _). destruct (proj2 (cmp_elementwise c) h a b ra rb va vb (shape ra) Ha Hb eq_refl (eq_sym Es) F) as [H _].
  edestruct H as (t & h1 & rt & E1 & _); [intros idx Hi; reflexivity|]. rewrite E in E1. discriminate E1.
Qed.
Lemma transpose_cmp c h a b ra rb va vb d0 d1 : reachable h -> tensor_at h a ra va -> tensor_at h b rb vb ->
  shape ra = shape rb -> fits I8 (shape ra) ->
  0 <= d0 < Z.of_nat (length (shape ra)) -> 0 <= d1 < Z.of_nat (length (shape ra)) -> d0 <> d1 ->
  exists t u x y z h', yields h [OCmp c (Some a) (Some b); OTranspose (Some t) d0 d1; OTranspose (Some a) d0 d1; OTranspose (Some b) d0 d1; OCmp c (Some x) (Some y)]
    [t; u; x; y; z] h' /\ same_array h' u z.
Proof.
  intros Hr Ha Hb Es F H0 H1 Hne. destruct (transpose_commutes _ _ _ h a b ra rb va vb d0 d1 (cmp_elementwise c) Hr Ha Hb Es F H0 H1 Hne) as [H|H]; [|exact H].
  by destruct (no_ub_cmp c h a b ra rb va vb Ha Hb Es F).
Qed.
Lemma slice_arith o h a b ra rb va vb s xs : f_commutative fo -> reachable h -> tensor_at h a ra va -> tensor_at h b rb vb ->
  shape ra = shape rb -> fits (dt_join (t_dt ra) (t_dt rb)) (shape ra) -> Forall (fun n => 0 < n) (shape ra) -> small_strides ra -> small_strides rb ->
  subs_text s xs -> all_legal (shape ra) xs -> small_steps (shape ra) xs ->
  undefined (exec_arith o (Some a) (Some b)) h \/
  exists t u x y z h', yields h [exec_arith o (Some a) (Some b); OSlice (Some t) s; OSlice (Some a) s; OSlice (Some b) s; exec_arith o (Some x) (Some y)]
    [t; u; x; y; z] h' /\ same_array h' u z.
Proof. intros Hc. exact (slice_commutes _ _ _ h a b ra rb va vb s xs (arith_elementwise o Hc)). Qed.
Lemma slice_cmp c h a b ra rb va vb s xs : reachable h -> tensor_at h a ra va -> tensor_at h b rb vb ->
  shape ra = shape rb -> fits I8 (shape ra) -> Forall (fun n => 0 < n) (shape ra) -> small_strides ra -> small_strides rb ->
  subs_text s xs -> all_legal (shape ra) xs -> small_steps (shape ra) xs ->
  exists t u x y z h', yields h [OCmp c (Some a) (Some b); OSlice (Some t) s; OSlice (Some a) s; OSlice (Some b) s; OCmp c (Some x) (Some y)]
    [t; u; x; y; z] h' /\ same_array h' u z.
Proof.
  intros Hr Ha Hb Es F Hp Q1 Q2 T L S. destruct (slice_commutes _ _ _ h a b ra rb va vb s xs (cmp_elementwise c) Hr Ha Hb Es F Hp Q1 Q2 T L S) as [H|H]; [|exact H].
  by destruct (no_ub_cmp c h a b ra rb va vb Ha Hb Es F).
Qed.
End laws.
