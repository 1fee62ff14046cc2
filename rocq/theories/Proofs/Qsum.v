(** Finite sums in Qc, and the arithmetic of the library in exact arithmetic. *)
From Verif.Proofs Require Export ElemLemmas Cells.
From Verif.Spec Require Export Deriv.
From Verif.Model Require Export Exact.

Local Open Scope Qc_scope.
Lemma sumq_app l k : sumq (l ++ k) = sumq l + sumq k.
Proof. induction l as [|x l IH]; simpl; [ring|]. unfold sumq in *. rewrite IH. ring. Qed.
Lemma sumq_perm l k : l ≡ₚ k -> sumq l = sumq k.
Proof. unfold sumq. induction 1; simpl; try ring; congruence. Qed.
Lemma sumq_ext {A} (f g : A -> Qc) l : (forall x, x ∈ l -> f x = g x) -> sumq (map f l) = sumq (map g l).
Proof. intros H. f_equal. apply map_ext_in. intros x Hx. apply H. by apply elem_of_list_In. Qed.
Lemma sumq_add {A} (f g : A -> Qc) l : sumq (map (fun x => f x + g x) l) = sumq (map f l) + sumq (map g l).
Proof. unfold sumq. induction l as [|x l IH]; simpl; [ring|]. rewrite IH. ring. Qed.
Lemma sumq_sub {A} (f g : A -> Qc) l : sumq (map (fun x => f x - g x) l) = sumq (map f l) - sumq (map g l).
Proof. unfold sumq. induction l as [|x l IH]; simpl; [ring|]. rewrite IH. ring. Qed.
Lemma sumq_scale {A} c (f : A -> Qc) l : sumq (map (fun x => c * f x) l) = c * sumq (map f l).
Proof. unfold sumq. induction l as [|x l IH]; simpl; [ring|]. rewrite IH. ring. Qed.
Lemma sumq_zero {A} (f : A -> Qc) l : (forall x, x ∈ l -> f x = 0) -> sumq (map f l) = 0.
Proof.
  intros H. rewrite (sumq_ext f (fun _ => 0)) by done. clear H. unfold sumq. induction l as [|x l IH]; simpl; [done|]. rewrite IH. ring.
Qed.
Lemma sumq_swap {A B} (f : A -> B -> Qc) l k :
  sumq (map (fun x => sumq (map (f x) k)) l) = sumq (map (fun y => sumq (map (fun x => f x y) l)) k).
Proof.
  induction l as [|x l IH]; cbn [map].
  - symmetry. by apply sumq_zero.
  - cbn [sumq foldr]. unfold sumq in IH at 1. rewrite IH. rewrite <- sumq_add. done.
Qed.
Lemma sumq_one {A} (f : A -> Qc) l x : NoDup l -> x ∈ l -> (forall y, y ∈ l -> y <> x -> f y = 0) -> sumq (map f l) = f x.
Proof.
  intros Hd. induction Hd as [|a l Ha Hd IH]; [by intros ?%elem_of_nil|]. cbn [map sumq foldr].
  intros [->|Hx]%elem_of_cons H.
  - assert (sumq (map f l) = 0) as E.
    { apply sumq_zero. intros y Hy. apply H; [by apply elem_of_list_further|]. by intros ->. }
    unfold sumq in E. rewrite E. ring.
  - unfold sumq in IH. rewrite IH; [|done|].
    + rewrite (H a); [ring|apply elem_of_list_here|]. by intros ->.
    + intros y Hy. apply H. by apply elem_of_list_further.
Qed.
Lemma sumq_change {A} `{EqDecision A} (f g : A -> Qc) l x : NoDup l -> x ∈ l -> (forall y, y ∈ l -> y <> x -> g y = f y) ->
  sumq (map g l) = sumq (map f l) + (g x - f x).
Proof.
  intros Hd Hx H.
  assert (sumq (map (fun y => g y - f y) l) = g x - f x) as E.
  { rewrite (sumq_one (fun y => g y - f y) l x Hd Hx); [done|]. intros y Hy Hne. rewrite (H y Hy Hne). ring. }
  rewrite sumq_sub in E. rewrite <- E. ring.
Qed.
Lemma sum_over_ext ss f g : (forall idx, in_range ss idx -> f idx = g idx) -> sum_over ss f = sum_over ss g.
Proof. intros H. apply sumq_ext. intros idx Hi. apply H. by apply elem_of_indices. Qed.

(** weighted sum of the cells of a buffer *)
Fixpoint wsum_from (k : Z) (qs : list Qc) (w : Z -> Qc) : Qc :=
  match qs with [] => 0 | q :: r => q * w k + wsum_from (k + 1) r w end.
Definition wsum := wsum_from 0.
Lemma wsum_from_insert k qs w p q : qs !! p = Some q -> forall q',
  wsum_from k (<[p := q']> qs) w = wsum_from k qs w + (q' - q) * w (k + Z.of_nat p)%Z.
Proof.
  revert k p. induction qs as [|x qs IH]; intros k p H q'; [done|]. destruct p as [|p].
  - simpl in H. injection H as ->. cbn [insert list_insert wsum_from]. replace (k + Z.of_nat 0)%Z with k by lia. ring.
  - change (qs !! p = Some q) in H. change (<[S p := q']> (x :: qs)) with (x :: <[p := q']> qs). cbn [wsum_from].
    rewrite (IH (k + 1)%Z p H q'). replace (k + Z.of_nat (S p))%Z with (k + 1 + Z.of_nat p)%Z by lia. ring.
Qed.
Lemma wsum_insert qs w p q q' : qs !! p = Some q ->
  wsum (<[p := q']> qs) w = wsum qs w + (q' - q) * w (Z.of_nat p).
Proof. intros H. unfold wsum. rewrite (wsum_from_insert 0 qs w p q H q'). do 2 f_equal. Qed.
Lemma wsum_from_zero k n w : wsum_from k (replicate n 0) w = 0.
Proof. revert k. induction n as [|n IH]; intros k; cbn [replicate wsum_from]; [done|]. rewrite IH. ring. Qed.
Lemma wsum_from_sum k qs {A} (f : A -> Z -> Qc) l :
  wsum_from k qs (fun p => sumq (map (fun a => f a p) l)) = sumq (map (fun a => wsum_from k qs (f a)) l).
Proof.
  revert k. induction qs as [|q qs IH]; intros k; cbn [wsum_from].
  - symmetry. by apply sumq_zero.
  - rewrite IH. rewrite <- sumq_scale, <- sumq_add. done.
Qed.
Lemma wsum_from_at k qs p c : (k <= p)%Z ->
  wsum_from k qs (fun p' => if decide (p' = p) then c else 0) = default 0 (qs !! Z.to_nat (p - k)) * c.
Proof.
  revert k. induction qs as [|q qs IH]; intros k Hk; cbn [wsum_from].
  - rewrite lookup_nil. simpl. ring.
  - destruct (decide (k = p)) as [->|Hne].
    + replace (Z.to_nat (p - p)) with O by lia. simpl.
      assert (forall k', (p < k')%Z -> wsum_from k' qs (fun p' => if decide (p' = p) then c else 0) = 0) as Hz; [|rewrite Hz by lia; ring].
      clear. induction qs as [|x qs IH]; intros k Hk; cbn [wsum_from]; [done|]. rewrite decide_False by lia. rewrite IH by lia. ring.
    + rewrite IH by lia. replace (Z.to_nat (p - k)) with (S (Z.to_nat (p - (k + 1)))) by lia.
      change ((q :: qs) !! S (Z.to_nat (p - (k + 1)))) with (qs !! Z.to_nat (p - (k + 1))). ring.
Qed.
(** the sum of the tangents of the elements stored in cell [p] *)
Definition tcell (lay : layout) (d : list Z -> Qc) (p : Z) : Qc :=
  sum_over (sizes lay) (fun idx => if decide (p = pos lay idx) then d idx else 0).
Lemma wsum_tcell lay d qs : lay_in lay (Z.of_nat (length qs)) ->
  wsum qs (tcell lay d) = sum_over (sizes lay) (fun idx => default 0 (qs !! Z.to_nat (pos lay idx)) * d idx).
Proof.
  intros Hin. unfold wsum, tcell, sum_over.
  rewrite (wsum_from_sum 0 qs (fun idx p => if decide (p = pos lay idx) then d idx else 0)).
  apply sumq_ext. intros idx Hi%elem_of_indices. specialize (Hin idx Hi). rewrite wsum_from_at by lia.
  by rewrite Z.sub_0_r.
Qed.
Lemma tcell_pos lay d idx : lay_inj lay -> in_range (sizes lay) idx -> tcell lay d (pos lay idx) = d idx.
Proof.
  intros Hinj Hi. unfold tcell, sum_over.
  rewrite (sumq_one _ _ idx); [by rewrite decide_True|apply NoDup_indices|by apply elem_of_indices|].
  intros y Hy%elem_of_indices Hne. rewrite decide_False; [done|]. intros E. apply Hne. symmetry. by apply Hinj.
Qed.

(** ** exact arithmetic *)
Definition qop (o : aop) : Qc -> Qc -> Qc :=
  match o with AAdd => Qcplus | ASub => Qcminus | AMul => Qcmult | ADiv => Qcdiv end.
Lemma to_float_num T D v : to_float T D v = num v.
Proof. unfold to_float, conv. destruct v; simpl; [done|]. by case_bool_decide. Qed.
Lemma cvt_exact T D v : floating D = true -> cvt T D v = Ok (VF (num v)).
Proof. intros H. rewrite cvt_cpp. unfold cpp_cvt. by rewrite H, to_float_num. Qed.
Lemma prom_floating L R : floating (prom L R) = floating L || floating R.
Proof. by destruct L, R. Qed.
Lemma binop_exact o L R a b : floating L || floating R = true ->
  binop o L R a b = Ok (VF (qop o (num a) (num b))).
Proof.
  intros Hf. unfold binop. cbv zeta. rewrite !cvt_exact by (by rewrite prom_floating). simpl. by destruct o.
Qed.
