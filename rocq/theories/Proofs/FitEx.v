(** Fitting x * w to y, in exact arithmetic. *)
From Verif.Proofs Require Export Fit TrainEx.
From Verif.Spec Require Expr.
From Verif.Model Require Export Exact Api.
#[local] Existing Instance Exact.

(** x = (1, -1/2) (0), w = 1 tracked (1), y = 3 (2), both of shape [], the rates -1/4 (3) and -2 (4) *)
Definition quarter : Qc := (StepEx.half * StepEx.half)%Qc.
Definition ft_x : list (@op Exact) := [OFromBlob [VF 1%Qc; VF StepEx.half] [2] F64].
Definition ft_w := ft_x ++ [OFromBlob (row [1]) [] F64].
Definition ft_y := ft_w ++ [OScalar F64 (VF (1 + 1 + 1)%Qc)].
Definition ft_c := ft_y ++ [OScalar F64 (VF (- quarter)%Qc)].
Definition ft_d := ft_c ++ [OScalar F64 (VF (- (1 + 1))%Qc)].
Definition ft := ft_d ++ [ORequires (#1) true].
Definition ft_held : list nat := [4; 3; 2; 1; 0]%nat.
Lemma ft_x_ok : program ft_x [0]%nat none (xafter ft_x).
Proof. apply (call_after []); [exact PStart|blob|vm]. Qed.
Lemma ft_w_ok : program ft_w [1; 0]%nat none (xafter ft_w).
Proof. apply (call_after ft_x); [exact ft_x_ok|blob|vm]. Qed.
Lemma ft_y_ok : program ft_y [2; 1; 0]%nat none (xafter ft_y).
Proof. apply (call_after ft_w); [exact ft_w_ok| |vm]. apply CScalar. repeat constructor. Qed.
Lemma ft_c_ok : program ft_c [3; 2; 1; 0]%nat none (xafter ft_c).
Proof. apply (call_after ft_y); [exact ft_y_ok| |vm]. apply CScalar. repeat constructor. Qed.
Lemma ft_d_ok : program ft_d ft_held none (xafter ft_d).
Proof. apply (call_after ft_c); [exact ft_c_ok| |vm]. apply CScalar. repeat constructor. Qed.
Lemma ft_ok : program ft ft_held none (xafter ft).
Proof.
  apply (requires_after ft_d _ _ _ (xrec (xafter ft_d) 1)); [exact ft_d_ok|hand|apply not_node; vm| |vm].
  assert (t_lay (xrec (xafter ft_d) 1) = contig []) as -> by vm. apply (dense_contig _ 1); [small|vm|unfold two63; lia].
Qed.
Lemma ft_write : may_write (xafter ft) ft_held (fit 0 1 2).
Proof.
  assert (shape_of (xafter ft) 0 = [2]) as S0 by vm. assert (shape_of (xafter ft) 1 = []) as S1 by vm. assert (shape_of (xafter ft) 2 = []) as S2 by vm.
  unfold fit. cbn [may_write form]. rewrite S0, S1, S2.
  split_and!; try (intros E; discriminate E); try decide_it; try fits_ok; try (apply no_zero_one_pos; small);
    [var ft 0%nat|var ft 1%nat|var ft 2%nat|var ft 0%nat|var ft 1%nat|var ft 2%nat].
Qed.
Lemma ft_may : may_train (xafter ft) ft_held (fit 0 1 2) 3 [1]%nat.
Proof.
  split; [|exact ft_write|intros E; discriminate E|decide_it|].
  - intros a. unfold ft_held. rewrite !elem_of_cons. intros [->|[->|[->|[->|[->|[]%elem_of_nil]]]]]; (apply not_node; vm).
  - intros a. rewrite !elem_of_cons. intros [->|[]%elem_of_nil].
    split; [left; left; right; reflexivity|]. split.
    + exists (xrec (xafter ft) 1), (xrec (xafter ft) 3). split; [hand|]. split; [apply not_node; vm|]. split; [vm|]. split; [hand|]. split; [vm|].
      split; [decide_it|]. split; [|split; [vm|fits_ok]]. apply no_zero_one_pos; [assert (shape (xrec (xafter ft) 1) = []) as -> by vm|assert (shape (xrec (xafter ft) 3) = []) as -> by vm]; small.
    + intros b. unfold ft_held. rewrite !elem_of_cons. intros [->|[->|[->|[->|[->|[]%elem_of_nil]]]]] Hne; try (apply apart_check; vm). exact (False_ind _ (Hne eq_refl)).
Qed.
Lemma ft_may_fast : may_train (xafter ft) ft_held (fit 0 1 2) 4 [1]%nat.
Proof.
  split; [|exact ft_write|intros E; discriminate E|decide_it|].
  - intros a. unfold ft_held. rewrite !elem_of_cons. intros [->|[->|[->|[->|[->|[]%elem_of_nil]]]]]; (apply not_node; vm).
  - intros a. rewrite !elem_of_cons. intros [->|[]%elem_of_nil].
    split; [left; left; right; reflexivity|]. split.
    + exists (xrec (xafter ft) 1), (xrec (xafter ft) 4). split; [hand|]. split; [apply not_node; vm|]. split; [vm|]. split; [hand|]. split; [vm|].
      split; [decide_it|]. split; [|split; [vm|fits_ok]]. apply no_zero_one_pos; [assert (shape (xrec (xafter ft) 1) = []) as -> by vm|assert (shape (xrec (xafter ft) 4) = []) as -> by vm]; small.
    + intros b. unfold ft_held. rewrite !elem_of_cons. intros [->|[->|[->|[->|[->|[]%elem_of_nil]]]]] Hne; try (apply apart_check; vm). exact (False_ind _ (Hne eq_refl)).
Qed.
Lemma ft_zero : zero_grads (xafter ft) [1]%nat.
Proof. intros a i. rewrite !elem_of_cons. intros [->|[]%elem_of_nil] _; vm. Qed.
Lemma below_one_check (g f : list Z -> Qc) ss : forallb (fun i => negb (Qeq_bool (g i) 0) && match (qabs (f i) ?= 1)%Qc with Lt => true | _ => false end) (indices ss) = true ->
  forall i, in_range ss i -> g i <> 0%Qc /\ (qabs (f i) < 1)%Qc.
Proof.
  intros K i Hi. rewrite forallb_forall in K. specialize (K i). rewrite <- elem_of_list_In, elem_of_indices in K. specialize (K Hi). apply andb_prop in K as [K1 K2]. split.
  - intros E. rewrite E in K1. discriminate K1.
  - unfold Qclt. apply Qlt_alt. unfold Qccompare in K2. destruct (_ ?= _)%Q; try discriminate K2. reflexivity.
Qed.
Lemma ft_factor : forall i, in_range (shape_of (xafter ft) 1) i -> gram (xafter ft) 0 1 2 i <> 0%Qc /\ (qabs (factor (xafter ft) 0 1 2 3 i) < 1)%Qc.
Proof. apply below_one_check. vm. Qed.
Definition qlist (f : list Z -> Qc) (ss : list Z) : list (Z * Z) := map (fun i => let q := f i in (Qnum q, Zpos (Qden q))) (indices ss).
Definition ft_round : list (@op Exact) :=
  ft ++ [OMul (#0) (#1); OSub (#5) (#2); OMul (#0) (#1); OSub (#7) (#2); OMul (#6) (#8); OSum (#9); OBackward (#10)].
(** w after one round *)
Definition ft_next : heap :=
  ((let! g := Expr.call (OGrad (#1)) in let! s := Expr.call (OMul (Some g) (#3)) in let! d := Expr.call (ODetach (#1)) in
    exec (OAddEq (Some d) (Some s))) (xafter ft_round)).2.
Lemma ft_values :
  qlist (gram (xafter ft) 0 1 2) [] = [(5, 4)] /\ qlist (best (xafter ft) 0 1 2) [] = [(6, 5)] /\ qlist (factor (xafter ft) 0 1 2 3) [] = [(3, 8)] /\
  grads (xafter ft_round) 1 = [(-1, 2)] /\ values ft_next 1 = [(9, 8)] /\
  qlist (nearer (xafter ft) 0 1 2 3 1) [] = [(9, 8)] /\ qlist (nearer (xafter ft) 0 1 2 3 2) [] = [(75, 64)].
Proof. split_and!; vm. Qed.
Lemma ft_fast : qlist (factor (xafter ft) 0 1 2 4) [] = [(-4, 1)] /\ qlist (nearer (xafter ft) 0 1 2 4 1) [] = [(2, 1)] /\ qlist (nearer (xafter ft) 0 1 2 4 2) [] = [(-2, 1)].
Proof. split_and!; vm. Qed.
Lemma above_one_check q : match (1 ?= qabs q)%Qc with Lt => true | _ => false end = true -> (1 < qabs q)%Qc.
Proof. intros K. unfold Qclt. apply Qlt_alt. unfold Qccompare in K. destruct (_ ?= _)%Q; try discriminate K. reflexivity. Qed.
Lemma differ_check (p q : Qc) : Qeq_bool p q = false -> p <> q.
Proof. intros E ->. by rewrite (proj2 (Qeq_bool_iff q q) (Qeq_refl q)) in E. Qed.
Lemma ft_start : in_range (shape_of (xafter ft) 1) [].
Proof. assert (shape_of (xafter ft) 1 = []) as -> by vm. constructor. Qed.
Lemma ft_above : (1 < qabs (factor (xafter ft) 0 1 2 4 []))%Qc.
Proof. apply above_one_check. vm. Qed.
Lemma ft_differs : value (xafter ft) 1 [] <> best (xafter ft) 0 1 2 [].
Proof. apply differ_check. vm. Qed.
