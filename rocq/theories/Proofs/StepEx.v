(** Gradient descent on sum(w * w * v), in exact arithmetic. *)
From Verif.Proofs Require Export ProgEx Step.
From Verif.Model Require Export Exact Api.
#[local] Existing Instance Exact.

(** w = (1, 2, -3) (0) and v = (2, 0, 1) (1), tracked; the rate -1/2 (2) *)
Definition half : Qc := (- (1 / (1 + 1)))%Qc.
Definition tr_w : list (@op Exact) := [OFromBlob (row [1; 2; -3]) [3] F64].
Definition tr_v := tr_w ++ [OFromBlob (row [2; 0; 1]) [3] F64].
Definition tr_c := tr_v ++ [OScalar F64 (VF half)].
Definition tr_rw := tr_c ++ [ORequires (#0) true].
Definition tr_rv := tr_rw ++ [ORequires (#1) true].
Definition tr_3 := tr_rv ++ [OMul (#0) (#0)].
Definition tr_4 := tr_3 ++ [OMul (#3) (#1)].
Definition tr_5 := tr_4 ++ [OSum (#4)].
Definition tr_held : list nat := [5; 4; 3; 2; 1; 0]%nat.

Lemma tr_w_ok : program tr_w [0%nat] none (xafter tr_w).
Proof. apply (call_after []); [exact PStart| |vm]. apply CFromBlob; [split; [small|fits_ok]|repeat constructor|vm_compute; congruence]. Qed.
Lemma tr_v_ok : program tr_v [1; 0]%nat none (xafter tr_v).
Proof. apply (call_after tr_w); [exact tr_w_ok| |vm]. apply CFromBlob; [split; [small|fits_ok]|repeat constructor|vm_compute; congruence]. Qed.
Lemma tr_c_ok : program tr_c [2; 1; 0]%nat none (xafter tr_c).
Proof. apply (call_after tr_v); [exact tr_v_ok| |vm]. apply CScalar. repeat constructor. Qed.
Lemma tr_rw_ok : program tr_rw [2; 1; 0]%nat none (xafter tr_rw).
Proof.
  apply (requires_after tr_c _ _ _ (xrec (xafter tr_c) 0)); [exact tr_c_ok|hand|apply not_node; vm| |vm].
  assert (t_lay (xrec (xafter tr_c) 0) = contig [3]) as -> by vm. exact leaf_dense.
Qed.
Lemma tr_rv_ok : program tr_rv [2; 1; 0]%nat none (xafter tr_rv).
Proof.
  apply (requires_after tr_rw _ _ _ (xrec (xafter tr_rw) 1)); [exact tr_rw_ok|hand|apply not_node; vm| |vm].
  assert (t_lay (xrec (xafter tr_rw) 1) = contig [3]) as -> by vm. exact leaf_dense.
Qed.
Lemma tr_3_ok : program tr_3 [3; 2; 1; 0]%nat none (xafter tr_3).
Proof. apply (call_after tr_rv); [exact tr_rv_ok| |vm]. arith AMul tr_rv 0%nat 0%nat. intros E; discriminate E. Qed.
Lemma tr_4_ok : program tr_4 [4; 3; 2; 1; 0]%nat none (xafter tr_4).
Proof. apply (call_after tr_3); [exact tr_3_ok| |vm]. arith AMul tr_3 3%nat 1%nat. intros E; discriminate E. Qed.
Lemma tr_5_ok : program tr_5 tr_held none (xafter tr_5).
Proof. apply (call_after tr_4); [exact tr_4_ok| |vm]. apply (CSum _ _ 4%nat (xrec (xafter tr_4) 4)). hand. Qed.
Lemma tr_closed x : below (xafter tr_5) 5 x -> x ∈ [5; 4; 3; 1; 0]%nat.
Proof. apply below_closed; [mem|vm]. Qed.
Lemma tr_may : may_backward (xafter tr_5) tr_held none 5.
Proof.
  split; [split; [mem|apply is_node_check; vm|apply (not_kind _ _ NoBack); [vm|by left]|vm|vm|by intros x _ _ []]|].
  apply (no_mean _ _ [5; 4; 3; 1; 0]%nat); [exact tr_closed|vm].
Qed.
Definition tr_leaves : list nat := [2; 1; 0]%nat.
Lemma tr_leaves_ok x : x ∈ tr_leaves -> x ∈ tr_held /\ ~ is_node (xafter tr_5) x.
Proof.
  unfold tr_leaves. rewrite !elem_of_cons. intros [->|[->|[->|[]%elem_of_nil]]]; (split; [mem|apply not_node; vm]).
Qed.
Lemma apart_check (h : @heap Exact) x y : match h_ten h !! x, h_ten h !! y with Some r, Some s => negb (t_sto r =? t_sto s)%nat | _, _ => false end = true -> apart h x y.
Proof. intros E rx ry Hx Hy. rewrite Hx, Hy in E. apply negb_true_iff, Nat.eqb_neq in E. done. Qed.
Lemma tr_update_ok a : a ∈ [0; 1]%nat -> may_update (xafter tr_5) tr_leaves 2 a /\ below (xafter tr_5) 5 a /\ apart (xafter tr_5) 2 a /\
  forall b, b ∈ [0; 1]%nat -> b <> a -> apart (xafter tr_5) b a.
Proof.
  rewrite !elem_of_cons. intros [->|[->|[]%elem_of_nil]].
  - split; [|split; [apply (below_path _ _ [4; 3; 0]%nat); vm|split; [apply apart_check; vm|]]].
    + exists (xrec (xafter tr_5) 0), (xrec (xafter tr_5) 2). split; [hand|]. split; [apply not_node; vm|]. split; [vm|]. split; [hand|]. split; [vm|].
      split; [decide_it|]. split; [|split; [vm|fits_ok]]. apply no_zero_one_pos; [assert (shape (xrec (xafter tr_5) 0) = [3]) as -> by vm|assert (shape (xrec (xafter tr_5) 2) = []) as -> by vm]; small.
    + intros b [->|[->|[]%elem_of_nil]%elem_of_cons]%elem_of_cons Hne; [exact (False_ind _ (Hne eq_refl))|]. apply apart_check; vm.
  - split; [|split; [apply (below_path _ _ [4; 1]%nat); vm|split; [apply apart_check; vm|]]].
    + exists (xrec (xafter tr_5) 1), (xrec (xafter tr_5) 2). split; [hand|]. split; [apply not_node; vm|]. split; [vm|]. split; [hand|]. split; [vm|].
      split; [decide_it|]. split; [|split; [vm|fits_ok]]. apply no_zero_one_pos; [assert (shape (xrec (xafter tr_5) 1) = [3]) as -> by vm|assert (shape (xrec (xafter tr_5) 2) = []) as -> by vm]; small.
    + intros b [->|[->|[]%elem_of_nil]%elem_of_cons]%elem_of_cons Hne; [|exact (False_ind _ (Hne eq_refl))]. apply apart_check; vm.
Qed.
(** elements, as numerators and denominators *)
Definition values (h : @heap Exact) (a : nat) : list (Z * Z) :=
  map (fun i => let q := value h a i in (Qnum q, Zpos (Qden q))) (indices (shape_of h a)).
(** the step: backward from the sum, then each parameter is updated *)
Definition tr_ids : list (nat * nat * nat) := [(13, 14, 15); (12, 16, 17)]%nat.
Definition tr_step := tr_5 ++ OBackward (#5) :: updates 2 [0; 1]%nat tr_ids.
Lemma tr_step_values :
  (values (xafter tr_5) 0, values (xafter tr_5) 1, values (xafter tr_5) 2) =
    ([(1, 1); (2, 1); (-3, 1)], [(2, 1); (0, 1); (1, 1)], [(-1, 2)]) /\
  (grads (xafter (tr_5 ++ [OBackward (#5)])) 0, grads (xafter (tr_5 ++ [OBackward (#5)])) 1) =
    ([(4, 1); (0, 1); (-6, 1)], [(1, 1); (4, 1); (9, 1)]) /\
  (values (xafter tr_step) 0, values (xafter tr_step) 1, values (xafter tr_step) 2) =
    ([(-1, 1); (2, 1); (0, 1)], [(3, 2); (-2, 1); (-7, 2)], [(-1, 2)]) /\
  (grads (xafter tr_step) 0, grads (xafter tr_step) 1) = ([(0, 1); (0, 1); (0, 1)], [(0, 1); (0, 1); (0, 1)]).
Proof. split_and!; vm. Qed.
Lemma tr_nodup : NoDup [0; 1]%nat.
Proof. decide_it. Qed.
(** after backward *)
Definition tr_6 := tr_5 ++ [OBackward (#5)].
Definition tr_passed : nat -> Prop := fun x => none x \/ below (xafter tr_5) 5 x /\ is_node (xafter tr_5) x.
Lemma tr_6_ok : program tr_6 tr_held tr_passed (xafter tr_6).
Proof.
  destruct (program_backward _ _ _ _ _ tr_5_ok tr_may) as (h' & E & K & _). pose proof (program_after _ _ _ _ K) as Eh. unfold tr_6. by rewrite <- Eh.
Qed.
Lemma tr_6_grad : has_gradient (xafter tr_6) 0.
Proof.
  destruct (backward_keeps _ _ _ _ _ tr_5_ok tr_may) as (h' & E & _ & _ & _ & K).
  destruct (program_backward _ _ _ _ _ tr_5_ok tr_may) as (h1 & E1 & P & _). assert (h1 = h') as -> by congruence.
  pose proof (program_after _ _ _ _ P) as Eh. unfold tr_6. rewrite <- Eh.
  apply K; [mem|apply (below_path _ _ [4; 3; 0]%nat); vm|apply not_node; vm|]. exists (xrec (xafter tr_5) 0). split; vm.
Qed.
Lemma tr_6_leaves x : x ∈ tr_leaves -> x ∈ tr_held /\ ~ is_node (xafter tr_6) x.
Proof.
  unfold tr_leaves. rewrite !elem_of_cons. intros [->|[->|[->|[]%elem_of_nil]]]; (split; [mem|apply not_node; vm]).
Qed.
Lemma tr_6_update : may_update (xafter tr_6) tr_held 2 0.
Proof.
  exists (xrec (xafter tr_6) 0), (xrec (xafter tr_6) 2). split; [hand|]. split; [apply not_node; vm|]. split; [vm|]. split; [hand|]. split; [vm|].
  split; [decide_it|]. split; [|split; [vm|fits_ok]]. apply no_zero_one_pos; [assert (shape (xrec (xafter tr_6) 0) = [3]) as -> by vm|assert (shape (xrec (xafter tr_6) 2) = []) as -> by vm]; small.
Qed.
