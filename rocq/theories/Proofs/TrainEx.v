(** Training a linear model. *)
From Verif.Proofs Require Export Train FormulaEx StepEx.
From Verif.Model Require Export Exact Api.
#[local] Existing Instance Exact.

(** x (0) and y (3) of shape [2; 3], tracked weights w (1) of shape [3] and a tracked bias b (2) of
    shape []; the rate -1/2 (4). The loss is the sum of (x * w + b - y) * (x * w + b - y). *)
Definition sq_x : list (@op Exact) := [OFromBlob (row [1; 0; 1; 0; 1; 1]) [2; 3] F32].
Definition sq_w := sq_x ++ [OFromBlob (row [1; 2; -3]) [3] F64].
Definition sq_b := sq_w ++ [OFromBlob (row [1]) [] F64].
Definition sq_y := sq_b ++ [OFromBlob (row [1; 1; 1; 2; 2; 2]) [2; 3] F32].
Definition sq_r := sq_y ++ [OScalar F64 (VF StepEx.half)].
Definition sq_t := sq_r ++ [ORequires (#1) true].
Definition sq := sq_t ++ [ORequires (#2) true].
Definition sq_held : list nat := [4; 3; 2; 1; 0]%nat.
Definition sq_e : formula :=
  let d := Bin ASub (Bin AAdd (Bin AMul (Var 0) (Var 1)) (Var 2)) (Var 3) in Bin AMul d d.
Definition sq_calls : list (@op Exact) :=
  [OMul (#0) (#1); OAdd (#5) (#2); OSub (#6) (#3); OMul (#0) (#1); OAdd (#8) (#2); OSub (#9) (#3); OMul (#7) (#10); OSum (#11); OBackward (#12)].
Lemma sq_x_ok : program sq_x [0]%nat none (xafter sq_x).
Proof. apply (call_after []); [exact PStart|blob|vm]. Qed.
Lemma sq_w_ok : program sq_w [1; 0]%nat none (xafter sq_w).
Proof. apply (call_after sq_x); [exact sq_x_ok|blob|vm]. Qed.
Lemma sq_b_ok : program sq_b [2; 1; 0]%nat none (xafter sq_b).
Proof. apply (call_after sq_w); [exact sq_w_ok|blob|vm]. Qed.
Lemma sq_y_ok : program sq_y [3; 2; 1; 0]%nat none (xafter sq_y).
Proof. apply (call_after sq_b); [exact sq_b_ok|blob|vm]. Qed.
Lemma sq_r_ok : program sq_r sq_held none (xafter sq_r).
Proof. apply (call_after sq_y); [exact sq_y_ok| |vm]. apply CScalar. repeat constructor. Qed.
Lemma sq_t_ok : program sq_t sq_held none (xafter sq_t).
Proof.
  apply (requires_after sq_r _ _ _ (xrec (xafter sq_r) 1)); [exact sq_r_ok|hand|apply not_node; vm| |vm].
  assert (t_lay (xrec (xafter sq_r) 1) = contig [3]) as -> by vm. exact leaf_dense.
Qed.
Lemma sq_ok : program sq sq_held none (xafter sq).
Proof.
  apply (requires_after sq_t _ _ _ (xrec (xafter sq_t) 2)); [exact sq_t_ok|hand|apply not_node; vm| |vm].
  assert (t_lay (xrec (xafter sq_t) 2) = contig []) as -> by vm. apply (dense_contig _ 1); [small|vm|unfold two63; lia].
Qed.
Lemma sq_write : may_write (xafter sq) sq_held sq_e.
Proof.
  assert (shape_of (xafter sq) 0 = [2; 3]) as S0 by vm. assert (shape_of (xafter sq) 1 = [3]) as S1 by vm.
  assert (shape_of (xafter sq) 2 = []) as S2 by vm. assert (shape_of (xafter sq) 3 = [2; 3]) as S3 by vm.
  unfold sq_e. cbn [may_write form]. rewrite S0, S1, S2, S3.
  split_and!; try (intros E; discriminate E); try decide_it; try fits_ok; try (apply no_zero_one_pos; small);
    [var sq 0%nat|var sq 1%nat|var sq 2%nat|var sq 3%nat|var sq 0%nat|var sq 1%nat|var sq 2%nat|var sq 3%nat].
Qed.
Lemma sq_may : may_train (xafter sq) sq_held sq_e 4 [1; 2]%nat.
Proof.
  split; [|exact sq_write|intros E; discriminate E|decide_it|].
  - intros a. unfold sq_held. rewrite !elem_of_cons. intros [->|[->|[->|[->|[->|[]%elem_of_nil]]]]]; (apply not_node; vm).
  - intros a. rewrite !elem_of_cons. intros [->|[->|[]%elem_of_nil]].
    + split; [left; left; left; right; reflexivity|]. split.
      * exists (xrec (xafter sq) 1), (xrec (xafter sq) 4). split; [hand|]. split; [apply not_node; vm|]. split; [vm|]. split; [hand|]. split; [vm|].
        split; [decide_it|]. split; [|split; [vm|fits_ok]]. apply no_zero_one_pos; [assert (shape (xrec (xafter sq) 1) = [3]) as -> by vm|assert (shape (xrec (xafter sq) 4) = []) as -> by vm]; small.
      * intros b. unfold sq_held. rewrite !elem_of_cons. intros [->|[->|[->|[->|[->|[]%elem_of_nil]]]]] Hne; try (apply apart_check; vm). exact (False_ind _ (Hne eq_refl)).
    + split; [left; left; right; reflexivity|]. split.
      * exists (xrec (xafter sq) 2), (xrec (xafter sq) 4). split; [hand|]. split; [apply not_node; vm|]. split; [vm|]. split; [hand|]. split; [vm|].
        split; [decide_it|]. split; [|split; [vm|fits_ok]]. apply no_zero_one_pos; [assert (shape (xrec (xafter sq) 2) = []) as -> by vm|assert (shape (xrec (xafter sq) 4) = []) as -> by vm]; small.
      * intros b. unfold sq_held. rewrite !elem_of_cons. intros [->|[->|[->|[->|[->|[]%elem_of_nil]]]]] Hne; try (apply apart_check; vm). exact (False_ind _ (Hne eq_refl)).
Qed.
(** elements as numerators and denominators *)
Definition shown (V : nat -> list Z -> Qc) (a : nat) (ss : list Z) : list (Z * Z) :=
  map (fun i => let q := V a i in (Qnum q, Zpos (Qden q))) (indices ss).
(** the derivatives are (2, 2, -14) and -12 *)
Definition sq_round : list (@op Exact) := sq ++ sq_calls ++ update 1 4 27 28 29 ++ update 2 4 25 30 31.
Definition sq_after (n : nat) := Nat.iter n (descent (xafter sq) sq_e 4 [1; 2]%nat) (value (xafter sq)).
Lemma sq_values :
  grads (xafter (sq ++ sq_calls)) 1 = [(2, 1); (2, 1); (-14, 1)] /\ grads (xafter (sq ++ sq_calls)) 2 = [(-12, 1)] /\
  values (xafter sq_round) 1 = [(0, 1); (1, 1); (4, 1)] /\ values (xafter sq_round) 2 = [(7, 1)] /\
  shown (sq_after 1) 1 [3] = [(0, 1); (1, 1); (4, 1)] /\ shown (sq_after 1) 2 [] = [(7, 1)] /\
  shown (sq_after 2) 1 [3] = [(-6, 1); (-5, 1); (-15, 1)] /\ shown (sq_after 2) 2 [] = [(-35, 1)].
Proof. split_and!; vm. Qed.
Lemma sq_zero a i : a ∈ [1; 2]%nat -> in_range (shape_of (xafter sq) a) i -> grad_value (xafter sq) a i = 0%Qc.
Proof. rewrite !elem_of_cons. intros [->|[->|[]%elem_of_nil]] _; vm. Qed.
