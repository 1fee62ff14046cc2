(** Quotients and maxima under further calls, in exact arithmetic. *)
From Verif.Proofs Require Export MeanEx Local.
From Verif.Model Require Export Exact Api.
#[local] Existing Instance Exact.

(** the derivative with respect to a computed tensor, computed *)
Lemma at_check ops H T t x j u : program ops H T (xafter ops) -> may_start (xafter ops) H T t -> below (xafter ops) t x ->
  is_node (xafter ops) x -> ~ is_view (xafter ops) x ->
  Qc_eq_bool (by_at (xafter ops) x j t (map (fun _ => 0%Z) (shape_of (xafter ops) t))) u = true -> derivative_at (xafter ops) t x j u.
Proof.
  intros Hp Hb Bx Nx Vx <-%Qc_eq_bool_correct. pose proof (program_ready _ _ _ _ _ Hp Hb) as Hgr. destruct (program_facts _ _ _ _ Hp) as (Hinv & Hver & Hsz). by apply by_derivative.
Qed.
(** only [x] uses [a] *)
Lemma sole_check (h : @heap Exact) t a x l : (forall y, below h t y -> y ∈ l) ->
  forallb (fun y => negb (bool_decide (a ∈ inputs h y)) || (y =? x)%nat) l = true -> forall y, below h t y -> a ∈ inputs h y -> y = x.
Proof.
  intros Hl E y By Hy. rewrite forallb_forall in E. specialize (E y). rewrite <- elem_of_list_In in E. specialize (E (Hl y By)).
  rewrite bool_decide_true in E by done. by apply Nat.eqb_eq in E.
Qed.

(** a = (6) tracked (0); b = (2, 3) tracked (1); c = (5, -1) (2); a / b (3); times c (4); sum (5) *)
Definition lc_0 : list (@op Exact) := [OFromBlob (row [6]) [1] F64].
Definition lc_a := lc_0 ++ [ORequires (#0) true].
Definition lc_1 := lc_a ++ [OFromBlob (row [2; 3]) [2] F64].
Definition lc_b := lc_1 ++ [ORequires (#1) true].
Definition lc_2 := lc_b ++ [OFromBlob (row [5; -1]) [2] F64].
Definition lc_3 := lc_2 ++ [ODiv (#0) (#1)].
Definition lc_4 := lc_3 ++ [OMul (#3) (#2)].
Definition lc_5 := lc_4 ++ [OSum (#4)].
Ltac blob := apply CFromBlob; [split; [small|fits_ok]|repeat constructor|vm_compute; congruence].
Lemma lc_0_ok : program lc_0 [0]%nat none (xafter lc_0).
Proof. apply (call_after []); [exact PStart| |vm]. blob. Qed.
Lemma lc_a_ok : program lc_a [0]%nat none (xafter lc_a).
Proof.
  apply (requires_after lc_0 _ _ _ (xrec (xafter lc_0) 0)); [exact lc_0_ok|hand|apply not_node; vm| |vm].
  assert (t_lay (xrec (xafter lc_0) 0) = contig [1]) as -> by vm. apply (dense_contig _ 1); [small|vm|unfold two63; lia].
Qed.
Lemma lc_1_ok : program lc_1 [1; 0]%nat none (xafter lc_1).
Proof. apply (call_after lc_a); [exact lc_a_ok| |vm]. blob. Qed.
Lemma lc_b_ok : program lc_b [1; 0]%nat none (xafter lc_b).
Proof.
  apply (requires_after lc_1 _ _ _ (xrec (xafter lc_1) 1)); [exact lc_1_ok|hand|apply not_node; vm| |vm].
  assert (t_lay (xrec (xafter lc_1) 1) = contig [2]) as -> by vm. apply (dense_contig _ 2); [small|vm|unfold two63; lia].
Qed.
Lemma lc_2_ok : program lc_2 [2; 1; 0]%nat none (xafter lc_2).
Proof. apply (call_after lc_b); [exact lc_b_ok| |vm]. blob. Qed.
Lemma lc_3_ok : program lc_3 [3; 2; 1; 0]%nat none (xafter lc_3).
Proof.
  apply (call_after lc_2); [exact lc_2_ok| |vm]. apply (CArith (xafter lc_2) _ ADiv 0%nat 1%nat (xrec (xafter lc_2) 0) (xrec (xafter lc_2) 1)); [hand|hand|decide_it| |fits_ok|].
  - apply no_zero_one_pos; [assert (shape (xrec (xafter lc_2) 0) = [1]) as -> by vm|assert (shape (xrec (xafter lc_2) 1) = [2]) as -> by vm]; small.
  - intros _ _. split_and!; vm.
Qed.
Lemma lc_4_ok : program lc_4 [4; 3; 2; 1; 0]%nat none (xafter lc_4).
Proof.
  apply (call_after lc_3); [exact lc_3_ok| |vm]. apply (CArith (xafter lc_3) _ AMul 3%nat 2%nat (xrec (xafter lc_3) 3) (xrec (xafter lc_3) 2)); [hand|hand|decide_it| |fits_ok|].
  - apply no_zero_one_pos; [assert (shape (xrec (xafter lc_3) 3) = [2]) as -> by vm|assert (shape (xrec (xafter lc_3) 2) = [2]) as -> by vm]; small.
  - intros E; discriminate E.
Qed.
Definition lc_held : list nat := [5; 4; 3; 2; 1; 0]%nat.
Lemma lc_5_ok : program lc_5 lc_held none (xafter lc_5).
Proof. apply (call_after lc_4); [exact lc_4_ok| |vm]. apply (CSum _ _ 4%nat (xrec (xafter lc_4) 4)). hand. Qed.
Lemma lc_closed x : below (xafter lc_5) 5 x -> x ∈ lc_held.
Proof. apply below_closed; [mem|vm]. Qed.
Lemma lc_may : may_backward (xafter lc_5) lc_held none 5.
Proof.
  split; [split; [mem|apply is_node_check; vm|apply (not_kind _ _ NoBack); [vm|by left]|vm|vm|by intros x _ _ []]|].
  apply (no_mean _ _ lc_held); [exact lc_closed|vm].
Qed.
Lemma lc_div : below (xafter lc_5) 5 3 /\ exists f, fn_of (xafter lc_5) 3 = Some f /\ gf_kind f = DivBack /\ gf_in f = [0; 1]%nat.
Proof.
  split; [apply (below_path _ _ [4; 3]%nat); vm|].
  exists (match fn_of (xafter lc_5) 3 with Some f => f | None => Gfn NoBack [] 0 0 0 end). split_and!; vm.
Qed.
Lemma lc_sole a : a = 0%nat \/ a = 1%nat -> forall y, below (xafter lc_5) 5 y -> a ∈ inputs (xafter lc_5) y -> y = 3%nat.
Proof. intros [-> | ->]; (apply (sole_check _ _ _ _ lc_held); [exact lc_closed|vm]). Qed.
Lemma lc_slope : derivative_at (xafter lc_5) 5 3 [0] (q 5) /\ derivative_at (xafter lc_5) 5 3 [1] (q (-1)).
Proof.
  assert (~ is_view (xafter lc_5) 3) as Hv by (apply (not_kind _ _ NoBack); [vm|by left]).
  split; (eapply at_check; [exact lc_5_ok|exact lc_may|apply lc_div|apply is_node_check; vm|exact Hv|vm]).
Qed.

(** x = (1, 2, -3) tracked (0); max(x) (1, and the slopes 2); c = -7 (3); max(x) * c (4) *)
Definition lm_3 := ex_max ++ [OScalar F64 (@VF Exact (q (-7)))].
Definition lm_4 := lm_3 ++ [OMul (#1) (#3)].
Definition lm_held : list nat := [4; 3; 1; 0]%nat.
Lemma lm_3_ok : program lm_3 [3; 1; 0]%nat none (xafter lm_3).
Proof. apply (call_after ex_max); [exact ex_max_ok| |vm]. apply CScalar. done. Qed.
Lemma lm_4_ok : program lm_4 lm_held none (xafter lm_4).
Proof. apply (call_after lm_3); [exact lm_3_ok| |vm]. arith0 AMul lm_3 1%nat 3%nat. intros E; discriminate E. Qed.
Lemma lm_closed x : below (xafter lm_4) 4 x -> x ∈ lm_held.
Proof. apply below_closed; [mem|vm]. Qed.
Lemma lm_may : may_backward (xafter lm_4) lm_held none 4.
Proof.
  split; [split; [mem|apply is_node_check; vm|apply (not_kind _ _ NoBack); [vm|by left]|vm|vm|by intros x _ _ []]|].
  apply (no_mean _ _ lm_held); [exact lm_closed|vm].
Qed.
Lemma lm_max : below (xafter lm_4) 4 1 /\ exists f, fn_of (xafter lm_4) 1 = Some f /\ gf_kind f = KnownGradBack 2 /\ gf_in f = [0]%nat.
Proof.
  split; [apply (below_path _ _ [1]%nat); vm|].
  exists (match fn_of (xafter lm_4) 1 with Some f => f | None => Gfn NoBack [] 0 0 0 end). split_and!; vm.
Qed.
Lemma lm_sole y : below (xafter lm_4) 4 y -> 0%nat ∈ inputs (xafter lm_4) y -> y = 1%nat.
Proof. apply (sole_check _ _ _ _ lm_held); [exact lm_closed|vm]. Qed.
Lemma lm_shapes : shape_of (xafter lm_4) 1 <> shape_of (xafter lm_4) 0.
Proof. assert (shape_of (xafter lm_4) 1 = []) as -> by vm. assert (shape_of (xafter lm_4) 0 = [3]) as -> by vm. done. Qed.
