(** Formulas: the first program of docs/quickstart.rst, and a linear model. *)
From Verif.Proofs Require Export Formula ProgEx.
From Verif.Model Require Export Exact Api.
#[local] Existing Instance Exact.

(** docs/quickstart.rst:22-31: a and b hold 1 ... 6, a is tracked *)
Definition qs_a : list (@op Exact) := [OFromBlob (row [1; 2; 3; 4; 5; 6]) [2; 3] F64].
Definition qs_b := qs_a ++ [OFromBlob (row [1; 2; 3; 4; 5; 6]) [2; 3] F64].
Definition qs := qs_b ++ [ORequires (#0) true].
(** (a - b) * (a * a - a * b + b * b) *)
Definition qs_c : formula :=
  let a := Var 0 in let b := Var 1 in
  Bin AMul (Bin ASub a b) (Bin AAdd (Bin ASub (Bin AMul a a) (Bin AMul a b)) (Bin AMul b b)).
Definition qs_calls : list (@op Exact) :=
  [OSub (#0) (#1); OMul (#0) (#0); OMul (#0) (#1); OSub (#3) (#4); OMul (#1) (#1); OAdd (#5) (#6); OMul (#2) (#7)].
Lemma qs_a_ok : program qs_a [0]%nat none (xafter qs_a).
Proof.
  apply (call_after []); [exact PStart| |vm]. apply CFromBlob.
  - split; [small|fits_ok].
  - repeat constructor.
  - vm_compute. congruence.
Qed.
Lemma qs_b_ok : program qs_b [1; 0]%nat none (xafter qs_b).
Proof.
  apply (call_after qs_a); [exact qs_a_ok| |vm]. apply CFromBlob.
  - split; [small|fits_ok].
  - repeat constructor.
  - vm_compute. congruence.
Qed.
Lemma qs_ok : program qs [1; 0]%nat none (xafter qs).
Proof.
  apply (requires_after qs_b _ _ _ (xrec (xafter qs_b) 0)); [exact qs_b_ok|hand| | |vm].
  - apply not_node. vm.
  - assert (t_lay (xrec (xafter qs_b) 0) = contig [2; 3]) as -> by vm. apply (dense_contig _ 6); [small|vm|unfold two63; lia].
Qed.
Ltac var ops a := cbn [may_write]; exists (xrec (xafter ops) a); split; [hand|split; [apply not_node; vm|vm]].
Lemma qs_may : may_write (xafter qs) [1; 0]%nat qs_c.
Proof.
  assert (shape_of (xafter qs) 0 = [2; 3]) as S0 by vm. assert (shape_of (xafter qs) 1 = [2; 3]) as S1 by vm.
  unfold qs_c. cbn [may_write form]. rewrite S0, S1.
  split_and!; try (intros E; discriminate E); try decide_it; try fits_ok; try (apply no_zero_one_pos; small); [var qs 0%nat|var qs 1%nat|var qs 0%nat|var qs 0%nat|var qs 0%nat|var qs 1%nat|var qs 1%nat|var qs 1%nat].
Qed.

(** x (0) of shape [2; 3], tracked weights w (1) of shape [3] and a tracked bias b (2) of shape
    []: x * w + (w * b) / (w * w), with w = (1, 2, -3) and b = 1 *)
Definition lm_x : list (@op Exact) := [OFromBlob (row [1; 2; 3; 4; 5; 6]) [2; 3] F32].
Definition lm_w := lm_x ++ [OFromBlob (row [1; 2; -3]) [3] F64].
Definition lm_b := lm_w ++ [OFromBlob (row [1]) [] F64].
Definition lm_t := lm_b ++ [ORequires (#1) true].
Definition lm := lm_t ++ [ORequires (#2) true].
Definition lm_c : formula :=
  let x := Var 0 in let w := Var 1 in let b := Var 2 in
  Bin AAdd (Bin AMul x w) (Bin ADiv (Bin AMul w b) (Bin AMul w w)).
Definition lm_calls : list (@op Exact) := [OMul (#0) (#1); OMul (#1) (#2); OMul (#1) (#1); ODiv (#4) (#5); OAdd (#3) (#6)].
Ltac blob := apply CFromBlob; [split; [small|fits_ok]|repeat constructor|vm_compute; congruence].
Lemma lm_x_ok : program lm_x [0]%nat none (xafter lm_x).
Proof. apply (call_after []); [exact PStart|blob|vm]. Qed.
Lemma lm_w_ok : program lm_w [1; 0]%nat none (xafter lm_w).
Proof. apply (call_after lm_x); [exact lm_x_ok|blob|vm]. Qed.
Lemma lm_b_ok : program lm_b [2; 1; 0]%nat none (xafter lm_b).
Proof. apply (call_after lm_w); [exact lm_w_ok|blob|vm]. Qed.
Lemma lm_t_ok : program lm_t [2; 1; 0]%nat none (xafter lm_t).
Proof.
  apply (requires_after lm_b _ _ _ (xrec (xafter lm_b) 1)); [exact lm_b_ok|hand| | |vm].
  - apply not_node. vm.
  - assert (t_lay (xrec (xafter lm_b) 1) = contig [3]) as -> by vm. apply (dense_contig _ 3); [small|vm|unfold two63; lia].
Qed.
Lemma lm_ok : program lm [2; 1; 0]%nat none (xafter lm).
Proof.
  apply (requires_after lm_t _ _ _ (xrec (xafter lm_t) 2)); [exact lm_t_ok|hand| | |vm].
  - apply not_node. vm.
  - assert (t_lay (xrec (xafter lm_t) 2) = contig []) as -> by vm. apply (dense_contig _ 1); [small|vm|unfold two63; lia].
Qed.
Lemma lm_w_moves e : mentions e 1 -> moving (xafter lm) e.
Proof. intros H. exists 1%nat. split; [exact H|]. exists (xrec (xafter lm) 1). split; vm. Qed.
Lemma lm_may : may_write (xafter lm) [2; 1; 0]%nat lm_c.
Proof.
  assert (shape_of (xafter lm) 0 = [2; 3]) as S0 by vm. assert (shape_of (xafter lm) 1 = [3]) as S1 by vm. assert (shape_of (xafter lm) 2 = []) as S2 by vm.
  unfold lm_c. cbn [may_write form]. rewrite S0, S1, S2.
  split_and!; try (intros E; discriminate E); try decide_it; try fits_ok; try (apply no_zero_one_pos; small);
    [var lm 0%nat|var lm 1%nat|var lm 1%nat|var lm 2%nat|var lm 1%nat|var lm 1%nat|].
  intros _ _. split; [apply lm_w_moves; left; reflexivity|]. split; [apply lm_w_moves; left; reflexivity|vm].
Qed.
Lemma lm_divides : divides (Spec.Formula.reads (xafter lm) [0; 2]) lm_c.
Proof.
  cbn [divides lm_c]. split_and!; try exact I; try (intros E; discriminate E). intros _. cbn [eval calc].
  assert (Spec.Formula.reads (xafter lm) [0; 2] 1 = q (-3)) as -> by vm. intros E. apply (f_equal this) in E. vm_compute in E. discriminate E.
Qed.
