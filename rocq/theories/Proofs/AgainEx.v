(** A second pass over nodes that an earlier one has passed. *)
From Verif.Proofs Require Export CutEx VrootEx StaleEx.
From Verif.Model Require Export Exact Api.
#[local] Existing Instance Exact.

(** x = (1, 2, -3) (0), y = x * x (1), sum(y) (2) and its backward(); then p = x * y (9),
    z = p + x (10), sum(z) (11) *)
Definition ax_2 := ex_1 ++ [OSum (#1)].
Definition ax_b := ax_2 ++ [OBackward (#2)].
Definition ax_9 := ax_b ++ [OMul (#0) (#1)].
Definition ax_10 := ax_9 ++ [OAdd (#9) (#0)].
Definition ax_11 := ax_10 ++ [OSum (#10)].
Definition ax_passed : nat -> Prop := fun x => none x \/ below (xafter ax_2) 2 x /\ is_node (xafter ax_2) x.
Definition ax_held : list nat := [11; 10; 9; 2; 1; 0]%nat.
Lemma ax_2_ok : program ax_2 [2; 1; 0]%nat none (xafter ax_2).
Proof. apply (call_after ex_1); [exact ex_1_ok| |vm]. apply (CSum _ _ 1%nat (xrec (xafter ex_1) 1)). hand. Qed.
Lemma ax_b_ok : program ax_b [2; 1; 0]%nat ax_passed (xafter ax_b).
Proof.
  apply (back_after ax_2); [exact ax_2_ok| |vm].
  split; [mem|apply is_node_check; vm|apply (not_kind _ _ NoBack); [vm|by left]|vm|vm|by intros x _ _ []].
Qed.
Lemma ax_9_ok : program ax_9 [9; 2; 1; 0]%nat ax_passed (xafter ax_9).
Proof. apply (call_after ax_b); [exact ax_b_ok| |vm]. arith AMul ax_b 0%nat 1%nat. intros E; discriminate E. Qed.
Lemma ax_10_ok : program ax_10 [10; 9; 2; 1; 0]%nat ax_passed (xafter ax_10).
Proof. apply (call_after ax_9); [exact ax_9_ok| |vm]. arith AAdd ax_9 9%nat 0%nat. intros E; discriminate E. Qed.
Lemma ax_ok : program ax_11 ax_held ax_passed (xafter ax_11).
Proof. apply (call_after ax_10); [exact ax_10_ok| |vm]. apply (CSum _ _ 10%nat (xrec (xafter ax_10) 10)). hand. Qed.
Lemma ax_closed x : below (xafter ax_11) 11 x -> x ∈ [11; 10; 9; 1; 0]%nat.
Proof. apply below_closed; [mem|vm]. Qed.
Lemma ax_first x : ax_passed x -> x ∈ [2; 1]%nat.
Proof.
  intros [[]|[Hb Hn]]. assert (x ∈ [2; 1; 0]%nat) as K by (revert Hb; apply below_closed; [mem|vm]).
  assert (x = 0%nat \/ x ∈ [2; 1]%nat) as [->|?] by (clear - K; set_solver); [|done]. exfalso. revert Hn. apply not_node. vm.
Qed.
Lemma ax_y : ax_passed 1.
Proof. right. split; [apply (below_path _ _ [1]%nat); vm|apply is_node_check; vm]. Qed.
Definition no_kind (h : heap) (k : bkind) (l : list nat) : bool := forallb (fun y => match fn_of h y with Some g => negb (kind_is k g) | None => true end) l.
Lemma no_kind_ok h k l x f : no_kind h k l = true -> k = NoBack \/ k = MeanBack -> x ∈ l -> fn_of h x = Some f -> gf_kind f <> k.
Proof.
  intros E Hk Hx Hf Ek. unfold no_kind in E. rewrite forallb_forall in E. specialize (E x). rewrite <- elem_of_list_In in E. specialize (E Hx). rewrite Hf in E.
  unfold kind_is in E. rewrite Ek in E. by destruct Hk as [-> | ->].
Qed.
Lemma ax_may : may_again (xafter ax_11) ax_held ax_passed 11.
Proof.
  split.
  - mem.
  - apply is_node_check; vm.
  - apply (not_kind _ _ NoBack); [vm|by left].
  - vm.
  - vm.
  - intros x f Hx Hf Hk. exfalso. revert Hk. eapply (no_kind_ok (xafter ax_11) MeanBack [11; 10; 9; 1; 0]%nat); [vm|by right|by apply ax_closed|exact Hf].
  - intros x r Hx _ Tx Hr. apply ax_closed in Hx. apply ax_first in Tx. assert (x = 1%nat) as -> by (clear - Hx Tx; set_solver).
    assert (h_ten (xafter ax_11) !! 1%nat = Some (xrec (xafter ax_11) 1)) as E by vm. rewrite E in Hr. apply (inj Some) in Hr as <-. vm.
  - intros x y Hx (f & Hf & Hk). exfalso. revert Hk. eapply (no_kind_ok (xafter ax_11) NoBack [11; 10; 9; 1; 0]%nat); [vm|by left|by apply ax_closed|exact Hf].
Qed.
Lemma ax_settled : settled (xafter ax_11) 11.
Proof. apply (settled_check _ _ [11; 10; 9; 1]%nat); vm. Qed.
Lemma ax_unpassed : ~ unpassed (xafter ax_11) 1.
Proof.
  intros Hu%unpassedb_ok. assert (unpassedb (xafter ax_11) 1 = false) as E by vm. congruence.
Qed.
