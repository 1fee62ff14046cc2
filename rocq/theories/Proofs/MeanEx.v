(** Means below the root, in exact arithmetic. *)
From Verif.Proofs Require Export ProgEx Mean.
From Verif.Model Require Export Exact Api.
#[local] Existing Instance Exact.

(** x = (1, 2, -3) tracked (0); y = x * x (1); mean(x) (2); mean(y) (3); their sum (4) and their
    product (5) *)
Definition mn_2 := ex_1 ++ [OMean (#0)].
Definition mn_3 := mn_2 ++ [OMean (#1)].
Definition mn_4 := mn_3 ++ [OAdd (#2) (#3)].
Definition mn_5 := mn_4 ++ [OMul (#2) (#3)].
Definition mn_held : list nat := [5; 4; 3; 2; 1; 0]%nat.
Lemma mn_2_ok : program mn_2 [2; 1; 0]%nat none (xafter mn_2).
Proof. apply (call_after ex_1); [exact ex_1_ok| |vm]. apply (CMean _ _ 0%nat (xrec (xafter ex_1) 0)). hand. Qed.
Lemma mn_3_ok : program mn_3 [3; 2; 1; 0]%nat none (xafter mn_3).
Proof. apply (call_after mn_2); [exact mn_2_ok| |vm]. apply (CMean _ _ 1%nat (xrec (xafter mn_2) 1)). hand. Qed.
Ltac arith0 o ops a b := apply (CArith (xafter ops) _ o a b (xrec (xafter ops) a) (xrec (xafter ops) b)); [hand|hand|decide_it|
  apply no_zero_one_pos; [assert (shape (xrec (xafter ops) a) = []) as -> by vm|assert (shape (xrec (xafter ops) b) = []) as -> by vm]; small|fits_ok|].
Lemma mn_4_ok : program mn_4 [4; 3; 2; 1; 0]%nat none (xafter mn_4).
Proof. apply (call_after mn_3); [exact mn_3_ok| |vm]. arith0 AAdd mn_3 2%nat 3%nat. intros E; discriminate E. Qed.
Lemma mn_5_ok : program mn_5 mn_held none (xafter mn_5).
Proof. apply (call_after mn_4); [exact mn_4_ok| |vm]. arith0 AMul mn_4 2%nat 3%nat. intros E; discriminate E. Qed.
Lemma mn_start_4 : may_start (xafter mn_5) mn_held none 4.
Proof. split; [mem|apply is_node_check; vm|apply (not_kind _ _ NoBack); [vm|by left]|vm|vm|by intros x _ _ []]. Qed.
Lemma mn_start_5 : may_start (xafter mn_5) mn_held none 5.
Proof. split; [mem|apply is_node_check; vm|apply (not_kind _ _ NoBack); [vm|by left]|vm|vm|by intros x _ _ []]. Qed.
Definition mean_check (h : @heap Exact) (t x : nat) : bool := negb (x =? t)%nat && match fn_of h x with Some f => kind_is MeanBack f | None => false end.
Lemma is_mean_check h t x : mean_check h t x = true <-> x <> t /\ is_mean h x.
Proof.
  unfold mean_check, is_mean. rewrite andb_true_iff, negb_true_iff, Nat.eqb_neq. destruct (fn_of h x) as [f|] eqn:E.
  - split; intros [H1 H2]; (split; [done|]).
    + exists f. split; [done|]. unfold kind_is in H2. by destruct (gf_kind f).
    + destruct H2 as (g & Hg & Hk). assert (g = f) as -> by congruence. unfold kind_is. by rewrite Hk.
  - split; [by intros [_ ?]|]. by intros (_ & g & ? & _).
Qed.
Lemma means_list (h : @heap Exact) t l ms : (forall x, below h t x -> x ∈ l) -> NoDup ms -> (forall m, m ∈ ms -> below h t m) ->
  filter (fun x => mean_check h t x) l = ms -> means h t ms.
Proof.
  intros Hl Hnd Hb E. split; [done|]. intros x. split.
  - intros Hx. pose proof (Hb x Hx) as B. rewrite <- E in Hx. apply elem_of_list_filter in Hx as [Hx _]. apply Is_true_eq_true, is_mean_check in Hx as [? ?]. by split.
  - intros (B & Hx). rewrite <- E. apply elem_of_list_filter. split; [|by apply Hl]. by apply Is_true_eq_left, is_mean_check.
Qed.
Lemma mn_below t m : t ∈ [4; 5]%nat -> m ∈ [3; 2]%nat -> below (xafter mn_5) t m.
Proof.
  rewrite !elem_of_cons. intros [->|[->|[]%elem_of_nil]] [->|[->|[]%elem_of_nil]]; [apply (below_path _ _ [3]%nat)|apply (below_path _ _ [2]%nat)|apply (below_path _ _ [3]%nat)|apply (below_path _ _ [2]%nat)]; vm.
Qed.
Lemma mn_means_4 : means (xafter mn_5) 4 [3; 2]%nat.
Proof.
  apply (means_list _ _ [4; 3; 2; 1; 0]%nat); [intros x; apply below_closed; [mem|vm]|decide_it|intros m; apply mn_below; mem|vm].
Qed.
Lemma mn_means_5 : means (xafter mn_5) 5 [3; 2]%nat.
Proof.
  apply (means_list _ _ [5; 3; 2; 1; 0]%nat); [intros x; apply below_closed; [mem|vm]|decide_it|intros m; apply mn_below; mem|vm].
Qed.
(** the derivative with respect to a mean, computed *)
Lemma slope_check ops H T t m u : program ops H T (xafter ops) -> may_start (xafter ops) H T t -> mean_below (xafter ops) t m ->
  Qc_eq_bool (slope_at (xafter ops) m t (map (fun _ => 0) (shape_of (xafter ops) t))) u = true -> derivative_at (xafter ops) t m [] u.
Proof.
  intros Hp Hb Hm <-%Qc_eq_bool_correct. pose proof (program_ready _ _ _ _ _ Hp Hb) as Hgr. destruct (program_facts _ _ _ _ Hp) as (Hinv & Hver & Hsz). by apply slope_derivative.
Qed.
Lemma mn_unit m : mean_below (xafter mn_5) 4 m -> derivative_at (xafter mn_5) 4 m [] 1%Qc.
Proof.
  intros Hm. eapply slope_check; [exact mn_5_ok|exact mn_start_4|exact Hm|]. apply mn_means_4 in Hm. clear - Hm. repeat setoid_rewrite elem_of_cons in Hm.
  destruct Hm as [->|[->|[]%elem_of_nil]]; vm.
Qed.
(** by the product, the means have derivatives mean(y) and mean(x) *)
Lemma mn_ups : derivative_at (xafter mn_5) 5 2 [] (q 14 / q 3)%Qc /\ derivative_at (xafter mn_5) 5 3 [] 0%Qc.
Proof.
  split; (eapply slope_check; [exact mn_5_ok|exact mn_start_5|apply mn_means_5; mem|vm]).
Qed.
Lemma leaf_check ops H T t a i u : program ops H T (xafter ops) -> may_start (xafter ops) H T t ->
  Qc_eq_bool (tan (xafter ops) (unit_at a i) [] t (map (fun _ => 0) (shape_of (xafter ops) t))) u = true -> derivative (xafter ops) t a i u.
Proof.
  intros Hp Hb <-%Qc_eq_bool_correct. pose proof (program_ready _ _ _ _ _ Hp Hb) as Hgr. destruct (program_facts _ _ _ _ Hp) as (Hinv & Hver & Hsz).
  assert (forall x, x ∈ @nil nat -> tracked (xafter ops) x /\ ~ is_view (xafter ops) x) as K by (by intros x ?%elem_of_nil).
  exists (tan (xafter ops) (unit_at a i) []). split; [split|split; [|done]].
  - intros x f Hx Hf. apply (tan_rule _ t Hinv Hgr _ [] (fixed_ok _ _ _ K)); [done|apply not_elem_of_nil|done].
  - intros. by apply (tan_untracked _ t Hinv Hgr _ [] (fixed_ok _ _ _ K)).
  - intros x idx _ Hn Ht. refine (tan_leaf _ t Hinv Hgr (unit_at a i) [] x idx _). auto.
Qed.
(** the derivatives of the product at x are 14/9 each *)
Lemma mn_true i : i ∈ [[0]; [1]; [2]] -> derivative (xafter mn_5) 5 0 i (q 14 / q 9)%Qc.
Proof.
  intros Hi. eapply leaf_check; [exact mn_5_ok|exact mn_start_5|]. repeat setoid_rewrite elem_of_cons in Hi. destruct Hi as [->|[->|[->|[]%elem_of_nil]]]; vm.
Qed.
