(** Retained gradients in the program of ProgEx.v, and of a view. *)
From Verif.Proofs Require Export Kept ProgEx.
From Verif.Model Require Export Exact Api.
#[local] Existing Instance Exact.

Lemma retain_after ops H T a r b : program ops H T (xafter ops) -> at_hand (xafter ops) H a r ->
  (exec (ORetain (Some a) b) (xafter ops)).1 = Ok RUnit -> program (ops ++ [ORetain (Some a) b]) H T (xafter (ops ++ [ORetain (Some a) b])).
Proof.
  intros Hp Ha E. assert (program (ops ++ [ORetain (Some a) b]) H T (exec (ORetain (Some a) b) (xafter ops)).2) as K.
  { eapply PRetain; [done..|]. rewrite <- E. by destruct (exec _ (xafter ops)). }
  by rewrite <- (program_after _ _ _ _ K).
Qed.

(** the program ex_10 with y.retain_grad(true) *)
Definition ex_keep := ex_10 ++ [ORetain (#1) true].
Lemma ex_keep_ok : program ex_keep ex_below none (xafter ex_keep).
Proof. apply (retain_after ex_10 _ _ _ (xrec (xafter ex_10) 1)); [exact ex_10_ok|hand|vm]. Qed.
Lemma ex_keep_closed x : below (xafter ex_keep) 10 x -> x ∈ ex_below.
Proof. apply below_closed; [mem|vm]. Qed.
Lemma ex_keep_may : may_backward (xafter ex_keep) ex_below none 10.
Proof.
  split; [split; [mem|apply is_node_check; vm|apply (not_kind _ _ NoBack); [vm|by left]|vm|vm|by intros x _ _ []]|].
  apply (no_mean _ _ ex_below); [exact ex_keep_closed|vm].
Qed.

(** x = (1, 2, -3) tracked (0); y = x * x (1); v = y[0:1], a view (2); sum(v) (5); sum(y) (6);
    t = sum(v) + sum(y) (7); v.retain_grad(true) *)
Definition vw_2 := ex_1 ++ [OSlice (#1) (chars "0:1")].
Definition vw_5 := vw_2 ++ [OSum (#2)].
Definition vw_6 := vw_5 ++ [OSum (#1)].
Definition vw_7 := vw_6 ++ [OAdd (#5) (#6)].
Definition vw := vw_7 ++ [ORetain (#2) true].
Lemma vw_2_ok : program vw_2 [2; 1; 0]%nat none (xafter vw_2).
Proof.
  apply (call_after ex_1); [exact ex_1_ok| |vm]. apply (CSlice _ _ 1%nat (xrec (xafter ex_1) 1)); [hand|].
  assert (shape (xrec (xafter ex_1) 1) = [3]) as -> by vm. small.
Qed.
Lemma vw_5_ok : program vw_5 [5; 2; 1; 0]%nat none (xafter vw_5).
Proof. apply (call_after vw_2); [exact vw_2_ok| |vm]. apply (CSum _ _ 2%nat (xrec (xafter vw_2) 2)). hand. Qed.
Lemma vw_6_ok : program vw_6 [6; 5; 2; 1; 0]%nat none (xafter vw_6).
Proof. apply (call_after vw_5); [exact vw_5_ok| |vm]. apply (CSum _ _ 1%nat (xrec (xafter vw_5) 1)). hand. Qed.
Lemma vw_7_ok : program vw_7 [7; 6; 5; 2; 1; 0]%nat none (xafter vw_7).
Proof.
  apply (call_after vw_6); [exact vw_6_ok| |vm].
  apply (CArith (xafter vw_6) _ AAdd 5%nat 6%nat (xrec (xafter vw_6) 5) (xrec (xafter vw_6) 6)); [hand|hand|decide_it| |fits_ok|intros E; discriminate E].
  apply no_zero_one_pos; [assert (shape (xrec (xafter vw_6) 5) = []) as -> by vm|assert (shape (xrec (xafter vw_6) 6) = []) as -> by vm]; small.
Qed.
Definition vw_held : list nat := [7; 6; 5; 2; 1; 0]%nat.
Lemma vw_ok : program vw vw_held none (xafter vw).
Proof. apply (retain_after vw_7 _ _ _ (xrec (xafter vw_7) 2)); [exact vw_7_ok|hand|vm]. Qed.
Lemma vw_closed x : below (xafter vw) 7 x -> x ∈ vw_held.
Proof. apply below_closed; [mem|vm]. Qed.
Lemma vw_may : may_backward (xafter vw) vw_held none 7.
Proof.
  split; [split; [mem|apply is_node_check; vm|apply (not_kind _ _ NoBack); [vm|by left]|vm|vm|by intros x _ _ []]|].
  apply (no_mean _ _ vw_held); [exact vw_closed|vm].
Qed.
(** the rates when the element of v changes at rate 1: nothing flows to y *)
Definition vw_rate (x : nat) (idx : list Z) : Qc :=
  if decide (x = 2%nat /\ idx = [0]) then 1%Qc else if decide (x = 5%nat \/ x = 7%nat) then 1%Qc else 0%Qc.
Definition node_of (h : @heap Exact) (x : nat) : option (bkind * list nat) := option_map (fun f => (gf_kind f, gf_in f)) (fn_of h x).
Lemma node_of_fn h x f : fn_of h x = Some f -> node_of h x = Some (gf_kind f, gf_in f).
Proof. unfold node_of. by intros ->. Qed.
Lemma node_of_node h x p : node_of h x = Some p -> is_node h x.
Proof. unfold node_of, is_node. destruct (fn_of h x) as [f|]; [by exists f|done]. Qed.
Lemma vw_derivative_of h :
  (forall x, below h 7 x -> x ∈ vw_held /\ tracked h x) -> node_of h 7 = Some (AddBack, (5 :: 6 :: nil)%nat) -> node_of h 6 = Some (SumBack, (1 :: nil)%nat) ->
  node_of h 5 = Some (SumBack, (2 :: nil)%nat) -> node_of h 1 = Some (MulBack, (0 :: 0 :: nil)%nat) -> node_of h 0 = None ->
  shape_of h 2 = [1] -> shape_of h 1 = [3] -> is_node h 2 -> derivative_at h 7 2 [0] (vw_rate 7 (map (fun _ => 0) (shape_of h 7))).
Proof.
  intros Hc E7 E6 E5 E1 E0 S2 S1 N2. exists vw_rate. split; [|split; [|split]]; [| | |reflexivity].
  - intros x f Hb Hne Hf%node_of_fn. apply Hc in Hb as [Hb _]. unfold vw_held in Hb. rewrite !elem_of_cons, elem_of_nil in Hb.
    destruct Hb as [->|[->|[->|[->|[->|[->|[]]]]]]]; [rewrite E7 in Hf|rewrite E6 in Hf|rewrite E5 in Hf|done|rewrite E1 in Hf|by rewrite E0 in Hf]; injection Hf as <- <-; cbn [rule].
    + intros idx _. change (1 = 1 + 0)%Qc. ring.
    + rewrite S1. reflexivity.
    + rewrite S2. reflexivity.
    + intros idx _. change (0 = 0 * value h 0%nat (bidx (shape_of h 0) idx) + value h 0%nat (bidx (shape_of h 0) idx) * 0)%Qc. ring.
  - intros x idx Hb Hn. by apply Hc in Hb as [_ Ht].
  - intros x idx Hb [->|[Hn Ht]].
    + unfold vw_rate. case_decide; [done|]. by rewrite decide_False by naive_solver.
    + assert (x = 0%nat) as ->.
      { apply Hc in Hb as [Hb _]. unfold vw_held in Hb. rewrite !elem_of_cons, elem_of_nil in Hb.
        destruct Hb as [->|[->|[->|[->|[->|[->|[]]]]]]]; [exfalso; apply Hn..|reflexivity]; [exact (node_of_node _ _ _ E7)|exact (node_of_node _ _ _ E6)|exact (node_of_node _ _ _ E5)|exact N2|exact (node_of_node _ _ _ E1)]. }
      unfold vw_rate. by rewrite !decide_False by naive_solver.
Qed.
Lemma vw_derivative : derivative_at (xafter vw) 7 2 [0] 1%Qc.
Proof.
  apply (vw_derivative_of (xafter vw)); [|vm|vm|vm|vm|vm|vm|vm|apply is_node_check; vm].
  intros x Hb%vw_closed. split; [exact Hb|]. apply leaf_tracked.
  assert (forallb (fun y => t_rg (xrec (xafter vw) y)) vw_held = true) as Ef by vm.
  rewrite forallb_forall in Ef. apply Ef. by apply elem_of_list_In.
Qed.
Lemma retained_view_refuted : exists ops H T h t u r h' j q, program ops H T h /\ may_backward h H T t /\ below h t u /\ is_node h u /\ u <> t /\
  h_ten h !! u = Some r /\ t_ret r = true /\ in_range (shape_of h u) j /\ exec (OBackward (Some t)) h = (Ok RUnit, h') /\
  derivative_at h t u j q /\ grad_value h' u j <> q.
Proof.
  destruct (program_backward _ _ _ _ _ vw_ok vw_may) as (h' & E & K & _). pose proof (program_after _ _ _ _ K) as Eh.
  exists vw, vw_held, none, (xafter vw), 7%nat, 2%nat, (xrec (xafter vw) 2), h', [0], 1%Qc.
  split; [exact vw_ok|]. split; [exact vw_may|]. split; [apply (below_path _ _ [5; 2]%nat); vm|]. split; [apply is_node_check; vm|].
  split; [done|]. split; [vm|]. split; [vm|]. split; [assert (shape_of (xafter vw) 2 = [1]) as -> by vm; constructor; [lia|constructor]|].
  split; [exact E|]. split; [exact vw_derivative|]. rewrite Eh. intros H. apply (f_equal (fun q : Qc => Qnum q)) in H. vm_compute in H. discriminate H.
Qed.

(** sum(x) (1) *)
Definition ag_1 := ex_leaf ++ [OSum (#0)].
Lemma ag_ok : program ag_1 [1; 0]%nat none (xafter ag_1).
Proof. apply (call_after ex_leaf); [exact ex_leaf_ok| |vm]. apply (CSum _ _ 0%nat (xrec (xafter ex_leaf) 0)). hand. Qed.
Lemma ag_closed x : below (xafter ag_1) 1 x -> x ∈ [1; 0]%nat.
Proof. apply below_closed; [mem|vm]. Qed.
Lemma ag_may : may_backward (xafter ag_1) [1; 0]%nat none 1.
Proof.
  split; [split; [mem|apply is_node_check; vm|apply (not_kind _ _ NoBack); [vm|by left]|vm|vm|by intros x _ _ []]|].
  apply (no_mean _ _ [1; 0]%nat); [exact ag_closed|vm].
Qed.
Lemma ag_leaves x : below (xafter ag_1) 1 x -> x <> 1%nat -> ~ is_node (xafter ag_1) x.
Proof.
  intros Hb%ag_closed Hne. rewrite !elem_of_cons, elem_of_nil in Hb. destruct Hb as [->|[->|[]]]; [by destruct Hne|apply not_node; vm].
Qed.
(** the base of v is y *)
Lemma base_step h x a : node_of h x = Some (NoBack, a :: nil) -> ~ is_view h a -> is_view h x /\ base_of h x a.
Proof.
  unfold node_of. intros E Ha. destruct (fn_of h x) as [f|] eqn:Hf; [|discriminate E]. injection E as E1 E2.
  split; [by exists f|]. eapply base_view; [done..|]. by apply base_self.
Qed.
Lemma vw_base : is_view (xafter vw) 2 /\ base_of (xafter vw) 2 1.
Proof. apply base_step; [vm|apply (not_kind _ _ NoBack); [vm|by left]]. Qed.
