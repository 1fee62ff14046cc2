(** backward() from views with one element. *)
From Verif.Proofs Require Export MeanEx.
From Verif.Model Require Export Exact Api.
#[local] Existing Instance Exact.

Lemma back_after ops H T t : program ops H T (xafter ops) -> may_start (xafter ops) H T t -> (exec (OBackward (Some t)) (xafter ops)).1 = Ok RUnit ->
  program (ops ++ [OBackward (Some t)]) H (fun x => T x \/ below (xafter ops) t x /\ is_node (xafter ops) x) (xafter (ops ++ [OBackward (Some t)])).
Proof.
  intros Hp Hm E. assert (program (ops ++ [OBackward (Some t)]) H (fun x => T x \/ below (xafter ops) t x /\ is_node (xafter ops) x) (exec (OBackward (Some t)) (xafter ops)).2) as K.
  { eapply PBackward; [done|by left|]. rewrite <- E. by destruct (exec _ (xafter ops)). }
  by rewrite <- (program_after _ _ _ _ K).
Qed.
Lemma view_check h t : match fn_of h t with Some f => kind_is NoBack f | None => false end = true -> is_view h t.
Proof. unfold is_view. destruct (fn_of h t) as [f|]; [|done]. intros E. exists f. split; [done|]. unfold kind_is in E. by destruct (gf_kind f). Qed.

(** x = (1, 2, -3) tracked (0); y = x * x (1); sum(x) (2); y[1], a view (3); sum(x).backward() *)
Definition vr_2 := ex_1 ++ [OSum (#0)].
Definition vr_3 := vr_2 ++ [OSlice (#1) (chars "1")].
Definition vr := vr_3 ++ [OBackward (#2)].
Definition vr_held : list nat := [3; 2; 1; 0]%nat.
Definition vr_passed (x : nat) : Prop := none x \/ below (xafter vr_3) 2 x /\ is_node (xafter vr_3) x.
Lemma vr_2_ok : program vr_2 [2; 1; 0]%nat none (xafter vr_2).
Proof. apply (call_after ex_1); [exact ex_1_ok| |vm]. apply (CSum _ _ 0%nat (xrec (xafter ex_1) 0)). hand. Qed.
Lemma vr_3_ok : program vr_3 vr_held none (xafter vr_3).
Proof.
  apply (call_after vr_2); [exact vr_2_ok| |vm]. apply (CSlice _ _ 1%nat (xrec (xafter vr_2) 1)); [hand|].
  assert (shape (xrec (xafter vr_2) 1) = [3]) as -> by vm. small.
Qed.
Lemma vr_ok : program vr vr_held vr_passed (xafter vr).
Proof.
  apply (back_after vr_3); [exact vr_3_ok| |vm].
  split; [mem|apply is_node_check; vm|apply (not_kind _ _ NoBack); [vm|by left]|vm|vm|by intros x _ _ []].
Qed.
Lemma vr_closed x : below (xafter vr) 3 x -> x ∈ [3; 1; 0]%nat.
Proof. apply below_closed; [mem|vm]. Qed.
Lemma vr_start : may_start_view (xafter vr) vr_held vr_passed 3.
Proof.
  split; [mem|apply view_check; vm|vm|].
  intros x Hx Hn [[]|[Hb Hx']]. apply vr_closed in Hx. assert (x ∈ [2; 0]%nat) as K by (revert Hb; apply below_closed; [mem|vm]).
  assert (x = 0%nat) as -> by (clear - Hx K; set_solver). revert Hx'. apply not_node. vm.
Qed.
Lemma vr_means x : ~ mean_below (xafter vr) 3 x.
Proof.
  intros (B & Hn & f & Hf & Hk). exact (Hn (no_mean (xafter vr) 3%nat [3; 1; 0]%nat vr_closed ltac:(vm) x f B Hf Hk)).
Qed.

(** the same x and y; mean(x) (2); y + mean(x) (3) and its element 1, a view (4) *)
Definition vm_3 := mn_2 ++ [OAdd (#1) (#2)].
Definition vm_4 := vm_3 ++ [OSlice (#3) (chars "1")].
Definition vm_held : list nat := [4; 3; 2; 1; 0]%nat.
Lemma vm_3_ok : program vm_3 [3; 2; 1; 0]%nat none (xafter vm_3).
Proof.
  apply (call_after mn_2); [exact mn_2_ok| |vm].
  apply (CArith (xafter mn_2) _ AAdd 1%nat 2%nat (xrec (xafter mn_2) 1) (xrec (xafter mn_2) 2)); [hand|hand|decide_it| |fits_ok|intros E; discriminate E].
  apply no_zero_one_pos; [assert (shape (xrec (xafter mn_2) 1) = [3]) as -> by vm|assert (shape (xrec (xafter mn_2) 2) = []) as -> by vm]; small.
Qed.
Lemma vm_4_ok : program vm_4 vm_held none (xafter vm_4).
Proof.
  apply (call_after vm_3); [exact vm_3_ok| |vm]. apply (CSlice _ _ 3%nat (xrec (xafter vm_3) 3)); [hand|].
  assert (shape (xrec (xafter vm_3) 3) = [3]) as -> by vm. small.
Qed.
Lemma vm_start : may_start_view (xafter vm_4) vm_held none 4.
Proof. split; [mem|apply view_check; vm|vm|by intros x _ _ []]. Qed.
Lemma vm_means : means (xafter vm_4) 4 [2]%nat.
Proof.
  apply (means_list _ _ vm_held); [intros x; apply below_closed; [mem|vm]|decide_it| |vm].
  intros m ->%elem_of_list_singleton. apply (below_path _ _ [3; 2]%nat). vm.
Qed.
