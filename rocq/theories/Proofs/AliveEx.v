(** Lost objects, in exact arithmetic. *)
From Verif.Proofs Require Export OwnEx Alive.
From Verif.Model Require Export Exact Api.
#[local] Existing Instance Exact.

Definition owned (h : @heap Exact) (x : nat) : list nat :=
  match h_ten h !! x with
  | Some r => option_list (t_grad r) ++ match t_fn r with Some f => gf_in f ++ match gf_kind f with KnownGradBack g => [g] | _ => [] end | None => [] end
  | None => []
  end.
Lemma owned_spec h x y : owns h x y -> y ∈ owned h x.
Proof.
  intros (r & Hr & Ho). unfold owned. rewrite Hr. apply elem_of_app. destruct Ho as [Hg|(f & Hf & Ho)]; [left; rewrite Hg; apply elem_of_list_here|right].
  rewrite Hf. apply elem_of_app. destruct Ho as [Hi|Hk]; [by left|right]. rewrite Hk. apply elem_of_list_here.
Qed.
Lemma alive_closed (h : @heap Exact) H l x : (forall y, y ∈ H -> y ∈ l) -> forallb (fun y => forallb (fun z => bool_decide (z ∈ l)) (owned h y)) l = true -> alive h H x -> x ∈ l.
Proof.
  intros HH Hl (y & Hy & R). apply HH in Hy. induction R as [x|x y z Ho R IH]; [done|]. apply IH. rewrite forallb_forall in Hl. specialize (Hl x).
  rewrite <- elem_of_list_In in Hl. specialize (Hl Hy). rewrite forallb_forall in Hl. specialize (Hl y). rewrite <- elem_of_list_In in Hl. eapply bool_decide_eq_true, Hl. by apply owned_spec.
Qed.
(** [h] with the tensor [t] and the buffer [s] overwritten *)
Definition spoil (h : @heap Exact) (t s : nat) : @heap Exact :=
  Hp (<[s := Sto I8 3 None]> (h_sto h)) (<[t := Ten I8 (Lay [7] [7] 7) 99 (Some 99%nat) true true None]> (h_ten h)) (h_ver h).
Lemma spoil_agree (h : @heap Exact) H l t s : (forall y, y ∈ H -> y ∈ l) -> forallb (fun y => forallb (fun z => bool_decide (z ∈ l)) (owned h y)) l = true ->
  forallb (fun y => negb (y =? t)%nat && negb (t_sto (xrec h y) =? s)%nat) l = true -> agree h H (spoil h t s).
Proof.
  intros HH Hl Hn. assert (forall x, alive h H x -> x <> t /\ forall r, h_ten h !! x = Some r -> t_sto r <> s) as K.
  { intros x Hx. apply (alive_closed h H l x HH Hl) in Hx. rewrite forallb_forall in Hn. specialize (Hn x). rewrite <- elem_of_list_In in Hn. specialize (Hn Hx).
    apply andb_true_iff in Hn as [H1 H2]. apply negb_true_iff, Nat.eqb_neq in H1, H2. split; [done|]. intros r Hr. unfold xrec in H2. by rewrite Hr in H2. }
  unfold spoil. split_and!; cbn [h_ten h_sto h_ver]; rewrite ?insert_length; try done.
  - intros x Hx. rewrite list_lookup_insert_ne; [done|]. apply not_eq_sym, K, Hx.
  - intros s' (x & r & Hx & Hr & <-). rewrite list_lookup_insert_ne; [done|]. apply not_eq_sym. by apply (proj2 (K x Hx)).
Qed.
Lemma free_call ops rs H o r : freeing ops rs H (xafter ops) -> forallb (fun a => match a with Some x => bool_decide (x ∈ H) | None => true end) (passed o) = true ->
  (exec o (xafter ops)).1 = Ok r -> freeing (ops ++ [o]) (rs ++ [Ok r]) (holds (Ok r) H) (xafter (ops ++ [o])).
Proof.
  intros Hf Hp E. destruct (freeing_run _ _ _ _ Hf) as (h & R & _). assert (xafter ops = h) as Eh by (unfold xafter; by rewrite R).
  assert (exec o (xafter ops) = (Ok r, (exec o (xafter ops)).2)) as E' by (rewrite <- E; by destruct (exec o (xafter ops))).
  assert (xafter (ops ++ [o]) = (exec o (xafter ops)).2) as ->. { unfold xafter at 1. rewrite Eh in E' |- *. by rewrite (run_snoc _ _ _ _ _ _ _ R E'). }
  eapply FCall; [exact Hf| |exact E'|done|done]. intros x Hx. rewrite forallb_forall in Hp. specialize (Hp (Some x)). rewrite <- elem_of_list_In in Hp. by eapply bool_decide_eq_true, Hp.
Qed.

(** x = (1, 2, -3) tracked (0); y = x * x (1); sum(y) (2); four ones (4), which no one holds *)
Definition lf_2 := ex_1 ++ [OSum (#1)].
Definition lf_ones := lf_2 ++ [OOnes [4] F64].
Definition lf_rs : list (outcome ret) := map (fun r => Ok r) [RHandle (#0); RUnit; RHandle (#1); RHandle (#2); RHandle (#4)].
Lemma lf_free : freeing lf_ones lf_rs [2%nat] (spoil (xafter lf_ones) 4 4).
Proof.
  eapply (FFree _ _ _ (xafter lf_ones)); [|apply (spoil_agree _ _ [2; 1; 0]%nat); [intros y ->%elem_of_list_singleton; mem|vm|vm]].
  eapply (FDrop _ _ [4; 2; 1; 0]%nat); [|intros y ->%elem_of_list_singleton; mem].
  apply (free_call lf_2 [Ok (RHandle (#0)); Ok RUnit; Ok (RHandle (#1)); Ok (RHandle (#2))] [2; 1; 0]%nat _ (RHandle (#4))); [|vm|vm].
  apply (free_call ex_1 [Ok (RHandle (#0)); Ok RUnit; Ok (RHandle (#1))] [1; 0]%nat _ (RHandle (#2))); [|vm|vm].
  apply (free_call ex_leaf [Ok (RHandle (#0)); Ok RUnit] [0]%nat _ (RHandle (#1))); [|vm|vm].
  apply (free_call ex_make [Ok (RHandle (#0))] [0]%nat _ RUnit); [|vm|vm].
  apply (free_call [] [] []%nat _ (RHandle (#0))); [|vm|vm]. exact FStart.
Qed.
Lemma lf_alive x : alive (xafter lf_ones) [2%nat] x -> x ∈ [2; 1; 0]%nat.
Proof. apply alive_closed; [intros y ->%elem_of_list_singleton; mem|vm]. Qed.
Lemma alive_path h H x y : alive h H x -> owns h x y -> alive h H y. Proof. apply alive_step. Qed.
Lemma not_in_use (h : @heap Exact) H l s : (forall x, alive h H x -> x ∈ l) -> forallb (fun y => negb (t_sto (xrec h y) =? s)%nat) l = true -> ~ in_use h H s.
Proof.
  intros Hl K (x & r & Hx & Hr & E). apply Hl in Hx. rewrite forallb_forall in K. specialize (K x). rewrite <- elem_of_list_In in K. specialize (K Hx).
  unfold xrec in K. rewrite Hr, E, Nat.eqb_refl in K. discriminate K.
Qed.
Lemma lf_example :
  let h := xafter lf_ones in let h' := spoil h 4 4 in
  freeing lf_ones lf_rs [2%nat] h' /\ agree h [2%nat] h' /\
  alive h [2%nat] 1 /\ alive h [2%nat] 0 /\ ~ alive h [2%nat] 4 /\ ~ in_use h [2%nat] 4 /\
  (exec (QSize (#4)) h).1 = Ok (RSizes [4]) /\ (exec (QSize (#4)) h').1 = Ok (RSizes [7]) /\
  (exec (OBackward (#2)) h').1 = Ok RUnit /\ grads (exec (OBackward (#2)) h').2 0 = [(2, 1); (4, 1); (-6, 1)].
Proof.
  cbv zeta. assert (alive (xafter lf_ones) [2%nat] 1) as A1. { eapply alive_path; [apply alive_here, elem_of_list_here|]. apply owns_check. vm. }
  split; [exact lf_free|]. split; [apply (spoil_agree _ _ [2; 1; 0]%nat); [intros y ->%elem_of_list_singleton; mem|vm|vm]|].
  split; [exact A1|]. split; [eapply alive_path; [exact A1|]; apply owns_check; vm|].
  split. { intros H%lf_alive. clear A1. repeat setoid_rewrite elem_of_cons in H. destruct H as [H|[H|[H|[]%elem_of_nil]]]; discriminate H. }
  split.
  { apply (not_in_use _ _ [2; 1; 0]%nat); [exact lf_alive|vm]. }
  split_and!; vm.
Qed.
