(** A program of Spec/Program.v, in exact arithmetic. *)
From Verif.Proofs Require Export Prog9 Samples.
From Verif.Model Require Export Exact Api.
#[local] Existing Instance Exact.

Notation "# n" := (Some n%nat) (at level 1, only parsing).
Definition xafter (ops : list (@op Exact)) : @heap Exact := (run empty_heap ops).2.
Definition xrec (h : @heap Exact) (t : nat) : tensor :=
  match h_ten h !! t with Some r => r | None => Ten I8 (Lay [] [] 0) 0 None false false None end.
Definition q (n : Z) : Qc := qc_of_Z n.
Definition row (l : list Z) : list (@val Exact) := map (fun n => @VF Exact (q n)) l.

Lemma below_closed (h : @heap Exact) t l x : t ∈ l -> forallb (fun y => forallb (fun z => bool_decide (z ∈ l)) (inputs h y)) l = true -> below h t x -> x ∈ l.
Proof.
  intros Ht Hl. rewrite forallb_forall in Hl. induction 1 as [|y z Hy IH Hz]; [done|].
  specialize (Hl y). rewrite <- elem_of_list_In in Hl. specialize (Hl IH). rewrite forallb_forall in Hl. specialize (Hl z). rewrite <- elem_of_list_In in Hl.
  by apply bool_decide_eq_true in Hl.
Qed.
Lemma dense_contig ss n : Forall (fun n => 0 <= n) ss -> size_prod ss = n -> 0 <= n < two63 -> dense (contig ss).
Proof. intros H1 <- H3. apply rm_dense; [done|]. intros idx Hi. apply pos_contig; [done|]. apply H3. Qed.
Lemma program_after ops H T h : program ops H T h -> h = xafter ops.
Proof. intros Hp. destruct (program_run _ _ _ _ Hp) as (_ & rs & E). unfold xafter. by rewrite E. Qed.
Lemma call_after ops H T o x : program ops H T (xafter ops) -> may_call (xafter ops) H o -> (exec o (xafter ops)).1 = Ok (RHandle (Some x)) ->
  program (ops ++ [o]) (x :: H) T (xafter (ops ++ [o])).
Proof.
  intros Hp Hc E. assert (program (ops ++ [o]) (x :: H) T (exec o (xafter ops)).2) as K. { eapply PCall; [done|done|]. rewrite <- E. by destruct (exec o (xafter ops)). }
  by rewrite <- (program_after _ _ _ _ K).
Qed.
Lemma requires_after ops H T a r : program ops H T (xafter ops) -> at_hand (xafter ops) H a r -> ~ is_node (xafter ops) a -> dense (t_lay r) ->
  (exec (ORequires (Some a) true) (xafter ops)).1 = Ok RUnit -> program (ops ++ [ORequires (Some a) true]) H T (xafter (ops ++ [ORequires (Some a) true])).
Proof.
  intros Hp Ha Hn Hd E. assert (program (ops ++ [ORequires (Some a) true]) H T (exec (ORequires (Some a) true) (xafter ops)).2) as K.
  { eapply PRequires; [done..|]. rewrite <- E. by destruct (exec _ (xafter ops)). }
  by rewrite <- (program_after _ _ _ _ K).
Qed.
Lemma zero_after ops H T a r : program ops H T (xafter ops) -> at_hand (xafter ops) H a r -> ~ is_node (xafter ops) a ->
  (exec (OZeroGrad (Some a)) (xafter ops)).1 = Ok RUnit -> program (ops ++ [OZeroGrad (Some a)]) H T (xafter (ops ++ [OZeroGrad (Some a)])).
Proof.
  intros Hp Ha Hn E. assert (program (ops ++ [OZeroGrad (Some a)]) H T (exec (OZeroGrad (Some a)) (xafter ops)).2) as K.
  { eapply PZero; [done..|]. rewrite <- E. by destruct (exec _ (xafter ops)). }
  by rewrite <- (program_after _ _ _ _ K).
Qed.

Ltac hand := split; [mem|vm].
Ltac small := repeat first [apply Forall_nil_2 | apply Forall_cons_2; [vm_compute; intuition congruence|]].

(** x = (1, 2, -3) tracked (0); y = x * x (1); v = x reversed, a view (2); c = abs(x) (5, and
    the signs); w = v / c (7); p = y * w (8); z = p + y (9); sum(z) (10) *)
Definition ex_make : list (@op Exact) := [OFromBlob (row [1; 2; -3]) [3] F64].
Definition ex_leaf := ex_make ++ [ORequires (#0) true].
Definition ex_1 := ex_leaf ++ [OMul (#0) (#0)].
Definition ex_2 := ex_1 ++ [OSlice (#0) (chars "::-1")].
Definition ex_5 := ex_2 ++ [OAbs (#0)].
Definition ex_7 := ex_5 ++ [ODiv (#2) (#5)].
Definition ex_8 := ex_7 ++ [OMul (#1) (#7)].
Definition ex_9 := ex_8 ++ [OAdd (#8) (#1)].
Definition ex_10 := ex_9 ++ [OSum (#9)].

Lemma ex_make_ok : program ex_make [0%nat] none (xafter ex_make).
Proof.
  apply (call_after []); [exact PStart| |vm]. apply CFromBlob.
  - split; [small|fits_ok].
  - repeat constructor.
  - vm_compute. congruence.
Qed.
Lemma leaf_dense : dense (contig [3]).
Proof. apply (dense_contig _ 3); [small|vm|unfold two63; lia]. Qed.
Lemma not_node h a : fn_of h a = None -> ~ is_node h a.
Proof. intros E [f Ef]. congruence. Qed.
Lemma ex_leaf_ok : program ex_leaf [0%nat] none (xafter ex_leaf).
Proof.
  apply (requires_after ex_make _ _ _ (xrec (xafter ex_make) 0)); [exact ex_make_ok|hand| | |vm].
  - apply not_node. vm.
  - assert (t_lay (xrec (xafter ex_make) 0) = contig [3]) as -> by vm. exact leaf_dense.
Qed.
Ltac arith o ops a b := apply (CArith (xafter ops) _ o a b (xrec (xafter ops) a) (xrec (xafter ops) b)); [hand|hand|decide_it|
  apply no_zero_one_pos; [assert (shape (xrec (xafter ops) a) = [3]) as -> by vm|assert (shape (xrec (xafter ops) b) = [3]) as -> by vm]; small|fits_ok|].
Lemma ex_1_ok : program ex_1 [1; 0]%nat none (xafter ex_1).
Proof. apply (call_after ex_leaf); [exact ex_leaf_ok| |vm]. arith AMul ex_leaf 0%nat 0%nat. intros E; discriminate E. Qed.
Lemma ex_2_ok : program ex_2 [2; 1; 0]%nat none (xafter ex_2).
Proof.
  apply (call_after ex_1); [exact ex_1_ok| |vm]. apply (CSlice _ _ 0%nat (xrec (xafter ex_1) 0)); [hand|].
  assert (shape (xrec (xafter ex_1) 0) = [3]) as -> by vm. small.
Qed.
Lemma ex_5_ok : program ex_5 [5; 2; 1; 0]%nat none (xafter ex_5).
Proof.
  apply (call_after ex_2); [exact ex_2_ok| |vm]. apply (CAbs _ _ 0%nat (xrec (xafter ex_2) 0)); [hand|].
  assert (t_lay (xrec (xafter ex_2) 0) = contig [3]) as -> by vm. exact leaf_dense.
Qed.
Lemma ex_7_ok : program ex_7 [7; 5; 2; 1; 0]%nat none (xafter ex_7).
Proof. apply (call_after ex_5); [exact ex_5_ok| |vm]. arith ADiv ex_5 2%nat 5%nat. intros _ _. split_and!; vm. Qed.
Lemma ex_8_ok : program ex_8 [8; 7; 5; 2; 1; 0]%nat none (xafter ex_8).
Proof. apply (call_after ex_7); [exact ex_7_ok| |vm]. arith AMul ex_7 1%nat 7%nat. intros E; discriminate E. Qed.
Lemma ex_9_ok : program ex_9 [9; 8; 7; 5; 2; 1; 0]%nat none (xafter ex_9).
Proof. apply (call_after ex_8); [exact ex_8_ok| |vm]. arith AAdd ex_8 8%nat 1%nat. intros E; discriminate E. Qed.
Lemma ex_10_ok : program ex_10 [10; 9; 8; 7; 5; 2; 1; 0]%nat none (xafter ex_10).
Proof. apply (call_after ex_9); [exact ex_9_ok| |vm]. apply (CSum _ _ 9%nat (xrec (xafter ex_9) 9)). hand. Qed.
Definition ex_below : list nat := [10; 9; 8; 7; 5; 2; 1; 0]%nat.
Lemma ex_closed x : below (xafter ex_10) 10 x -> x ∈ ex_below.
Proof. apply below_closed; [mem|vm]. Qed.
Lemma is_node_check h a : match fn_of h a with Some _ => true | None => false end = true -> is_node h a.
Proof. unfold is_node. destruct (fn_of h a) as [f|]; [by exists f|done]. Qed.
Definition kind_is (k : bkind) (f : gradfn) : bool := match k, gf_kind f with NoBack, NoBack | MeanBack, MeanBack => true | _, _ => false end.
Lemma not_kind h a k : match fn_of h a with Some f => kind_is k f | None => false end = false -> k = NoBack \/ k = MeanBack -> ~ exists f, fn_of h a = Some f /\ gf_kind f = k.
Proof. intros E Hk (f & Hf & Hk'). rewrite Hf in E. unfold kind_is in E. rewrite Hk' in E. by destruct Hk as [-> | ->]. Qed.
Lemma ex_may : may_backward (xafter ex_10) [10; 9; 8; 7; 5; 2; 1; 0]%nat none 10.
Proof.
  split; [split|].
  - mem.
  - apply is_node_check. vm.
  - apply (not_kind _ _ NoBack); [vm|by left].
  - vm.
  - vm.
  - by intros x _ _ [].
  - intros x f Hx Hf Hk. apply ex_closed in Hx. exfalso.
    assert (forallb (fun y => match fn_of (xafter ex_10) y with Some g => negb (kind_is MeanBack g) | None => true end) ex_below = true) as E by vm.
    rewrite forallb_forall in E. specialize (E x). rewrite <- elem_of_list_In in E. specialize (E Hx). rewrite Hf in E. unfold kind_is in E. by rewrite Hk in E.
Qed.
Definition regularb (h : @heap Exact) (x : nat) : bool :=
  match fn_of h x with
  | Some f => match gf_kind f, gf_in f with
    | DivBack, [a; b] => forallb (fun idx => negb (Qeq_bool (value h b idx) 0)) (indices (shape_of h b))
    | KnownGradBack _, [a] =>
        if decide (shape_of h x = shape_of h a) then forallb (fun idx => negb (Qeq_bool (value h a idx) 0)) (indices (shape_of h a))
        else forallb (fun i => forallb (fun j => negb (Qeq_bool (value h a i) (value h x [])) || negb (Qeq_bool (value h a j) (value h x [])) || bool_decide (i = j))
          (indices (shape_of h a))) (indices (shape_of h a))
    | _, _ => true
    end
  | None => true
  end.
Lemma regular_check h t l : (forall x, below h t x -> x ∈ l) -> forallb (regularb h) l = true -> regular h t.
Proof.
  intros Hl Hb x f Hx Hf. rewrite forallb_forall in Hb. specialize (Hb x). rewrite <- elem_of_list_In in Hb. specialize (Hb (Hl x Hx)). unfold regularb in Hb. rewrite Hf in Hb.
  assert (forall a, forallb (fun idx => negb (Qeq_bool (value h a idx) 0)) (indices (shape_of h a)) = true -> forall idx, in_range (shape_of h a) idx -> value h a idx <> 0%Qc) as K.
  { intros a Ha idx Hi E. rewrite forallb_forall in Ha. specialize (Ha idx). rewrite <- elem_of_list_In, elem_of_indices in Ha. specialize (Ha Hi). by rewrite E in Ha. }
  destruct (gf_kind f); try done; destruct (gf_in f) as [|a [|b [|]]]; try done; [by apply K|]. case_decide; [by apply K|].
  intros i j Hi Hj Ei Ej. rewrite forallb_forall in Hb. specialize (Hb i). rewrite <- elem_of_list_In, elem_of_indices in Hb. specialize (Hb Hi).
  rewrite forallb_forall in Hb. specialize (Hb j). rewrite <- elem_of_list_In, elem_of_indices in Hb. specialize (Hb Hj).
  rewrite Ei, Ej in Hb. rewrite (proj2 (Qeq_bool_iff _ _)) in Hb by reflexivity. cbn [negb orb] in Hb. by apply bool_decide_eq_true in Hb.
Qed.
Lemma ex_regular : regular (xafter ex_10) 10.
Proof. apply (regular_check _ _ ex_below); [exact ex_closed|vm]. Qed.

(** a second graph on the same leaf: sum(x * x) (11, 12) *)
Definition ex_11 := ex_10 ++ [OMul (#0) (#0)].
Definition ex_12 := ex_11 ++ [OSum (#11)].
Definition ex_held : list nat := [12; 11; 10; 9; 8; 7; 5; 2; 1; 0]%nat.
Lemma ex_11_ok : program ex_11 [11; 10; 9; 8; 7; 5; 2; 1; 0]%nat none (xafter ex_11).
Proof. apply (call_after ex_10); [exact ex_10_ok| |vm]. arith AMul ex_10 0%nat 0%nat. intros E; discriminate E. Qed.
Lemma ex_12_ok : program ex_12 ex_held none (xafter ex_12).
Proof. apply (call_after ex_11); [exact ex_11_ok| |vm]. apply (CSum _ _ 11%nat (xrec (xafter ex_11) 11)). hand. Qed.
Lemma no_mean h t l : (forall x, below h t x -> x ∈ l) ->
  forallb (fun y => match fn_of h y with Some g => negb (kind_is MeanBack g) | None => true end) l = true ->
  forall x f, below h t x -> fn_of h x = Some f -> gf_kind f = MeanBack -> x = t.
Proof.
  intros Hl E x f Hx Hf Hk. exfalso. rewrite forallb_forall in E. specialize (E x). rewrite <- elem_of_list_In in E. specialize (E (Hl x Hx)).
  rewrite Hf in E. unfold kind_is in E. by rewrite Hk in E.
Qed.
Lemma ex_closed_10 x : below (xafter ex_12) 10 x -> x ∈ ex_below.
Proof. apply below_closed; [mem|vm]. Qed.
Lemma ex_closed_12 x : below (xafter ex_12) 12 x -> x ∈ [12; 11; 0]%nat.
Proof. apply below_closed; [mem|vm]. Qed.
Lemma ex_may_10 : may_backward (xafter ex_12) ex_held none 10.
Proof.
  split; [split; [mem|apply is_node_check; vm|apply (not_kind _ _ NoBack); [vm|by left]|vm|vm|by intros x _ _ []]|].
  apply (no_mean _ _ ex_below); [exact ex_closed_10|vm].
Qed.
Lemma ex_may_12 : may_backward (xafter ex_12) ex_held none 12.
Proof.
  split; [split; [mem|apply is_node_check; vm|apply (not_kind _ _ NoBack); [vm|by left]|vm|vm|by intros x _ _ []]|].
  apply (no_mean _ _ [12; 11; 0]%nat); [exact ex_closed_12|vm].
Qed.
Lemma ex_separate x : below (xafter ex_12) 10 x -> below (xafter ex_12) 12 x -> ~ is_node (xafter ex_12) x.
Proof.
  intros H1%ex_closed_10 H2%ex_closed_12. assert (x = 0%nat) as ->.
  { clear - H1 H2. unfold ex_below in H1. repeat setoid_rewrite elem_of_cons in H1. repeat setoid_rewrite elem_of_cons in H2. setoid_rewrite elem_of_nil in H1. setoid_rewrite elem_of_nil in H2. lia. }
  apply not_node. vm.
Qed.
Lemma leaf_tracked h a : t_rg (xrec h a) = true -> tracked h a.
Proof. unfold xrec, tracked. destruct (h_ten h !! a) as [r|]; [|done]. intros E. by exists r. Qed.
Lemma below_path h t l x : foldr (fun y (k : nat -> bool) z => bool_decide (y ∈ inputs h z) && k y) (fun z => bool_decide (z = x)) l t = true -> below h t x.
Proof.
  assert (forall l z, below h t z -> foldr (fun y (k : nat -> bool) z => bool_decide (y ∈ inputs h z) && k y) (fun z => bool_decide (z = x)) l z = true -> below h t x) as K.
  { clear. induction l as [|y l IH]; intros z Hz E; cbn [foldr] in E.
    - apply bool_decide_eq_true in E as <-. done.
    - apply andb_true_iff in E as [E1 E2]. apply bool_decide_eq_true in E1. eapply IH; [|exact E2]. by eapply below_in. }
  apply K. constructor.
Qed.
(** gradient elements, as numerators and denominators *)
Definition grads (h : @heap Exact) (a : nat) : list (Z * Z) :=
  map (fun i => let q := grad_value h a i in (Qnum q, Zpos (Qden q))) (indices (shape_of h a)).
(** after the first pass *)
Definition ex_passed : nat -> Prop := fun x => none x \/ below (xafter ex_10) 10 x /\ is_node (xafter ex_10) x.
Lemma ex_passed_ok : program (ex_10 ++ [OBackward (#10)]) ex_below ex_passed (xafter (ex_10 ++ [OBackward (#10)])).
Proof.
  destruct (program_backward _ _ _ _ _ ex_10_ok ex_may) as (h' & E & K & _). pose proof (program_after _ _ _ _ K) as Eh. by rewrite <- Eh.
Qed.
(** another tracked leaf (14) *)
Definition ex_14 := ex_12 ++ [OOnes [2] F32].
Definition ex_other := ex_14 ++ [ORequires (#14) true].
Definition ex_other_held : list nat := 14%nat :: ex_held.
Lemma ex_14_ok : program ex_14 ex_other_held none (xafter ex_14).
Proof. apply (call_after ex_12); [exact ex_12_ok| |vm]. apply COnes. split; [small|fits_ok]. Qed.
Lemma ex_other_ok : program ex_other ex_other_held none (xafter ex_other) /\ may_backward (xafter ex_other) ex_other_held none 12 /\
  14%nat ∈ ex_other_held /\ ~ is_node (xafter ex_other) 14 /\ ~ below (xafter ex_other) 12 14 /\ tracked (xafter ex_other) 14.
Proof.
  assert (forall x, below (xafter ex_other) 12 x -> x ∈ [12; 11; 0]%nat) as Hc by (intros x; apply below_closed; [mem|vm]).
  split; [|split; [|split; [|split; [|split]]]].
  - apply (requires_after ex_14 _ _ _ (xrec (xafter ex_14) 14)); [exact ex_14_ok|hand| | |vm].
    + apply not_node. vm.
    + assert (t_lay (xrec (xafter ex_14) 14) = contig [2]) as -> by vm. apply (dense_contig _ 2); [small|vm|unfold two63; lia].
  - split; [split; [mem|apply is_node_check; vm|apply (not_kind _ _ NoBack); [vm|by left]|vm|vm|by intros x _ _ []]|].
    apply (no_mean _ _ [12; 11; 0]%nat); [exact Hc|vm].
  - mem.
  - apply not_node. vm.
  - intros K%Hc. clear - K. repeat setoid_rewrite elem_of_cons in K. setoid_rewrite elem_of_nil in K. lia.
  - apply leaf_tracked. vm.
Qed.
(** max(x) * min(x) for x = (1, 2, -3): max (1, and its slopes), min (3, and its slopes), the product (5) *)
Definition ex_max := ex_leaf ++ [OMax (#0)].
Definition ex_min := ex_max ++ [OMin (#0)].
Definition ex_ext := ex_min ++ [OMul (#1) (#3)].
Lemma first_check h r : match cells h (t_sto r) with Some (Some (VF _) :: _) => floating (t_dt r) | _ => false end = true -> exists x, first_cell h r x.
Proof.
  intros H. destruct (cells h (t_sto r)) as [[|[[?|v]|] cs]|] eqn:E; try done. exists (VF v), (Some (VF v) :: cs). split_and!; try done. by apply has_ty_float.
Qed.
Lemma ex_max_ok : program ex_max [1; 0]%nat none (xafter ex_max).
Proof.
  apply (call_after ex_leaf); [exact ex_leaf_ok| |vm]. destruct (first_check (xafter ex_leaf) (xrec (xafter ex_leaf) 0)) as [x Hx]; [vm|].
  apply (CMax _ _ 0%nat (xrec (xafter ex_leaf) 0) x); [hand|done|]. intros _. assert (shape (xrec (xafter ex_leaf) 0) = [3]) as -> by vm. done.
Qed.
Lemma ex_min_ok : program ex_min [3; 1; 0]%nat none (xafter ex_min).
Proof.
  apply (call_after ex_max); [exact ex_max_ok| |vm]. destruct (first_check (xafter ex_max) (xrec (xafter ex_max) 0)) as [x Hx]; [vm|].
  apply (CMin _ _ 0%nat (xrec (xafter ex_max) 0) x); [hand|done|]. intros _. assert (shape (xrec (xafter ex_max) 0) = [3]) as -> by vm. done.
Qed.
Definition ex_ext_held : list nat := [5; 3; 1; 0]%nat.
Lemma ex_ext_ok : program ex_ext ex_ext_held none (xafter ex_ext) /\ may_backward (xafter ex_ext) ex_ext_held none 5 /\ regular (xafter ex_ext) 5.
Proof.
  assert (forall x, below (xafter ex_ext) 5 x -> x ∈ ex_ext_held) as Hc by (intros x; apply below_closed; [mem|vm]).
  split; [|split].
  - apply (call_after ex_min); [exact ex_min_ok| |vm]. apply (CArith (xafter ex_min) _ AMul 1 3 (xrec (xafter ex_min) 1) (xrec (xafter ex_min) 3)); [hand|hand|decide_it| |fits_ok|].
    + apply no_zero_one_pos; [assert (shape (xrec (xafter ex_min) 1) = []) as -> by vm|assert (shape (xrec (xafter ex_min) 3) = []) as -> by vm]; small.
    + intros E; discriminate E.
  - split; [split; [mem|apply is_node_check; vm|apply (not_kind _ _ NoBack); [vm|by left]|vm|vm|by intros x _ _ []]|].
    apply (no_mean _ _ ex_ext_held); [exact Hc|vm].
  - apply (regular_check _ _ ex_ext_held); [exact Hc|vm].
Qed.
