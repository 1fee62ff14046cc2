(** Counterexamples: calls that do something else than the property says. *)
From Verif.Spec Require Export Grad.
From Verif.Proofs Require Export Refute1.
From Coq Require Import Floats.SpecFloat.

Notation "# n" := (Some n%nat) (at level 1, format "# n").
Definition vec (l : list Z) : op := OFromBlob (map f64 l) [Z.of_nat (length l)] F64.
Definition ivec (l : list Z) : op := OFromBlob (map VI l) [Z.of_nat (length l)] I8.

Lemma reach ops : match (run empty_heap ops).1 with Ok _ => true | _ => false end = true ->
  reachable (after ops).
Proof.
  unfold reachable, after. intros H. destruct (run empty_heap ops) as [[rs| | |] h] eqn:E; simpl in *; try done.
  by exists ops, rs.
Qed.
Ltac reached := lazymatch goal with
  | |- reachable (after ?ops) => apply (reach ops); vm
  | h := after ?ops |- reachable ?h => apply (reach ops); vm
  end.

(** [a <> b] by evaluation; false on NaN *)
Definition differ (a b : @val Ieee) : bool :=
  match a, b with
  | VI x, VI y => negb (x =? y)
  | VF x, VF y => negb (SFeqb x y) && SFeqb y y
  | _, _ => true
  end.
Lemma differ_ne a b : differ a b = true -> a <> b.
Proof.
  intros H E. subst b. destruct a as [z|x]; simpl in H; [lia|]. destruct (SFeqb x x); done.
Qed.
Lemma differ_all (v : list Z -> val) x ss : forallb (fun idx => differ (v idx) x) (indices ss) = true ->
  forall idx, in_range ss idx -> v idx <> x.
Proof.
  rewrite forallb_forall. intros H idx Hi. apply differ_ne, H. by apply elem_of_list_In, elem_of_indices.
Qed.

(** C21 *)
Definition r21a := [OZeros [0] I8].
Definition r21b := [OZeros [12] I8].
Lemma reshape_args_refuted :
  (exists (h : @heap Ieee) t r v, reachable h /\ tensor_at h t r v /\ shape r = [0] /\
     (exec (OReshape (Some t) [0; -1]) h).1 = UB DivByZero) /\
  (exists (h : @heap Ieee) t r v t' h' r', reachable h /\ tensor_at h t r v /\ shape r = [12] /\
     exec (OReshape (Some t) [-2; -6]) h = (Ok (RHandle (Some t')), h') /\
     h_ten h' !! t' = Some r' /\ shape r' = [two64 - 2; two64 - 6]).
Proof.
  split.
  - set (h := after r21a). exists h, 0%nat, (rec_of h 0), (contents h (rec_of h 0)).
    split; [reached|]. split; [at_of|]. split_and!; vm.
  - set (h := after r21b). set (h' := (exec (OReshape #0 [-2; -6]) h).2).
    exists h, 0%nat, (rec_of h 0), (contents h (rec_of h 0)), 1%nat, h', (rec_of h' 1).
    split; [reached|]. split; [at_of|]. split_and!; vm.
Qed.

(** C29 *)
Definition r29a := [ivec [5; 1; 2]; OSlice #0 (chars "1:")].
Definition r29b := [ivec [0; 1; 2]; OSlice #0 (chars "1:")].
Lemma slice_extremum_refuted :
  (exists (h : @heap Ieee) t r v t' h' r' x, reachable h /\ tensor_at h t r v /\ shape r = [2] /\
     exec (OMax (Some t)) h = (Ok (RHandle (Some t')), h') /\ h_ten h' !! t' = Some r' /\
     elem h' r' [] = Some x /\ forall idx, in_range (shape r) idx -> v idx <> x) /\
  (exists (h : @heap Ieee) t r v t' h' r' x, reachable h /\ tensor_at h t r v /\ shape r = [2] /\
     exec (OMin (Some t)) h = (Ok (RHandle (Some t')), h') /\ h_ten h' !! t' = Some r' /\
     elem h' r' [] = Some x /\ forall idx, in_range (shape r) idx -> v idx <> x).
Proof.
  split.
  - set (h := after r29a). set (h' := (exec (OMax #1) h).2).
    exists h, 1%nat, (rec_of h 1), (contents h (rec_of h 1)), 2%nat, h', (rec_of h' 2), (VI 5).
    split; [reached|]. split; [at_of|]. do 4 (split; [vm|]).
    apply differ_all. vm.
  - set (h := after r29b). set (h' := (exec (OMin #1) h).2).
    exists h, 1%nat, (rec_of h 1), (contents h (rec_of h 1)), 2%nat, h', (rec_of h' 2), (VI 0).
    split; [reached|]. split; [at_of|]. do 4 (split; [vm|]).
    apply differ_all. vm.
Qed.

(** C31 *)
Lemma slice_abs_refuted :
  exists (h : @heap Ieee) t r v, reachable h /\ tensor_at h t r v /\ shape r = [2] /\
    (exec (OAbs (Some t)) h).1 = UB OutOfBounds.
Proof.
  set (h := after r29a). exists h, 1%nat, (rec_of h 1), (contents h (rec_of h 1)).
  split; [reached|]. split; [at_of|]. split_and!; vm.
Qed.

(** C36 *)
Lemma stride_throws {fo : FOps} h t r : h_ten h !! t = Some r ->
  exec (QStride (Some t)) h = (Throw RuntimeError, h).
Proof.
  intros Ht. cbn [exec]. erewrite bind_ok by done. unfold op_stride.
  rewrite bind_assoc. by erewrite bind_ok by (by apply get_ten_ok).
Qed.
Lemma stride_refuted : exists (h : @heap Ieee) t r v, reachable h /\ tensor_at h t r v /\ shape r = [2] /\ strides (t_lay r) = [1] /\
  exec (QStride (Some t)) h = (Throw RuntimeError, h).
Proof.
  set (h := after r29a). assert (tensor_at h 1 (rec_of h 1) (contents h (rec_of h 1))) as Ht by at_of. exists h, 1%nat, (rec_of h 1), (contents h (rec_of h 1)).
  split; [reached|]. split; [exact Ht|]. split; [vm|]. split; [vm|]. destruct Ht as [Ht _]. exact (stride_throws h 1 _ Ht).
Qed.

(** C37 *)
Lemma randn_refuted : exists (xs : list (@F Ieee)),
  (exec (ORandn [1] F64 xs) empty_heap).1 = UB OutOfBounds.
Proof. exists [ieee_of_Z FT64 1]. vm. Qed.

(** C41 *)
Definition r41 := [ivec [5; 1]; ivec [1; 1; 1]].
Lemma addeq_throw_refuted :
  exists (h : @heap Ieee) a b ra rb va vb h', reachable h /\ tensor_at h a ra va /\ tensor_at h b rb vb /\
    exec (OAddEq (Some a) (Some b)) h = (Throw RuntimeError, h') /\
    elems h a = Some [VI 5; VI 1] /\ elems h' a = Some [VI 6; VI 2].
Proof.
  set (h := after r41). exists h, 0%nat, 1%nat, (rec_of h 0), (rec_of h 1), (contents h (rec_of h 0)),
    (contents h (rec_of h 1)), (exec (OAddEq #0 #1) h).2.
  split; [reached|]. split; [at_of|]. split; [at_of|]. split_and!; vm.
Qed.

(** C55 *)
Lemma too_large_refuted : exists (h : @heap Ieee) t r st,
  exec (OZeros [2 ^ 32; 2 ^ 32] I8) empty_heap = (Ok (RHandle (Some t)), h) /\
  h_ten h !! t = Some r /\ shape r = [2 ^ 32; 2 ^ 32] /\ size_prod (shape r) = two64 /\
  h_sto h !! t_sto r = Some st /\ sto_blob st = Some [].
Proof.
  set (h := (exec (OZeros [2 ^ 32; 2 ^ 32] I8) empty_heap).2).
  exists h, 0%nat, (rec_of h 0), (Sto I8 0 (Some [])). split_and!; vm.
Qed.

(** C56 *)
Definition r56 := [OFromBlob (map VI [1; 2; 3; 4]) [2; 2] I8; OTranspose #0 0 1].
Lemma overlap_refuted :
  exists (h : @heap Ieee) a b ra rb va vb h' idx x, reachable h /\
    tensor_at h a ra va /\ tensor_at h b rb vb /\ shape ra = shape rb /\ in_range (shape ra) idx /\
    exec (OAddEq (Some a) (Some b)) h = (Ok RUnit, h') /\
    elem h' ra idx = Some x /\ cpp_arith AAdd I8 I8 I8 (va idx) (vb idx) <> Some x.
Proof.
  set (h := after r56). set (h' := (exec (OAddEq #0 #1) h).2).
  exists h, 0%nat, 1%nat, (rec_of h 0), (rec_of h 1), (contents h (rec_of h 0)),
    (contents h (rec_of h 1)), h', [1; 0], (VI 8).
  split; [reached|]. split; [at_of|]. split; [at_of|]. split; [vm|].
  split; [apply elem_of_indices; decide_it|]. split; [vm|]. split; [vm|].
  assert (cpp_arith AAdd I8 I8 I8 (contents h (rec_of h 0) [1; 0]) (contents h (rec_of h 1) [1; 0]) =
    Some (VI 5)) as -> by vm.
  intros [=].
Qed.

(** ** Gradients *)
(** C48: y = 2x, s = sum(y): d s / d x = [2, 2], twice *)
Definition r48 := [vec [1; 2]; ORequires #0 true; OScalar F64 (f64 2); OMul #0 #1; OSum #2; OSum #2].
Lemma second_backward_refuted :
  exists (h h1 h2 h3 : @heap Ieee) x s s', reachable h /\
    exec (OBackward (Some s)) h = (Ok RUnit, h1) /\ grad_elems h1 x = Some [f64 2; f64 2] /\
    exec (OBackward (Some s)) h1 = (Ok RUnit, h2) /\ grad_elems h2 x = Some [f64 2; f64 2] /\
    exec (OBackward (Some s')) h1 = (Ok RUnit, h3) /\ grad_elems h3 x = Some [f64 2; f64 2].
Proof.
  set (h := after r48). set (h1 := (exec (OBackward #3) h).2).
  exists h, h1, (exec (OBackward #3) h1).2, (exec (OBackward #4) h1).2, 0%nat, 3%nat, 4%nat.
  split; [reached|]. split_and!; vm.
Qed.

(** C49: x[1] *)
Definition r49 := [vec [1; 2]; ORequires #0 true; OSlice #0 (chars "1")].
Lemma view_root_refuted :
  exists (h h1 : @heap Ieee) x v r, reachable h /\ h_ten h !! v = Some r /\ shape r = [] /\
    exec (OBackward (Some v)) h = (Ok RUnit, h1) /\ grad_elems h1 x = Some [f64 0; f64 0].
Proof.
  set (h := after r49). exists h, (exec (OBackward #1) h).2, 0%nat, 1%nat, (rec_of h 1).
  split; [reached|]. split_and!; vm.
Qed.

(** C50: 4 * mean(x) over two elements has gradient [2, 2] *)
Definition r50 := [vec [1; 2]; ORequires #0 true; OMean #0; OScalar F64 (f64 4); OMul #1 #2].
Lemma mean_grad_refuted :
  exists (h h1 : @heap Ieee) x s half, reachable h /\
    exec (OBackward (Some s)) h = (Ok RUnit, h1) /\ grad_elems h1 x = Some [half; half] /\
    half = @VF Ieee (@f_div Ieee FT64 (ieee_of_Z FT64 1) (ieee_of_Z FT64 2)) /\ half <> f64 2.
Proof.
  set (h := after r50). exists h, (exec (OBackward #3) h).2, 0%nat, 3%nat,
    (@VF Ieee (@f_div Ieee FT64 (ieee_of_Z FT64 1) (ieee_of_Z FT64 2))).
  split; [reached|]. split; [vm|]. split; [vm|]. split; [done|]. apply differ_ne. vm.
Qed.

(** C51: x / constant, constant / x, x / broadcast y *)
Definition r51a := [vec [1; 2]; ORequires #0 true; vec [1; 2]; ODiv #0 #1; OSum #2].
Definition r51b := [vec [1; 2]; ORequires #0 true; vec [1; 2]; ODiv #1 #0; OSum #2].
Definition r51c := [vec [1; 2]; ORequires #0 true; vec [3]; ORequires #1 true; ODiv #0 #1; OSum #2].
Lemma div_grad_refuted :
  (reachable (after r51a) /\ (exec (OBackward #3) (after r51a)).1 = UB NullDeref) /\
  (reachable (after r51b) /\ (exec (OBackward #3) (after r51b)).1 = UB NullDeref) /\
  (reachable (after r51c) /\ (exec (OBackward #3) (after r51c)).1 = UB OutOfBounds).
Proof. split_and!; first [reached | vm]. Qed.

(** C52: max of [2, 1] *)
Definition r52 := [vec [2; 1]; ORequires #0 true].
Lemma tracked_max_refuted :
  exists (h : @heap Ieee) x r v, reachable h /\ tensor_at h x r v /\ t_rg r = true /\ shape r = [2] /\
    (exec (OMax (Some x)) h).1 = Throw RuntimeError.
Proof.
  set (h := after r52). exists h, 0%nat, (rec_of h 0), (contents h (rec_of h 0)).
  split; [reached|]. split; [at_of|]. split_and!; vm.
Qed.

(** C53: y = clone(x), z = clone(y), w = y * z; without z's path d w / d x = z = 3 *)
Definition r53 := [vec [3]; ORequires #0 true; OClone #0; OClone #1; OMul #1 #2; ORequires #2 false].
Lemma cut_path_refuted :
  reachable (after r53) /\
  exec (OBackward #3) (after r53) = (Ok RUnit, after (r53 ++ [OBackward #3])) /\
  grad_elems (after (r53 ++ [OBackward #3])) 0 = None.
Proof. split; [reached|]. split; vm. Qed.

(** C57: sum of x[1:] with x[1:] the leaf *)
Definition r57 := [vec [1; 2; 3]; OSlice #0 (chars "1:"); ORequires #1 true; OSum #1].
Lemma slice_leaf_refuted :
  reachable (after r57) /\ (exec (OBackward #2) (after r57)).1 = UB OutOfBounds.
Proof. split; [reached|]. vm. Qed.
