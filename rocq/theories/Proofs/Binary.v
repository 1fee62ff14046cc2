(** The binary operators +, -, *, / and the comparisons. *)
From Verif.Proofs Require Export Create.

Lemma bidx_self ss idx : in_range ss idx -> bidx ss idx = idx.
Proof.
  intros H. unfold bidx. rewrite (in_range_length _ _ H), Nat.sub_diag, drop_0.
  induction H as [|n i ss idx Hi _ IH]; [done|]. simpl. rewrite IH.
  destruct (Z.eqb_spec n 1); [|done]. f_equal. lia.
Qed.

Lemma bc_rev_Forall f (P : Z -> Prop) a b :
  (forall x y, P x -> P y -> P (f x y)) -> Forall P a -> Forall P b -> Forall P (bc_rev f a b).
Proof.
  intros Hf Ha. revert b. induction Ha as [|x a Hx Ha IH]; intros b Hb; [by destruct b|].
  destruct Hb as [|y b Hy Hb]; simpl; constructor; auto.
Qed.
Lemma bshape_Forall (P : Z -> Prop) a b : Forall P a -> Forall P b -> Forall P (bshape a b).
Proof.
  intros Ha Hb. rewrite <- (rev_involutive (bshape a b)), bshape_rev.
  apply Forall_rev, bc_rev_Forall; [|by apply Forall_rev|by apply Forall_rev].
  intros x y Hx Hy. unfold bsel. by destruct (x =? 1).
Qed.
Lemma bshape_comm a b : compatible a b -> bshape a b = bshape b a.
Proof.
  intros Hc. rewrite compatible_rev in Hc.
  assert (rev (bshape a b) = rev (bshape b a)) as H.
  { rewrite !bshape_rev. revert Hc. generalize (rev a), (rev b). clear.
    induction l as [|x l IH]; intros [|y l']; simpl; try done.
    intros [Hxy Hc]. rewrite IH by done. f_equal. unfold bsel.
    destruct (Z.eqb_spec x 1), (Z.eqb_spec y 1); lia. }
  rewrite <- (rev_involutive (bshape a b)), H. apply rev_involutive.
Qed.
Lemma compatible_sym a b : compatible a b -> compatible b a.
Proof.
  rewrite !compatible_rev. generalize (rev a), (rev b).
  induction l as [|x l IH]; intros [|y l']; simpl; try done. intuition.
Qed.
Lemma no_zero_one_sym a b : no_zero_one a b -> no_zero_one b a.
Proof. intros H k x y Hx Hy. destruct (H k y x Hy Hx). intuition. Qed.

Section with_fops.
Context {fo : FOps}.

Definition op_arith (o : aop) : nat -> nat -> E nat :=
  match o with AAdd => op_add | ASub => op_sub | AMul => op_mul | ADiv => op_div end.
Definition back_of (o : aop) : bkind :=
  match o with AAdd => AddBack | ASub => SubBack | AMul => MulBack | ADiv => DivBack end.
Definition order_of (o : aop) : bool :=
  match o with AAdd | AMul => false | _ => true end.
Definition kernel_of (o : aop) : dtype -> dtype -> tensor -> tensor -> tensor -> E unit :=
  match o with AAdd => tensor_add | ASub => tensor_sub | AMul => tensor_mul | ADiv => tensor_div end.
Lemma op_arith_eq o a b :
  op_arith o a b = apply_binary_operator (kernel_of o) (back_of o) a b (order_of o).
Proof. by destruct o. Qed.

(** all four kernels loop over the destination's shape *)
Lemma kernel_loop o L R D dst l r h ss :
  broadcast_range (sizes (t_lay l)) (sizes (t_lay r)) = Ok ss ->
  sizes (t_lay dst) = ss -> D = (if order_of o then innc_common L R else L) ->
  kernel_of o L R dst l r h = for_each_sizevec ss (binary_body o D L R dst l r) h.
Proof.
  intros Hb Hs ->. destruct o; simpl; unfold tensor_add, tensor_sub, tensor_mul, tensor_div;
    rewrite ?bind_lift, ?Hb, ?Hs; done.
Qed.

Lemma holds_shape h r v : holds h r v -> Forall (fun n => 0 <= n < two64) (sizes (t_lay r)).
Proof. intros [(cs & _ & Hl & _) _]. apply Hl. Qed.
Lemma holds_nonneg h r v : holds h r v -> Forall (fun n => 0 <= n) (sizes (t_lay r)).
Proof. intros H%holds_shape. eapply Forall_impl; [exact H|]. simpl; lia. Qed.

(** reading the two operands of a broadcast operation *)
Lemma load_pair h h' l r vl vr idx :
  holds h l vl -> holds h r vr -> extends h h' ->
  compatible (sizes (t_lay l)) (sizes (t_lay r)) ->
  in_range (bshape (sizes (t_lay l)) (sizes (t_lay r))) idx ->
  load_aug (t_dt l) l idx h' = (Ok (vl (bidx (sizes (t_lay l)) idx)), h') /\
  load_aug (t_dt r) r idx h' = (Ok (vr (bidx (sizes (t_lay r)) idx)), h') /\
  has_ty (t_dt l) (vl (bidx (sizes (t_lay l)) idx)) /\
  has_ty (t_dt r) (vr (bidx (sizes (t_lay r)) idx)).
Proof.
  intros Hl Hr He Hc Hi.
  pose proof (holds_extends _ _ _ _ He Hl) as Hl'. pose proof (holds_extends _ _ _ _ He Hr) as Hr'.
  pose proof (in_range_length _ _ Hi) as Hlen. rewrite bshape_length in Hlen.
  pose proof (bidx_in_l _ _ _ Hi) as HL. pose proof (bidx_in_r _ _ _ Hc Hi) as HR.
  split_and!.
  - apply holds_aug; [done|lia|done].
  - apply holds_aug; [done|lia|done].
  - by apply Hl.
  - by apply Hr.
Qed.

(** writing element [idx] of the fresh result *)
Lemma fresh_write h S D ss cs rg fn idx v :
  allocable D ss -> in_range ss idx -> length cs = Z.to_nat (size_prod ss) ->
  (let! p := idx_aug (fresh_rec h D (contig ss) rg fn) idx in
   store_cvt S D (t_sto (fresh_rec h D (contig ss) rg fn)) p v)
    (alloc_heap h D (contig ss) cs rg fn) =
  match cvt S D v with
  | Ok w => (Ok tt, alloc_heap h D (contig ss)
                      (<[Z.to_nat (row_major ss idx) := Some w]> cs) rg fn)
  | Throw e => (Throw e, alloc_heap h D (contig ss) cs rg fn)
  | UB u => (UB u, alloc_heap h D (contig ss) cs rg fn)
  | Diverge => (Diverge, alloc_heap h D (contig ss) cs rg fn)
  end.
Proof.
  intros Ha Hi Hl. pose proof (alloc_backed h D ss cs rg fn Ha Hl) as Hb.
  destruct (backed_idx_aug _ _ _ idx Hb) as [Hp Hr].
  { simpl. by rewrite (in_range_length _ _ Hi). }
  { simpl. by rewrite bidx_self. }
  simpl in Hp, Hr. rewrite bidx_self in Hp, Hr by done.
  erewrite bind_ok by exact Hp.
  rewrite pos_contig in Hr by (done || by eapply allocable_lt63).
  rewrite pos_contig by (done || by eapply allocable_lt63).
  erewrite store_cvt_eq; [|apply (alloc_sto h D (contig ss))|done].
  destruct (cvt S D v); try done. f_equal. apply alloc_put.
Qed.
Lemma fresh_write_exact h S D ss cs rg fn idx v :
  allocable D ss -> in_range ss idx -> length cs = Z.to_nat (size_prod ss) ->
  (let! p := idx_exact (fresh_rec h D (contig ss) rg fn) idx in
   store_cvt S D (t_sto (fresh_rec h D (contig ss) rg fn)) p v)
    (alloc_heap h D (contig ss) cs rg fn) =
  match cvt S D v with
  | Ok w => (Ok tt, alloc_heap h D (contig ss)
                      (<[Z.to_nat (row_major ss idx) := Some w]> cs) rg fn)
  | Throw e => (Throw e, alloc_heap h D (contig ss) cs rg fn)
  | UB u => (UB u, alloc_heap h D (contig ss) cs rg fn)
  | Diverge => (Diverge, alloc_heap h D (contig ss) cs rg fn)
  end.
Proof.
  intros Ha Hi Hl. pose proof (alloc_backed h D ss cs rg fn Ha Hl) as Hb.
  destruct (backed_idx _ _ _ idx Hb) as [Hp Hr]; [done|]. simpl in Hp, Hr.
  erewrite bind_ok by exact Hp.
  rewrite pos_contig in Hr by (done || by eapply allocable_lt63).
  rewrite pos_contig by (done || by eapply allocable_lt63).
  erewrite store_cvt_eq; [|apply (alloc_sto h D (contig ss))|done].
  destruct (cvt S D v); try done. f_equal. apply alloc_put.
Qed.

Lemma binary_body_eq o h D ss cs rg fn l r vl vr idx :
  holds h l vl -> holds h r vr ->
  compatible (sizes (t_lay l)) (sizes (t_lay r)) ->
  ss = bshape (sizes (t_lay l)) (sizes (t_lay r)) ->
  allocable D ss -> in_range ss idx -> length cs = Z.to_nat (size_prod ss) ->
  binary_body o D (t_dt l) (t_dt r) (fresh_rec h D (contig ss) rg fn) l r idx
    (alloc_heap h D (contig ss) cs rg fn) =
  match obind (binop o (t_dt l) (t_dt r) (vl (bidx (sizes (t_lay l)) idx))
                 (vr (bidx (sizes (t_lay r)) idx))) (cvt (prom (t_dt l) (t_dt r)) D) with
  | Ok w => (Ok tt, alloc_heap h D (contig ss)
                      (<[Z.to_nat (row_major ss idx) := Some w]> cs) rg fn)
  | Throw e => (Throw e, alloc_heap h D (contig ss) cs rg fn)
  | UB u => (UB u, alloc_heap h D (contig ss) cs rg fn)
  | Diverge => (Diverge, alloc_heap h D (contig ss) cs rg fn)
  end.
Proof.
  intros Hl Hr Hc Hss Ha Hi Hlen. unfold binary_body.
  destruct (load_pair h (alloc_heap h D (contig ss) cs rg fn) l r vl vr idx Hl Hr)
    as (E1 & E2 & _ & _); [apply alloc_extends|done|by rewrite <- Hss|].
  erewrite bind_ok by exact E1. erewrite bind_ok by exact E2. rewrite bind_lift.
  destruct (binop o _ _ _ _); simpl; try done. by apply fresh_write.
Qed.

(** result of the four operators *)
Definition arith_elem (o : aop) (D : dtype) (l r : tensor) (vl vr : list Z -> val) (idx : list Z)
    : option val :=
  cpp_arith o (t_dt l) (t_dt r) D (vl (bidx (sizes (t_lay l)) idx))
    (vr (bidx (sizes (t_lay r)) idx)).

Lemma dt_join_floating a b : floating (dt_join a b) = floating a || floating b.
Proof. by destruct a, b. Qed.
Lemma dt_join_comm a b : dt_join a b = dt_join b a.
Proof. by destruct a, b. Qed.

Lemma kernel_run o h l r vl vr D ss :
  holds h l vl -> holds h r vr ->
  compatible (sizes (t_lay l)) (sizes (t_lay r)) ->
  no_zero_one (sizes (t_lay l)) (sizes (t_lay r)) ->
  ss = bshape (sizes (t_lay l)) (sizes (t_lay r)) ->
  D = dt_join (t_dt l) (t_dt r) -> (order_of o = false -> D = t_dt l) ->
  allocable D ss ->
  let run := kernel_of o (t_dt l) (t_dt r) (fresh_rec h D (contig ss) false None) l r
               (alloc_heap h D (contig ss) (raw_cells ss) false None) in
  (forall w, (forall idx, in_range ss idx -> arith_elem o D l r vl vr idx = Some (w idx)) ->
     run = (Ok tt, alloc_heap h D (contig ss) (rm_cells ss w) false None)) /\
  ((exists idx, in_range ss idx /\ arith_elem o D l r vl vr idx = None) ->
     exists u cs, run = (UB u, alloc_heap h D (contig ss) cs false None) /\ arith_ub u).
Proof.
  intros Hl Hr Hc Hz Hss HD HoD Ha run.
  assert (run = for_each_sizevec ss (binary_body o D (t_dt l) (t_dt r)
     (fresh_rec h D (contig ss) false None) l r)
     (alloc_heap h D (contig ss) (raw_cells ss) false None)) as ->.
  { apply kernel_loop; [|done|].
    - rewrite broadcast_range_max, Hss. f_equal. apply bmax_bshape; [| |done|done];
        by eapply holds_nonneg.
    - destruct (order_of o) eqn:Ho; [by rewrite innc_common_join|by apply HoD]. }
  set (g := fun idx => obind (binop o (t_dt l) (t_dt r) (vl (bidx (sizes (t_lay l)) idx))
                 (vr (bidx (sizes (t_lay r)) idx))) (cvt (prom (t_dt l) (t_dt r)) D)).
  assert (forall idx, in_range ss idx ->
    match arith_elem o D l r vl vr idx with
    | Some w => g idx = Ok w /\ has_ty D w
    | None => exists u, g idx = UB u /\ arith_ub u end) as Hg.
  { intros idx Hi. apply binop_cpp; [| |by rewrite HD, dt_join_floating].
    - apply Hl, bidx_in_l with (sizes (t_lay r)). by rewrite <- Hss.
    - apply Hr, bidx_in_r with (sizes (t_lay l)); [done|]. by rewrite <- Hss. }
  destruct (fresh_loop h D ss false None (binary_body o D (t_dt l) (t_dt r)
     (fresh_rec h D (contig ss) false None) l r) g (raw_cells ss) Ha)
    as [(w & Hw & Hrun)|(u & cs & idx & Hrun & Hi & He)].
  { apply replicate_length. }
  { intros idx cs Hi Hlen. by apply binary_body_eq. }
  - split.
    + intros w' Hw'. rewrite Hrun. do 2 f_equal. apply rm_cells_ext. intros idx Hi.
      specialize (Hg idx Hi). rewrite (Hw' idx Hi) in Hg. destruct Hg as [Hg _].
      rewrite (Hw idx Hi) in Hg. congruence.
    + intros (idx & Hi & Hn). exfalso. specialize (Hg idx Hi). rewrite Hn in Hg.
      destruct Hg as (u & Hg & _). rewrite (Hw idx Hi) in Hg. congruence.
  - split.
    + intros w' Hw'. exfalso. specialize (Hg idx Hi). rewrite (Hw' idx Hi) in Hg.
      destruct Hg as [Hg _]. rewrite Hg in He. done.
    + intros _. specialize (Hg idx Hi). destruct (arith_elem o D l r vl vr idx).
      * destruct Hg as [Hg _]. by rewrite Hg in He.
      * destruct Hg as (u' & Hg & Hu). rewrite Hg in He. destruct u; try done. simpl in He.
        subst. by exists u, cs.
Qed.

Lemma op_arith_spec o h a b l r vl vr :
  h_ten h !! a = Some l -> h_ten h !! b = Some r -> holds h l vl -> holds h r vr ->
  let ss := bshape (sizes (t_lay l)) (sizes (t_lay r)) in
  let D := dt_join (t_dt l) (t_dt r) in
  let rg := t_rg l || t_rg r in
  compatible (sizes (t_lay l)) (sizes (t_lay r)) ->
  no_zero_one (sizes (t_lay l)) (sizes (t_lay r)) ->
  size_of D * size_prod ss <= alloc_max ->
  (order_of o = false -> f_commutative fo) ->
  (forall w, (forall idx, in_range ss idx -> arith_elem o D l r vl vr idx = Some (w idx)) ->
     op_arith o a b h =
       (Ok (length (h_ten h)),
        alloc_heap h D (contig ss) (rm_cells ss w) rg
          (if rg then Some (Gfn (back_of o) [a; b] 0 0 0) else None))) /\
  ((exists idx, in_range ss idx /\ arith_elem o D l r vl vr idx = None) ->
     exists u cs, op_arith o a b h = (UB u, alloc_heap h D (contig ss) cs false None) /\
                  arith_ub u).
Proof.
  intros Ha Hb Hl Hr ss D rg Hc Hz Hmax Hcomm.
  assert (allocable D ss) as Hal.
  { split; [|done]. apply bshape_Forall; by eapply holds_shape. }
  assert (bmax (sizes (t_lay l)) (sizes (t_lay r)) = ss) as Hbm.
  { apply bmax_bshape; [| |done|done]; by eapply holds_nonneg. }
  set (run := op_arith o a b h).
  (* the kernel call *)
  assert (exists X : outcome unit * heap,
    run = match X with
          | (Ok _, h') => bind (get_ten a) (fun l => bind (get_ten b) (fun r =>
              if negb (t_rg l) && negb (t_rg r) then mret (length (h_ten h))
              else track (length (h_ten h)) (back_of o) [a; b] ;;; mret (length (h_ten h)))) h'
          | (Throw e, h') => (Throw e, h') | (UB u, h') => (UB u, h')
          | (Diverge, h') => (Diverge, h') end /\
    (forall w, (forall idx, in_range ss idx -> arith_elem o D l r vl vr idx = Some (w idx)) ->
     X = (Ok tt, alloc_heap h D (contig ss) (rm_cells ss w) false None)) /\
    ((exists idx, in_range ss idx /\ arith_elem o D l r vl vr idx = None) ->
     exists u cs, X = (UB u, alloc_heap h D (contig ss) cs false None) /\ arith_ub u))
    as (X & HX & Hok & Hub).
  { unfold run. rewrite op_arith_eq. unfold apply_binary_operator, apply_no_grad_binary_op.
    rewrite !bind_assoc. erewrite bind_ok by (by apply get_ten_ok).
    rewrite bind_assoc. erewrite bind_ok by (by apply get_ten_ok).
    rewrite bind_assoc. rewrite bind_lift, broadcast_range_max, Hbm.
    rewrite bind_assoc. rewrite larger_join. fold D.
    erewrite bind_ok by (by apply create_ok). simpl sizes.
    rewrite bind_assoc. erewrite bind_ok by (apply get_ten_ok, alloc_ten).
    rewrite bind_assoc.
    set (K := if order_of o then _ else _). exists (K (alloc_heap h D (contig ss) (raw_cells ss) false None)).
    split; [unfold bind at 1; fold (raw_cells ss);
      by destruct (K (alloc_heap h D (contig ss) (raw_cells ss) false None)) as [[] ?]|].
    assert (order_of o = true \/ (order_of o = false /\ D = t_dt l) \/
      (order_of o = false /\ t_dt l <> D /\ D = t_dt r)) as [Ho|[[Ho HDl]|(Ho & HDl & HDr)]].
    { destruct (order_of o); [by left|]. right. destruct (decide (D = t_dt l)); [by left|].
      right. split; [done|]. split; [congruence|]. unfold D, dt_join in *. by destruct (_ <? _). }
    - unfold K. rewrite Ho. apply kernel_run; try done. by rewrite Ho.
    - unfold K. rewrite Ho. rewrite bool_decide_true by done. by apply kernel_run.
    - unfold K. rewrite Ho. rewrite bool_decide_false by done.
      assert (forall idx, arith_elem o D r l vr vl idx = arith_elem o D l r vl vr idx) as Hsw.
      { intros idx. unfold arith_elem. apply cpp_arith_comm; [by apply Hcomm|].
        destruct o; (by left) || (by right) || done. }
      assert (ss = bshape (sizes (t_lay r)) (sizes (t_lay l))) as Hss by (by apply bshape_comm).
      destruct (kernel_run o h r l vr vl D ss Hr Hl) as [K1 K2]; try done.
      { by apply compatible_sym. } { by apply no_zero_one_sym. } { apply dt_join_comm. }
      split.
      + intros w Hw. apply K1. intros idx Hi. rewrite Hsw. by apply Hw.
      + intros (idx & Hi & Hn). apply K2. exists idx. by rewrite Hsw. }
  split.
  - intros w Hw. rewrite HX, (Hok w Hw).
    erewrite bind_ok by (apply get_ten_ok, alloc_ten_old, Ha).
    erewrite bind_ok by (apply get_ten_ok, alloc_ten_old, Hb).
    unfold rg. destruct (t_rg l), (t_rg r); simpl; try done; by rewrite alloc_track_bind.
  - intros Hn. destruct (Hub Hn) as (u & cs & HX' & Hu). rewrite HX, HX'. by exists u, cs.
Qed.
End with_fops.
