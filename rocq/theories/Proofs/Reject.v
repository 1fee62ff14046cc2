(** Exactly which operand shapes the elementwise operators accept. *)
From Verif.Proofs Require Export Api3.
From Verif.Spec Require Export Accept.

Lemma larger_bmax a b : larger_shape a b = bmax a b.
Proof.
  unfold larger_shape, bmax. f_equal. generalize (rev a), (rev b). clear.
  induction l as [|x l IH]; intros [|y l']; try done. cbn. by rewrite IH.
Qed.
Lemma not_zero_pos ss : Forall (fun n => 0 <= n) ss -> 0 ∉ ss -> Forall (fun n => 0 < n) ss.
Proof.
  intros H. induction H as [|n ss Hn H IH]; intros Hz; [done|]. rewrite not_elem_of_cons in Hz. destruct Hz as [H1 H2].
  constructor; [lia|auto].
Qed.
Lemma bc_zero_rev a b : 0 ∈ bc_rev Z.max (rev a) (rev b) <-> 0 ∈ bmax a b.
Proof. unfold bmax. rewrite !elem_of_list_In. apply in_rev. Qed.

(** shapes that are not accepted fail at some index *)
Lemma not_accepted a b : Forall (fun n => 0 <= n) a -> Forall (fun n => 0 <= n) b -> ~ accepts a b -> misfit a b.
Proof.
  intros Ha Hb Hn. unfold accepts in Hn. rewrite larger_bmax in Hn.
  assert (0 ∉ bc_rev Z.max (rev a) (rev b)) as Hz by (rewrite bc_zero_rev; tauto).
  assert (~ (compat_rev (rev a) (rev b) /\ no_zero_one a b)) as Hc by (rewrite <- compatible_rev; tauto). clear Hn.
  unfold no_zero_one in Hc. apply Forall_rev in Ha, Hb.
  assert (Forall (fun n => 0 < n) (bc_rev Z.max (rev a) (rev b))) as Hpos.
  { apply not_zero_pos; [|done]. apply bc_rev_Forall; [intros; lia|done|done]. }
  assert (exists ri, in_range (bc_rev Z.max (rev a) (rev b)) ri /\
    ~ (in_range (rev a) (bidx_rev (rev a) ri) /\ in_range (rev b) (bidx_rev (rev b) ri))) as (ri & Hr & Hn).
  { clear Hz. revert Ha Hb Hc Hpos. generalize (rev a), (rev b). clear.
    induction l as [|x l IH]; intros [|y l'] Ha Hb Hc Hpos;
      try (exfalso; apply Hc; split; [done|]; intros k u v H1 H2; by destruct k).
    cbn [bc_rev] in *. apply Forall_cons in Ha as [Hx Ha], Hb as [Hy Hb], Hpos as [Hm Hpos].
    destruct (decide ((x = y \/ x = 1 \/ y = 1) /\ ~ (x = 0 /\ y = 1) /\ ~ (x = 1 /\ y = 0))) as [Hd|Hd].
    - destruct (IH l') as (ri & Hr & Hn); [done|done| |done|].
      { intros [H1 H2]. apply Hc. split; [cbn [compat_rev]; tauto|]. intros [|k] u v Hu Hv; [|by apply (H2 k)].
        cbn in Hu, Hv. apply (inj Some) in Hu as <-. apply (inj Some) in Hv as <-. tauto. }
      exists (0 :: ri). split; [by apply in_range_cons; split; [lia|]|].
      unfold bidx_rev. cbn. rewrite !in_range_cons. intuition.
    - exists (Z.max x y - 1 :: map (fun n => n - 1) (bc_rev Z.max l l')). split.
      + apply in_range_cons. split; [lia|]. clear -Hpos. induction Hpos; simpl; constructor; auto; lia.
      + unfold bidx_rev. cbn. rewrite !in_range_cons. destruct (Z.eqb_spec x 1), (Z.eqb_spec y 1); lia. }
  exists (rev ri). split; [unfold bmax; by apply in_range_rev|].
  pose proof (in_range_length _ _ Hr) as Hlen. rewrite bc_rev_length, !rev_length in Hlen.
  intros [H1 H2]. apply Hn. rewrite <- in_range_rev, <- bidx_rev_eq in H1, H2 by (rewrite rev_length; lia).
  by rewrite rev_involutive in H1, H2.
Qed.

Global Instance accepts_dec a b : Decision (accepts a b).
Proof.
  unfold accepts. apply or_dec; [apply _|]. apply and_dec; [apply _|].
  refine (cast_if (decide (Forall (fun p => ~ (p.1 = 0 /\ p.2 = 1) /\ ~ (p.1 = 1 /\ p.2 = 0)) (zip (rev a) (rev b))))).
  - unfold no_zero_one. intros k x y Hx Hy. rewrite Forall_lookup in f. apply (f k (x, y)).
    rewrite lookup_zip_with, Hx. simpl. by rewrite Hy.
  - intros H. apply n. rewrite Forall_lookup. intros k [x y] Hk. apply lookup_zip_with_Some in Hk as (x' & y' & Exy & Hx & Hy).
    simplify_eq. by apply (H k).
Defined.

Section with_fops.
Context {fo : FOps}.

Lemma size_zero ss : 0 ∈ ss -> size_prod ss = 0.
Proof. induction ss as [|n ss IH]; intros H; [by apply elem_of_nil in H|]. cbn. apply elem_of_cons in H as [<-|H]; [lia|]. rewrite (IH H). lia. Qed.
Lemma existsb_zero ss : 0 ∈ ss -> existsb (Z.eqb 0) ss = true.
Proof. intros H. apply existsb_exists. exists 0. split; [by apply elem_of_list_In|done]. Qed.
Lemma no_index ss idx : 0 ∈ ss -> ~ in_range ss idx.
Proof.
  intros H Hi. induction Hi as [|n i ss idx Hn Hi IH]; [by apply elem_of_nil in H|].
  apply elem_of_cons in H as [<-|H]; [lia|auto].
Qed.
Lemma cells_zero ss w : 0 ∈ ss -> raw_cells ss = rm_cells ss w.
Proof.
  intros Hz. unfold raw_cells, rm_cells. rewrite (size_zero ss Hz). cbn.
  destruct (indices ss) as [|idx l] eqn:E; [done|]. destruct (no_index ss idx Hz). apply elem_of_indices. rewrite E. left.
Qed.

Lemma op_arith_empty o h a b l r vl vr :
  h_ten h !! a = Some l -> h_ten h !! b = Some r -> holds h l vl -> holds h r vr ->
  let ss := bmax (sizes (t_lay l)) (sizes (t_lay r)) in
  let D := dt_join (t_dt l) (t_dt r) in
  let rg := t_rg l || t_rg r in
  0 ∈ ss -> fits D ss ->
  op_arith o a b h = (Ok (length (h_ten h)), alloc_heap h D (contig ss) (raw_cells ss) rg
     (if rg then Some (Gfn (back_of o) [a; b] 0 0 0) else None)).
Proof.
  intros Ha Hb Hl Hr ss D rg Hz Hfit.
  assert (allocable D ss) as Hal.
  { split; [|done]. apply bmax_Forall; by eapply holds_shape. }
  rewrite op_arith_eq. unfold apply_binary_operator, apply_no_grad_binary_op.
  rewrite !bind_assoc. erewrite bind_ok by (by apply get_ten_ok).
  rewrite bind_assoc. erewrite bind_ok by (by apply get_ten_ok).
  rewrite bind_assoc. rewrite bind_lift, broadcast_range_max. fold ss.
  rewrite bind_assoc. rewrite larger_join. fold D.
  erewrite bind_ok by (by apply create_ok). simpl sizes.
  rewrite bind_assoc. erewrite bind_ok by (apply get_ten_ok, alloc_ten).
  rewrite bind_assoc. fold (raw_cells ss).
  set (h1 := alloc_heap h D (contig ss) (raw_cells ss) false None).
  assert (forall L R D' l' r', bmax (sizes (t_lay l')) (sizes (t_lay r')) = ss -> D' = (if order_of o then innc_common L R else L) ->
    kernel_of o L R (fresh_rec h D (contig ss) false None) l' r' h1 = (Ok tt, h1)) as Hk.
  { intros L R D' l' r' Hs HD. rewrite (kernel_loop o L R D' _ l' r' h1 ss); [|by rewrite broadcast_range_max, Hs|done|done].
    unfold for_each_sizevec. by rewrite existsb_zero. }
  erewrite bind_ok.
  2:{ instantiate (1 := h1). instantiate (1 := tt). destruct (order_of o) eqn:Ho; [by eapply Hk|].
      case_bool_decide; [by eapply Hk|]. eapply Hk; [apply bmax_comm|done]. }
  rewrite bind_ret.
  erewrite bind_ok by (apply get_ten_ok, alloc_ten_old, Ha).
  erewrite bind_ok by (apply get_ten_ok, alloc_ten_old, Hb).
  unfold rg. destruct (t_rg l), (t_rg r); simpl; try done; unfold h1; by rewrite alloc_track_bind.
Qed.
Lemma op_cmp_empty c h a b l r vl vr :
  h_ten h !! a = Some l -> h_ten h !! b = Some r -> holds h l vl -> holds h r vr ->
  let ss := bmax (sizes (t_lay l)) (sizes (t_lay r)) in
  0 ∈ ss -> fits I8 ss ->
  op_cmp c a b h = (Ok (length (h_ten h)), alloc_heap h I8 (contig ss) (raw_cells ss) false None).
Proof.
  intros Ha Hb Hl Hr ss Hz Hfit.
  assert (allocable I8 ss) as Hal.
  { split; [|done]. apply bmax_Forall; by eapply holds_shape. }
  unfold op_cmp. erewrite bind_ok by (by apply get_ten_ok). erewrite bind_ok by (by apply get_ten_ok).
  rewrite bind_lift, broadcast_range_max. fold ss.
  erewrite bind_ok by (by apply create_ok). simpl sizes.
  erewrite bind_ok by (apply get_ten_ok, alloc_ten).
  unfold tensor_cmp. simpl (sizes (t_lay (fresh_rec _ _ _ _ _))). unfold for_each_sizevec. rewrite existsb_zero by done. done.
Qed.

Lemma arith_empty o h a b ra rb va vb w :
  tensor_at h a ra va -> tensor_at h b rb vb ->
  let ss := larger_shape (shape ra) (shape rb) in
  0 ∈ ss -> fits (dt_join (t_dt ra) (t_dt rb)) ss ->
  exists t h', exec (exec_arith o (Some a) (Some b)) h = (Ok (RHandle (Some t)), h') /\
    new_tensor h h' t (dt_join (t_dt ra) (t_dt rb)) ss (t_rg ra || t_rg rb) w.
Proof.
  intros [Ha Hva] [Hb Hvb] ss. unfold ss. rewrite larger_bmax. clear ss. set (ss := bmax _ _). intros Hz Hf. rewrite exec_arith_eq, new_handle_eq.
  rewrite (op_arith_empty o h a b ra rb va vb) by done. eexists _, _. split; [done|].
  change (bmax _ _) with ss. rewrite (cells_zero ss w) by done. apply alloc_new_tensor.
  - split; [|done]. apply bmax_Forall; by eapply holds_shape.
  - intros idx Hi. by destruct (no_index ss idx Hz).
Qed.
Lemma cmp_empty c h a b ra rb va vb w :
  tensor_at h a ra va -> tensor_at h b rb vb ->
  let ss := larger_shape (shape ra) (shape rb) in
  0 ∈ ss -> fits I8 ss ->
  exists t h', exec (OCmp c (Some a) (Some b)) h = (Ok (RHandle (Some t)), h') /\ new_tensor h h' t I8 ss false w.
Proof.
  intros [Ha Hva] [Hb Hvb] ss. unfold ss. rewrite larger_bmax. clear ss. set (ss := bmax _ _). intros Hz Hf. cbn [exec]. rewrite bin_some, new_handle_eq.
  rewrite (op_cmp_empty c h a b ra rb va vb) by done. eexists _, _. split; [done|].
  change (bmax _ _) with ss. rewrite (cells_zero ss w) by done. apply alloc_new_tensor.
  - split; [|done]. apply bmax_Forall; by eapply holds_shape.
  - intros idx Hi. by destruct (no_index ss idx Hz).
Qed.

(** exactly the accepted pairs do not throw *)
Lemma arith_throws o h a b ra rb va vb e :
  (order_of o = false -> f_commutative fo) -> tensor_at h a ra va -> tensor_at h b rb vb ->
  fits (dt_join (t_dt ra) (t_dt rb)) (larger_shape (shape ra) (shape rb)) ->
  (exec (exec_arith o (Some a) (Some b)) h).1 = Throw e -> e = RuntimeError /\ ~ accepts (shape ra) (shape rb).
Proof.
  intros Hcm Ha Hb Hf E. destruct (decide (accepts (shape ra) (shape rb))) as [Hacc|Hacc].
  - exfalso. destruct Hacc as [Hz|[Hc Hz]].
    + destruct (arith_empty o h a b ra rb va vb (fun _ => VI 0) Ha Hb Hz Hf) as (t & h' & E' & _). by rewrite E' in E.
    + assert (larger_shape (shape ra) (shape rb) = bshape (shape ra) (shape rb)) as Hs.
      { rewrite larger_bmax. apply bmax_bshape; [..|done|done]; eapply holds_nonneg; [apply Ha|apply Hb]. }
      rewrite Hs in Hf. destruct (arith_new o h a b Hcm ra rb va vb Ha Hb Hc Hz Hf) as [H1 H2].
      destruct (all_defined_or (fun idx => cpp_arith o (t_dt ra) (t_dt rb) (dt_join (t_dt ra) (t_dt rb)) (va (bidx (shape ra) idx))
        (vb (bidx (shape rb) idx))) (bshape (shape ra) (shape rb))) as [[w Hw]|Hn].
      * destruct (H1 w Hw) as (t & h' & E' & _). by rewrite E' in E.
      * destruct (H2 Hn) as (u & h' & E' & _). by rewrite E' in E.
  - split; [|done]. destruct (arith_reject o h a b ra rb va vb Ha Hb) as (x & h' & E' & _ & Hx); [|by rewrite <- larger_bmax|].
    { apply not_accepted; [..|done]; eapply holds_nonneg; [apply Ha|apply Hb]. }
    rewrite E' in E. cbn in E. subst x. destruct Hx as [?|(_ & _ & u & ? & _)]; congruence.
Qed.
Lemma arith_throws' o h a b ra rb va vb e :
  f_commutative fo -> tensor_at h a ra va -> tensor_at h b rb vb ->
  fits (dt_join (t_dt ra) (t_dt rb)) (larger_shape (shape ra) (shape rb)) ->
  (exec (exec_arith o (Some a) (Some b)) h).1 = Throw e -> e = RuntimeError /\ ~ accepts (shape ra) (shape rb).
Proof. intros Hc. by apply arith_throws. Qed.
Lemma arith_refused o h a b ra rb va vb :
  tensor_at h a ra va -> tensor_at h b rb vb ->
  fits (dt_join (t_dt ra) (t_dt rb)) (larger_shape (shape ra) (shape rb)) -> ~ accepts (shape ra) (shape rb) ->
  exists x h', exec (exec_arith o (Some a) (Some b)) h = (x, h') /\ extends h h' /\
    (x = Throw RuntimeError \/
     floating (t_dt ra) = false /\ floating (t_dt rb) = false /\ exists u, x = UB u /\ arith_ub u).
Proof.
  intros Ha Hb Hf Hn. apply (arith_reject o h a b ra rb va vb Ha Hb); [|by rewrite <- larger_bmax].
  apply not_accepted; [..|done]; eapply holds_nonneg; [apply Ha|apply Hb].
Qed.
Lemma cmp_throws c h a b ra rb va vb e :
  tensor_at h a ra va -> tensor_at h b rb vb -> fits I8 (larger_shape (shape ra) (shape rb)) ->
  (exec (OCmp c (Some a) (Some b)) h).1 = Throw e <-> e = RuntimeError /\ ~ accepts (shape ra) (shape rb).
Proof.
  intros Ha Hb Hf. destruct (decide (accepts (shape ra) (shape rb))) as [Hacc|Hacc].
  - split; [|naive_solver]. intros E. exfalso. destruct Hacc as [Hz|[Hc Hz]].
    + destruct (cmp_empty c h a b ra rb va vb (fun _ => VI 0) Ha Hb Hz Hf) as (t & h' & E' & _). by rewrite E' in E.
    + assert (larger_shape (shape ra) (shape rb) = bshape (shape ra) (shape rb)) as Hs.
      { rewrite larger_bmax. apply bmax_bshape; [..|done|done]; eapply holds_nonneg; [apply Ha|apply Hb]. }
      rewrite Hs in Hf. destruct (cmp_new c h a b ra rb va vb Ha Hb Hc Hz Hf) as (t & h' & E' & _). by rewrite E' in E.
  - destruct (cmp_reject c h a b ra rb va vb Ha Hb) as (h' & E' & _); [|by rewrite <- larger_bmax|].
    { apply not_accepted; [..|done]; eapply holds_nonneg; [apply Ha|apply Hb]. }
    rewrite E'. cbn. split; [intros [=]; naive_solver|by intros [-> _]].
Qed.
End with_fops.
