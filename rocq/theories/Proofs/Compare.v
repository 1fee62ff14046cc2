(** Comparisons; rejection of incompatible shapes. *)
From Verif.Proofs Require Export Binary.

Section with_fops.
Context {fo : FOps}.

Lemma alloc_new_tensor h dt ss w rg fn :
  allocable dt ss -> (forall idx, in_range ss idx -> has_ty dt (w idx)) ->
  new_tensor h (alloc_heap h dt (contig ss) (rm_cells ss w) rg fn) (length (h_ten h)) dt ss rg w.
Proof.
  intros Ha Hw. split; [apply alloc_extends|]. split; [by apply lookup_ge_None_2|].
  exists (fresh_rec h dt (contig ss) rg fn). split; [apply alloc_ten|].
  split; [by apply lookup_ge_None_2|]. do 2 (split; [done|]).
  split. { intros idx Hi. apply pos_contig; [done|]. by eapply allocable_lt63. }
  do 2 (split; [done|]). by apply alloc_holds.
Qed.

Definition bool_val (b : bool) : val := VI (if b then 1 else 0).
Definition cmp_elem (c : cop) (l r : tensor) (vl vr : list Z -> val) (idx : list Z) : bool :=
  cpp_cmp c (t_dt l) (t_dt r) (vl (bidx (sizes (t_lay l)) idx)) (vr (bidx (sizes (t_lay r)) idx)).

Lemma cvt_bool b : cvt I8 I8 (bool_val b) = Ok (bool_val b).
Proof. by destruct b. Qed.

Lemma op_cmp_spec c h a b l r vl vr :
  h_ten h !! a = Some l -> h_ten h !! b = Some r -> holds h l vl -> holds h r vr ->
  let ss := bshape (sizes (t_lay l)) (sizes (t_lay r)) in
  compatible (sizes (t_lay l)) (sizes (t_lay r)) ->
  no_zero_one (sizes (t_lay l)) (sizes (t_lay r)) ->
  fits I8 ss ->
  op_cmp c a b h =
    (Ok (length (h_ten h)),
     alloc_heap h I8 (contig ss) (rm_cells ss (fun idx => bool_val (cmp_elem c l r vl vr idx)))
       false None).
Proof.
  intros Ha Hb Hl Hr ss Hc Hz Hmax.
  assert (allocable I8 ss) as Hal.
  { split; [|done]. apply bshape_Forall; by eapply holds_shape. }
  assert (bmax (sizes (t_lay l)) (sizes (t_lay r)) = ss) as Hbm.
  { apply bmax_bshape; [| |done|done]; by eapply holds_nonneg. }
  unfold op_cmp. erewrite bind_ok by (by apply get_ten_ok).
  erewrite bind_ok by (by apply get_ten_ok).
  rewrite bind_lift, broadcast_range_max, Hbm.
  erewrite bind_ok by (by apply create_ok). simpl sizes.
  erewrite bind_ok by (apply get_ten_ok, alloc_ten).
  unfold tensor_cmp. simpl (sizes (t_lay (fresh_rec _ _ _ _ _))).
  match goal with |- bind (for_each_sizevec ss ?B) _ _ = _ => set (body := B) end.
  destruct (fresh_loop h I8 ss false None body
    (fun idx => Ok (bool_val (cmp_elem c l r vl vr idx))) (raw_cells ss) Hal)
    as [(w & Hw & Hrun)|(u & cs & idx & Hrun & Hi & He)].
  { apply replicate_length. }
  { intros idx cs Hi Hlen. unfold body.
    destruct (load_pair h (alloc_heap h I8 (contig ss) cs false None) l r vl vr idx Hl Hr)
      as (E1 & E2 & T1 & T2); [apply alloc_extends|done|done|].
    erewrite bind_ok by exact E1. erewrite bind_ok by exact E2. rewrite bind_lift.
    rewrite cmpop_cpp by done. fold (cmp_elem c l r vl vr idx).
    change (VI (if cmp_elem c l r vl vr idx then 1 else 0)) with
      (bool_val (cmp_elem c l r vl vr idx)).
    rewrite fresh_write by done. by rewrite cvt_bool. }
  - fold (raw_cells ss). erewrite bind_ok by exact Hrun. unfold mret. do 2 f_equal.
    apply rm_cells_ext. intros idx Hi. specialize (Hw idx Hi). congruence.
  - done.
Qed.

(** ** Rejection *)
Lemma bidx_range_dec ss idx : Decision (in_range ss (bidx ss idx)).
Proof. apply Forall2_dec. intros. apply _. Defined.
Global Existing Instance bidx_range_dec.

Lemma load_aug_reject h r v idx :
  holds h r v -> (length (sizes (t_lay r)) <= length idx)%nat -> Forall (fun i => 0 <= i) idx ->
  ~ in_range (sizes (t_lay r)) (bidx (sizes (t_lay r)) idx) ->
  forall T, load_aug T r idx h = (Throw RuntimeError, h).
Proof.
  intros Hh Hlen Hi Hn T. unfold load_aug, idx_aug, cnt_from_aug_index.
  assert (aug_rev (rev (sizes (t_lay r))) (rev idx) = Throw RuntimeError) as ->; [|done].
  apply aug_rev_throw; [by rewrite !rev_length|].
  assert (exists k m i, rev (sizes (t_lay r)) !! k = Some m /\ rev idx !! k = Some i /\
    ~ (m = 1 \/ i < m)) as (k & m & i & H1 & H2 & H3).
  {
    assert (~ in_range (rev (sizes (t_lay r))) (bidx_rev (rev (sizes (t_lay r))) (rev idx))) as Hn'.
    { rewrite bidx_rev_eq by done. by rewrite in_range_rev. }
    assert (length (rev (sizes (t_lay r))) <= length (rev idx))%nat as Hlen' by (by rewrite !rev_length).
    apply Forall_rev in Hi. revert Hlen' Hi Hn'. generalize (rev (sizes (t_lay r))), (rev idx).
    clear. induction l as [|m l IH]; intros [|i idx] Hlen Hi Hn; simpl in Hlen; try lia.
    { destruct Hn. constructor. } { destruct Hn. constructor. }
    inversion Hi; subst. destruct (decide (m = 1 \/ i < m)) as [Hd|Hd].
    - destruct (IH idx) as (k & m' & i' & ? & ? & ?); [lia|done| |].
      { intros Hr. apply Hn. unfold bidx_rev. simpl. apply in_range_cons. split; [|done].
        destruct (Z.eqb_spec m 1); lia. }
      by exists (Datatypes.S k), m', i'.
    - by exists 0%nat, m, i. }
  exists k, m, i. split_and!; try done; lia.
Qed.

(** element computation of an operator on possibly incompatible shapes *)
Definition reject_elem {A} (l r : tensor) (vl vr : list Z -> val) (idx : list Z)
    (f : val -> val -> outcome A) : outcome A :=
  if decide (in_range (sizes (t_lay l)) (bidx (sizes (t_lay l)) idx)) then
    if decide (in_range (sizes (t_lay r)) (bidx (sizes (t_lay r)) idx)) then
      f (vl (bidx (sizes (t_lay l)) idx)) (vr (bidx (sizes (t_lay r)) idx))
    else Throw RuntimeError
  else Throw RuntimeError.

Lemma reject_load {A} h h' l r vl vr idx (k : val -> val -> E A) :
  holds h l vl -> holds h r vr -> extends h h' ->
  in_range (bmax (sizes (t_lay l)) (sizes (t_lay r))) idx ->
  (let! a := load_aug (t_dt l) l idx in
   let! b := load_aug (t_dt r) r idx in k a b) h' =
  if decide (in_range (sizes (t_lay l)) (bidx (sizes (t_lay l)) idx)) then
    if decide (in_range (sizes (t_lay r)) (bidx (sizes (t_lay r)) idx)) then
      k (vl (bidx (sizes (t_lay l)) idx)) (vr (bidx (sizes (t_lay r)) idx)) h'
    else (Throw RuntimeError, h')
  else (Throw RuntimeError, h').
Proof.
  intros Hl Hr He Hi.
  pose proof (holds_extends _ _ _ _ He Hl) as Hl'. pose proof (holds_extends _ _ _ _ He Hr) as Hr'.
  pose proof (in_range_length _ _ Hi) as Hlen. rewrite bmax_length in Hlen.
  assert (Forall (fun i => 0 <= i) idx) as Hpos.
  { clear -Hi. induction Hi; constructor; auto; lia. }
  destruct (decide (in_range _ (bidx (sizes (t_lay l)) idx))) as [HL|HL].
  - erewrite bind_ok by (apply holds_aug; [done|lia|done]).
    destruct (decide (in_range _ (bidx (sizes (t_lay r)) idx))) as [HR|HR].
    + by erewrite bind_ok by (apply holds_aug; [done|lia|done]).
    + erewrite bind_throw; [done|]. eapply load_aug_reject; [done|lia|done|done].
  - erewrite bind_throw; [done|]. eapply load_aug_reject; [done|lia|done|done].
Qed.

(** an index at which an incompatible pair fails *)
Definition misfit (a b : list Z) : Prop :=
  exists idx, in_range (bmax a b) idx /\
    ~ (in_range a (bidx a idx) /\ in_range b (bidx b idx)).
Lemma misfit_sym a b : misfit a b -> misfit b a.
Proof. intros (idx & Hi & Hn). exists idx. split; [by rewrite bmax_comm|naive_solver]. Qed.
Lemma incompatible_index a b :
  Forall (fun n => 0 < n) a -> Forall (fun n => 0 < n) b -> ~ compatible a b -> misfit a b.
Proof.
  intros Ha Hb Hc. rewrite compatible_rev in Hc.
  apply Forall_rev in Ha, Hb.
  assert (exists ri, in_range (bc_rev Z.max (rev a) (rev b)) ri /\
    ~ (in_range (rev a) (bidx_rev (rev a) ri) /\ in_range (rev b) (bidx_rev (rev b) ri)))
    as (ri & Hr & Hn).
  { revert Ha Hb Hc. generalize (rev a), (rev b). clear.
    induction l as [|x l IH]; intros [|y l'] Ha Hb Hc; simpl in Hc; try (by destruct Hc).
    inversion Ha; subst. inversion Hb; subst.
    destruct (decide (x = y \/ x = 1 \/ y = 1)) as [Hd|Hd].
    - destruct (IH l') as (ri & Hr & Hn); [done..|intuition|].
      exists (0 :: ri). split.
      + simpl. apply in_range_cons. split; [lia|done].
      + unfold bidx_rev. simpl. rewrite !in_range_cons. intuition.
    - exists (Z.max x y - 1 :: map (fun n => n - 1) (bc_rev Z.max l l')). split.
      + simpl. apply in_range_cons. split; [lia|].
        assert (Forall (fun n => 0 < n) (bc_rev Z.max l l')) as Hp
          by (apply bc_rev_Forall; [intros; lia|done|done]).
        clear -Hp. induction Hp; simpl; constructor; auto; lia.
      + unfold bidx_rev. simpl. rewrite !in_range_cons.
        destruct (Z.eqb_spec x 1), (Z.eqb_spec y 1); lia. }
  exists (rev ri). split.
  { unfold bmax. by apply in_range_rev. }
  pose proof (in_range_length _ _ Hr) as Hlen. rewrite bc_rev_length, !rev_length in Hlen.
  intros [H1 H2]. apply Hn.
  rewrite <- in_range_rev, <- bidx_rev_eq in H1, H2 by (rewrite rev_length; lia).
  rewrite rev_involutive in H1, H2. done.
Qed.

(** pointwise maximum of two positive shapes *)
Lemma bmax_Forall (P : Z -> Prop) a b : Forall P a -> Forall P b -> Forall P (bmax a b).
Proof.
  intros Ha Hb. unfold bmax. apply Forall_rev, bc_rev_Forall; [|by apply Forall_rev..].
  intros x y Hx Hy. destruct (Z.max_spec x y) as [[_ ->]|[_ ->]]; done.
Qed.

Lemma op_cmp_reject c h a b l r vl vr :
  h_ten h !! a = Some l -> h_ten h !! b = Some r -> holds h l vl -> holds h r vr ->
  misfit (sizes (t_lay l)) (sizes (t_lay r)) ->
  fits I8 (bmax (sizes (t_lay l)) (sizes (t_lay r))) ->
  exists h', op_cmp c a b h = (Throw RuntimeError, h') /\ extends h h'.
Proof.
  intros Ha Hb Hl Hr Hc Hmax. set (ss := bmax _ _) in *.
  assert (allocable I8 ss) as Hal.
  { split; [|done]. apply bmax_Forall; by eapply holds_shape. }
  unfold op_cmp. erewrite bind_ok by (by apply get_ten_ok).
  erewrite bind_ok by (by apply get_ten_ok).
  rewrite bind_lift, broadcast_range_max. fold ss.
  erewrite bind_ok by (by apply create_ok). simpl sizes.
  erewrite bind_ok by (apply get_ten_ok, alloc_ten).
  unfold tensor_cmp. simpl (sizes (t_lay (fresh_rec _ _ _ _ _))).
  match goal with |- context [for_each_sizevec ss ?B] => set (body := B) end.
  set (g := fun idx => reject_elem l r vl vr idx
         (fun x y => Ok (bool_val (cpp_cmp c (t_dt l) (t_dt r) x y)))).
  destruct (fresh_loop h I8 ss false None body g (raw_cells ss) Hal)
    as [(w & Hw & Hrun)|(u & cs & idx & Hrun & Hi & He)].
  { apply replicate_length. }
  { intros idx cs Hi Hlen. unfold body. erewrite reject_load; [|done|done|apply alloc_extends|done].
    unfold g, reject_elem. destruct (decide _) as [D1|]; [|done]. destruct (decide _) as [D2|]; [|done].
    rewrite bind_lift. rewrite cmpop_cpp; [|by apply Hl|by apply Hr].
    match goal with |- context [VI (if ?x then 1 else 0)] =>
      change (VI (if x then 1 else 0)) with (bool_val x) end.
    rewrite fresh_write by done. by rewrite cvt_bool. }
  - exfalso. destruct Hc as (idx & Hi & Hn).
    specialize (Hw idx Hi). unfold g, reject_elem in Hw.
    destruct (decide _); [|done]. destruct (decide _); [|done]. by destruct Hn.
  - fold (raw_cells ss). exists (alloc_heap h I8 (contig ss) cs false None).
    split; [|apply alloc_extends].
    unfold g, reject_elem in He. destruct (decide _); [destruct (decide _)|]; simpl in He; try done;
      destruct u; try done; subst; by erewrite bind_throw by exact Hrun.
Qed.

Lemma op_arith_reject o h a b l r vl vr :
  h_ten h !! a = Some l -> h_ten h !! b = Some r -> holds h l vl -> holds h r vr ->
  misfit (sizes (t_lay l)) (sizes (t_lay r)) ->
  fits (dt_join (t_dt l) (t_dt r)) (bmax (sizes (t_lay l)) (sizes (t_lay r))) ->
  exists x h', op_arith o a b h = (x, h') /\ extends h h' /\
    (x = Throw RuntimeError \/
     floating (t_dt l) = false /\ floating (t_dt r) = false /\ exists u, x = UB u /\ arith_ub u).
Proof.
  intros Ha Hb Hl Hr Hc Hmax.
  set (ss := bmax (sizes (t_lay l)) (sizes (t_lay r))) in *.
  set (D := dt_join (t_dt l) (t_dt r)) in *.
  assert (allocable D ss) as Hal.
  { split; [|done]. apply bmax_Forall; by eapply holds_shape. }
  assert (forall l r vl vr, holds h l vl -> holds h r vr ->
    misfit (sizes (t_lay l)) (sizes (t_lay r)) ->
    bmax (sizes (t_lay l)) (sizes (t_lay r)) = ss -> D = dt_join (t_dt l) (t_dt r) ->
    (order_of o = false -> D = t_dt l) ->
    exists x cs, kernel_of o (t_dt l) (t_dt r) (fresh_rec h D (contig ss) false None) l r
      (alloc_heap h D (contig ss) (raw_cells ss) false None) =
      (x, alloc_heap h D (contig ss) cs false None) /\
    (x = Throw RuntimeError \/
     floating (t_dt l) = false /\ floating (t_dt r) = false /\ exists u, x = UB u /\ arith_ub u))
    as Hk.
  {
    intros l' r' vl' vr' Hl' Hr' Hc' Hss HD HoD.
    erewrite kernel_loop with (D := D) (ss := ss);
      [|by rewrite broadcast_range_max, Hss|done
       |destruct (order_of o) eqn:Ho; [by rewrite innc_common_join|by apply HoD]].
    set (g := fun idx => reject_elem l' r' vl' vr' idx
         (fun x y => obind (binop o (t_dt l') (t_dt r') x y) (cvt (prom (t_dt l') (t_dt r')) D))).
    destruct (fresh_loop h D ss false None (binary_body o D (t_dt l') (t_dt r')
     (fresh_rec h D (contig ss) false None) l' r') g (raw_cells ss) Hal)
    as [(w & Hw & Hrun)|(u & cs & idx & Hrun & Hi & He)].
    { apply replicate_length. }
    { intros idx cs Hi Hlen. unfold binary_body.
      erewrite reject_load; [|done|done|apply alloc_extends|by rewrite Hss].
      unfold g, reject_elem. destruct (decide _) as [D1|]; [|done]. destruct (decide _) as [D2|]; [|done].
      rewrite bind_lift. destruct (binop o _ _ _ _); simpl; try done. by apply fresh_write. }
    - exfalso. destruct Hc' as (idx & Hi & Hn).
      rewrite Hss in Hi. specialize (Hw idx Hi). unfold g, reject_elem in Hw.
      destruct (decide _); [|done]. destruct (decide _); [|done]. by destruct Hn.
    - exists u, cs. split; [done|]. unfold g, reject_elem in He.
      destruct (decide _) as [D1|]; [destruct (decide _) as [D2|]|]; simpl in He.
      + pose proof (binop_cpp o (t_dt l') (t_dt r') D (vl' (bidx (sizes (t_lay l')) idx))
          (vr' (bidx (sizes (t_lay r')) idx))) as Hbc.
        unfold cpp_arith in Hbc.
        destruct (floating (t_dt l') || floating (t_dt r')) eqn:Hf.
        { destruct Hbc as [Hbc _]; [by apply Hl'|by apply Hr'|by rewrite HD, dt_join_floating|].
          rewrite Hbc in He. done. }
        apply orb_false_elim in Hf as [Hf1 Hf2].
        right. split; [done|]. split; [done|].
        destruct (match vl' (bidx (sizes (t_lay l')) idx) with VI _ => _ | VF _ => _ end).
        * destruct Hbc as [Hbc _]; [by apply Hl'|by apply Hr'|
            by rewrite HD, dt_join_floating, Hf1, Hf2|]. rewrite Hbc in He. done.
        * destruct Hbc as (u' & Hbc & Hu); [by apply Hl'|by apply Hr'|
            by rewrite HD, dt_join_floating, Hf1, Hf2|]. rewrite Hbc in He.
          destruct u; try done. simpl in He. subst. by eexists.
      + destruct u; try done. subst. by left.
      + destruct u; try done. subst. by left. }
  rewrite op_arith_eq. unfold apply_binary_operator, apply_no_grad_binary_op.
  rewrite !bind_assoc. erewrite bind_ok by (by apply get_ten_ok).
  rewrite bind_assoc. erewrite bind_ok by (by apply get_ten_ok).
  rewrite bind_assoc. rewrite bind_lift, broadcast_range_max. fold ss.
  rewrite bind_assoc. rewrite larger_join. fold D.
  erewrite bind_ok by (by apply create_ok). simpl sizes.
  rewrite bind_assoc. erewrite bind_ok by (apply get_ten_ok, alloc_ten).
  rewrite bind_assoc. fold (raw_cells ss).
  assert (exists x cs, (if order_of o then kernel_of o (t_dt l) (t_dt r) (fresh_rec h D (contig ss) false None) l r
     else if bool_decide (t_dt l = D) then kernel_of o (t_dt l) (t_dt r) (fresh_rec h D (contig ss) false None) l r
     else kernel_of o (t_dt r) (t_dt l) (fresh_rec h D (contig ss) false None) r l)
     (alloc_heap h D (contig ss) (raw_cells ss) false None) =
      (x, alloc_heap h D (contig ss) cs false None) /\
    (x = Throw RuntimeError \/
     floating (t_dt l) = false /\ floating (t_dt r) = false /\ exists u, x = UB u /\ arith_ub u))
    as (x & cs & Hx & Hcase).
  { destruct (order_of o) eqn:Ho; [by eapply Hk|].
    case_bool_decide as Hd; [by eapply Hk|].
    assert (D = t_dt r) as HDr. { unfold D, dt_join in *. by destruct (_ <? _). }
    destruct (Hk r l vr vl) as (x & cs & Hx & Hcase); try done.
    { by apply misfit_sym. } { unfold ss. apply bmax_comm. } { apply dt_join_comm. }
    exists x, cs. split; [done|]. destruct Hcase as [?|(?&?&?)]; [by left|by right]. }
  destruct Hcase as [->|(Hf1 & Hf2 & u & -> & Hu)].
  - eexists _, _. split; [by erewrite bind_throw by exact Hx|]. split; [apply alloc_extends|by left].
  - eexists _, _. split; [by erewrite bind_ub by exact Hx|]. split; [apply alloc_extends|].
    right. split; [done|]. split; [done|]. by exists u.
Qed.
End with_fops.
