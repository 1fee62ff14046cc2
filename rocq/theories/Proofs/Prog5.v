(** Calls that return tensors on new buffers keep the invariant: each of them. *)
From Verif.Proofs Require Export Prog4 Init.
From Verif.Model Require Export Exact Api.
#[local] Existing Instance Exact.

(** whatever the call returns can be added to the tensors of the invariant *)
Definition keeps_GI (D T : nat -> Prop) (h : heap) (o : op) : Prop :=
  forall x h', exec o h = (Ok (RHandle (Some x)), h') ->
    exists D' : nat -> Prop, (forall y, D y -> D' y) /\ D' x /\ GI D' T h'.
Lemma keeps_add D T h o x h' : exec o h = (Ok (RHandle (Some x)), h') -> GI (fun y => D y \/ y = x) T h' -> keeps_GI D T h o.
Proof.
  intros E G x' h'' E'. rewrite E in E'. injection E' as <- <-. exists (fun y => D y \/ y = x). split; [by left|]. split; [by right|done].
Qed.
Lemma keeps_same D T h o x : GI D T h -> D x -> exec o h = (Ok (RHandle (Some x)), h) -> keeps_GI D T h o.
Proof. intros G Dx E x' h'' E'. rewrite E in E'. injection E' as <- <-. by exists D. Qed.
Lemma keeps_fail D T h o : (forall r h', exec o h <> (Ok r, h')) -> keeps_GI D T h o.
Proof. intros E x h' E'. by destruct (E _ _ E'). Qed.
Lemma keeps_ub D T h o : (exists u h', exec o h = (UB u, h')) -> keeps_GI D T h o.
Proof. intros (u & h' & E). apply keeps_fail. intros r h'' E'. congruence. Qed.

Definition builds (o : op) : bool := match o with OBackward _ | ORequires _ false => false | _ => true end.
Lemma builds_building o : builds o = true -> (forall t, o <> OBackward t) /\ (forall t, o <> ORequires t false).
Proof. destruct o; try done. by destruct b. Qed.
(** new constants *)
Lemma keeps_const D T h o dt ss w : GI D T h -> builds o = true -> fits dt ss ->
  (exists t h', exec o h = (Ok (RHandle (Some t)), h') /\ new_tensor h h' t dt ss false w) -> keeps_GI D T h o.
Proof.
  intros G [B1 B2]%builds_building Hf (t & h' & E & N). eapply keeps_add; [exact E|]. by eapply GI_call.
Qed.

Section ops.
Variables (D T : nat -> Prop) (h : heap) (H : list nat).
Hypothesis Hinv : tinv h.
Hypothesis G : GI D T h.
Hypothesis HD : forall x, x ∈ H -> D x.
Lemma hand_at a r : at_hand h H a r -> D a /\ tensor_at h a r (contents h r) /\ fits (t_dt r) (shape r) /\ lay_inj (t_lay r).
Proof.
  intros [Ha Hr]. split; [by apply HD|]. destruct (g_rec _ _ _ G a (HD a Ha)) as (r' & Hr' & H1 & H2 & H3). assert (r' = r) as -> by congruence. done.
Qed.
Lemma hand_float a r : at_hand h H a r -> t_rg r = true -> floating (t_dt r) = true.
Proof. intros [_ Hr] Hg. pose proof (ok_rg _ _ _ (Hinv a r Hr) Hg) as Hf. by destruct (t_dt r). Qed.

Lemma keeps_scalar dt v : has_ty dt v -> keeps_GI D T h (OScalar dt v).
Proof.
  intros Hv. eapply keeps_add; [cbn [exec]; rewrite new_handle_eq, create_scalar_ok; done|].
  apply (GI_alloc D T h dt [] (fun _ => v)); try done. apply allocable_nil.
Qed.
Lemma keeps_init t ss dt : rectangular t ss dt -> typed t -> Forall (fun n => n < two64) ss -> fits dt ss -> keeps_GI D T h (OInit t).
Proof.
  intros H1 H2 H3 H4. destruct (init_new h t ss dt H1 H2 H3 H4) as (t' & h' & w & E & N & _). eapply (keeps_const _ _ _ _ dt ss w); try done. by exists t', h'.
Qed.
Lemma keeps_zeros ss dt : shape_fits dt ss -> keeps_GI D T h (OZeros ss dt).
Proof. intros [H1 H2]. eapply keeps_const; [done|done|exact H2|by apply zeros_new]. Qed.
Lemma keeps_ones ss dt : shape_fits dt ss -> keeps_GI D T h (OOnes ss dt).
Proof. intros [H1 H2]. eapply keeps_const; [done|done|exact H2|by apply ones_new]. Qed.
Lemma keeps_zeros_like a r : at_hand h H a r -> keeps_GI D T h (OZerosLike (Some a)).
Proof. intros (_ & Ht & Hf & _)%hand_at. eapply keeps_const; [done|done|exact Hf|]. by apply (like_new h a r _ Ht). Qed.
Lemma keeps_ones_like a r : at_hand h H a r -> keeps_GI D T h (OOnesLike (Some a)).
Proof. intros (_ & Ht & Hf & _)%hand_at. eapply keeps_const; [done|done|exact Hf|]. by apply (like_new h a r _ Ht). Qed.
Lemma keeps_full_int ss n dt : shape_fits dt ss -> keeps_GI D T h (OFullInt ss n dt).
Proof. intros [H1 H2]. eapply keeps_const; [done|done|exact H2|by apply full_int_new]. Qed.
Lemma keeps_full_double ss q dt : shape_fits dt ss -> keeps_GI D T h (OFullDouble ss q dt).
Proof.
  intros [H1 H2]. destruct (full_double_new h ss dt q H1 H2) as [K1 K2]. destruct (cpp_cvt F64 dt (VF q)) as [w|].
  - eapply keeps_const; [done|done|exact H2|by apply K1].
  - apply keeps_ub. destruct (K2 eq_refl) as [h' E]. by eexists _, h'.
Qed.
Lemma keeps_eye n m dt : shape_fits dt [n; m] -> keeps_GI D T h (OEye n m dt).
Proof.
  intros [H1 H2]. apply Forall_cons in H1 as [A H1]. apply Forall_cons in H1 as [B _]. eapply keeps_const; [done|done|exact H2|by apply eye_new].
Qed.
Lemma keeps_blob data ss dt : shape_fits dt ss -> Forall (has_ty dt) data -> size_prod ss <= Z.of_nat (length data) -> keeps_GI D T h (OFromBlob data ss dt).
Proof. intros [H1 H2] H3 H4. eapply keeps_const; [done|done|exact H2|by apply (from_blob_new h ss dt data (VI 0))]. Qed.
Lemma keeps_cmp c a b ra rb : at_hand h H a ra -> at_hand h H b rb -> compatible (shape ra) (shape rb) -> no_zero_one (shape ra) (shape rb) ->
  fits I8 (bshape (shape ra) (shape rb)) -> keeps_GI D T h (OCmp c (Some a) (Some b)).
Proof.
  intros (_ & Ha & _)%hand_at (_ & Hb & _)%hand_at H1 H2 H3. eapply keeps_const; [done|done|exact H3|]. by apply cmp_new.
Qed.
Lemma keeps_pos a r : at_hand h H a r -> keeps_GI D T h (OPos (Some a)).
Proof. intros (Da & [Ha _] & _)%hand_at. by eapply (keeps_same _ _ _ _ a). Qed.

(** operators *)
Lemma qc_comm : f_commutative Exact.
Proof. intros p x y. split; [apply Qcplus_comm|apply Qcmult_comm]. Qed.
Lemma arith_GI o a b ra rb : D a -> D b -> tensor_at h a ra (contents h ra) -> tensor_at h b rb (contents h rb) ->
  compatible (shape ra) (shape rb) -> no_zero_one (shape ra) (shape rb) ->
  fits (dt_join (t_dt ra) (t_dt rb)) (bshape (shape ra) (shape rb)) ->
  (o = ADiv -> t_rg ra || t_rg rb = true -> t_rg ra = true /\ t_rg rb = true /\ shape rb = bshape (shape ra) (shape rb)) ->
  forall x h', op_arith o a b h = (Ok x, h') -> GI (fun y => D y \/ y = x) T h'.
Proof.
  intros Da Db [Ha Hva] [Hb Hvb] Hc Hz Hf Hdiv x h' E.
  destruct (op_arith_spec o h a b ra rb _ _ Ha Hb Hva Hvb Hc Hz Hf) as [Hok Hub]; [intros; apply qc_comm|].
  fold (shape ra) (shape rb) in *. set (ss := bshape (shape ra) (shape rb)) in *. set (dt := dt_join (t_dt ra) (t_dt rb)) in *.
  assert (allocable dt ss) as Hal. { split; [|done]. apply bshape_Forall; by eapply holds_shape. }
  destruct (all_defined_or (arith_elem o dt ra rb (contents h ra) (contents h rb)) ss) as [[w Hw]|Hn].
  2:{ destruct (Hub Hn) as (u & cs & E' & _). congruence. }
  rewrite (Hok w Hw) in E. injection E as <- <-.
  assert (forall idx, in_range ss idx -> has_ty dt (w idx)) as Hty.
  { intros idx Hi. specialize (Hw idx Hi). unfold arith_elem in Hw.
    pose proof (binop_cpp o (t_dt ra) (t_dt rb) dt (contents h ra (bidx (shape ra) idx)) (contents h rb (bidx (shape rb) idx))) as Hx.
    unfold shape in Hx. rewrite Hw in Hx. apply Hx.
    - eapply holds_ty; [done|]. by eapply bidx_in_l.
    - eapply holds_ty; [done|]. by eapply bidx_in_r.
    - apply dt_join_floating. }
  apply GI_alloc; [done|done|done| |by intros ->].
  destruct (t_rg ra || t_rg rb) eqn:Erg; [|done]. set (h' := alloc_heap _ _ _ _ _ _).
  assert (floating (t_dt ra) || floating (t_dt rb) = true) as Hfl.
  { apply orb_true_iff in Erg as [Er|Er]; apply orb_true_iff; [left|right];
      [pose proof (ok_rg _ _ _ (Hinv a ra Ha) Er) as Hx|pose proof (ok_rg _ _ _ (Hinv b rb Hb) Er) as Hx]; [by destruct (t_dt ra)|by destruct (t_dt rb)]. }
  assert (extends h h') as Hext by apply alloc_extends.
  split; [done|]. split; [done|]. cbn [gf_kind gf_in]. split; [by destruct o|]. split; [by destruct o|].
  split. { intros y Hy. apply elem_of_cons in Hy as [->|Hy]; [done|]. apply elem_of_list_singleton in Hy as ->. done. }
  assert (shape_of h' (length (h_ten h)) = ss) as Sx by apply alloc_shape.
  assert (shape_of h' a = shape ra) as Sa by (by rewrite (old_shape D T h h' G Hext a Da), (shape_rec h a ra Ha)).
  assert (shape_of h' b = shape rb) as Sb by (by rewrite (old_shape D T h h' G Hext b Db), (shape_rec h b rb Hb)).
  assert (forall idx, in_range ss idx -> value h' (length (h_ten h)) idx = qop o (value h' a (bidx (shape ra) idx)) (value h' b (bidx (shape rb) idx))) as V.
  { intros idx Hi. unfold h'. rewrite alloc_value by done. fold h'. rewrite (old_value D T h h' G Hext a _ Da), (old_value D T h h' G Hext b _ Db).
    rewrite (value_rec h a ra _ Ha), (value_rec h b rb _ Hb). eapply arith_num; [exact Hfl|]. by apply Hw. }
  split; [|split; [|by destruct o]].
  - unfold node_ok. destruct o; cbn [back_of]; rewrite Sx, Sa, Sb; try done. destruct (Hdiv eq_refl eq_refl) as (R1 & R2 & R3).
    split; [done|]. split; [done|]. split; [done|]. split; [done|]. split; [exists ra; split; [by apply Hext|done]|].
    split; [exists rb; split; [by apply Hext|done]|]. intros idx Hi. rewrite V by done. cbn [qop]. f_equal. f_equal.
    rewrite R3. fold ss. by apply bidx_self.
  - unfold computes. destruct o; cbn [back_of]; rewrite Sx, Sa, Sb; exact V.
Qed.
Lemma keeps_arith o a b ra rb : at_hand h H a ra -> at_hand h H b rb ->
  compatible (shape ra) (shape rb) -> no_zero_one (shape ra) (shape rb) ->
  fits (dt_join (t_dt ra) (t_dt rb)) (bshape (shape ra) (shape rb)) ->
  (o = ADiv -> t_rg ra || t_rg rb = true -> t_rg ra = true /\ t_rg rb = true /\ shape rb = bshape (shape ra) (shape rb)) ->
  keeps_GI D T h (exec_arith o (Some a) (Some b)).
Proof.
  intros (Da & Ha & _)%hand_at (Db & Hb & _)%hand_at Hc Hz Hf Hdiv x h' E. rewrite exec_arith_eq, new_handle_eq in E.
  destruct (op_arith o a b h) as [[t|?|?|] h1] eqn:E'; try done. injection E as <- <-.
  exists (fun y => D y \/ y = t). split; [by left|]. split; [by right|]. by apply (arith_GI o a b ra rb).
Qed.

(** conversions and copies *)
Lemma clone_GI a r dt w (h' := alloc_heap h dt (contig (shape r)) (rm_cells (shape r) w) (t_rg r) (clone_fn (t_rg r) a)) :
  D a -> tensor_at h a r (contents h r) -> allocable dt (shape r) ->
  (forall idx, in_range (shape r) idx -> has_ty dt (w idx)) ->
  (t_rg r = true -> forall idx, in_range (shape r) idx -> num (w idx) = num (contents h r idx)) -> GI (fun y => D y \/ y = length (h_ten h)) T h'.
Proof.
  intros Da [Ha Hv] Hal Hty Hnum. apply GI_alloc; [done|done|done| |by intros ->]. fold h'. unfold clone_fn. destruct (t_rg r) eqn:Erg; [|done].
  assert (extends h h') as Hext by apply alloc_extends.
  split; [done|]. split; [done|]. cbn [gf_kind gf_in]. split; [done|]. split; [done|].
  split. { intros y Hy. apply elem_of_list_singleton in Hy as ->. done. }
  assert (shape_of h' (length (h_ten h)) = shape r) as Sx by apply alloc_shape.
  assert (shape_of h' a = shape r) as Sa by (by rewrite (old_shape D T h h' G Hext a Da), (shape_rec h a r Ha)).
  split; [|split; [|done]].
  - unfold node_ok. by rewrite Sx, Sa.
  - unfold computes. rewrite Sx. intros idx Hi. unfold h'. rewrite alloc_value by done. fold h'. rewrite (old_value D T h h' G Hext a _ Da), (value_rec h a r _ Ha). by apply Hnum.
Qed.
Lemma keeps_clone a r o : at_hand h H a r -> o = OClone (Some a) \/ o = OContiguous (Some a) -> keeps_GI D T h o.
Proof.
  intros (Da & [Ha Hv] & Hf & _)%hand_at Ho. pose proof (clone_ok h a r _ Ha Hv Hf) as E. pose proof (holds_allocable _ _ _ _ Hv Hf) as Hal.
  eapply keeps_add.
  - destruct Ho as [->| ->]; cbn [exec]; rewrite un_some, new_handle_eq; unfold op_contiguous; rewrite E; done.
  - apply (clone_GI a r (t_dt r) (contents h r)); try done. intros idx Hi. by eapply holds_ty.
Qed.
Lemma keeps_type a r dt : at_hand h H a r -> fits dt (shape r) -> keeps_GI D T h (OTypeTo (Some a) dt).
Proof.
  intros Hh Hf. pose proof (hand_at a r Hh) as (Da & [Ha Hv] & Hf' & _). destruct (decide (t_rg r = true /\ floating dt = false)) as [[R1 R2]|Hn].
  { apply keeps_fail. intros ? ?. rewrite (type_reject h a r dt Ha R1 R2). congruence. }
  assert (t_rg r = true -> floating dt = true) as Hfl. { intros Hr. destruct (floating dt) eqn:E; [done|]. destruct Hn. done. }
  destruct (decide (dt = t_dt r)) as [->|Hne]; [eapply (keeps_same _ _ _ _ a); [done|done|]; by apply type_same|].
  pose proof (holds_allocable _ _ _ _ Hv Hf) as Hal.
  destruct (to_dtype_ok h a r _ dt Ha Hv Hf Hne) as [Hok Hub]. { destruct (t_rg r); [|done]. by rewrite Hfl. }
  destruct (all_defined_or (fun idx => cpp_cvt (t_dt r) dt (contents h r idx)) (shape r)) as [[w Hw]|Hx].
  2:{ apply keeps_ub. destruct (Hub Hx) as [cs E]. cbn [exec]. rewrite un_some, new_handle_eq, E. by eexists _, _. }
  eapply keeps_add; [cbn [exec]; rewrite un_some, new_handle_eq, (Hok w Hw); done|].
  apply (clone_GI a r dt w); try done.
  - intros idx Hi. eapply cpp_cvt_ty. by apply Hw.
  - intros Hr idx Hi. eapply cvt_num; [by apply Hfl|]. by apply Hw.
Qed.

(** reductions *)
Lemma red_GI k a r v (h' := scal h (sum_type (t_dt r)) (Some v) (t_rg r) (red_fn k (t_rg r) a)) : D a -> tensor_at h a r (contents h r) ->
  has_ty (sum_type (t_dt r)) v -> k = SumBack \/ k = MeanBack ->
  (t_rg r = true -> num v = let s := sum_over (shape r) (fun idx => num (contents h r idx)) in
    match k with MeanBack => (s / qc_of_Z (size_prod (shape r)))%Qc | _ => s end) ->
  GI (fun y => D y \/ y = length (h_ten h)) T h'.
Proof.
  intros Da [Ha Hv] Hty Hk Hnum. apply (GI_alloc D T h (sum_type (t_dt r)) [] (fun _ => v)); [done|apply allocable_nil|done| |by intros ->].
  change (alloc_heap _ _ _ _ _ _) with h'.
  unfold red_fn. destruct (t_rg r) eqn:Erg; [|done].
  assert (extends h h') as Hext by apply alloc_extends.
  split; [done|]. split; [done|]. cbn [gf_kind gf_in]. split; [by destruct Hk as [->| ->]|]. split; [by destruct Hk as [->| ->]|].
  split. { intros y Hy. apply elem_of_list_singleton in Hy as ->. done. }
  assert (shape_of h' (length (h_ten h)) = []) as Sx by (unfold h', scal; rewrite (shape_rec _ _ _ (alloc_ten _ _ _ _ _ _)); done).
  assert (shape_of h' a = shape r) as Sa by (by rewrite (old_shape D T h h' G Hext a Da), (shape_rec h a r Ha)).
  assert (value h' (length (h_ten h)) [] = num v) as V.
  { apply (alloc_value h (sum_type (t_dt r)) [] (fun _ => v)); [apply allocable_nil|done|constructor]. }
  assert (sum_over (shape r) (value h' a) = sum_over (shape r) (fun idx => num (contents h r idx))) as E.
  { unfold sum_over. apply sumq_ext. intros idx _. by rewrite (old_value D T h h' G Hext a _ Da), (value_rec h a r _ Ha). }
  split; [|split; [|by destruct Hk as [->| ->]]].
  - unfold node_ok. rewrite Sx. destruct Hk as [->| ->]; done.
  - unfold computes. rewrite Sa, V, E, Hnum by done. destruct Hk as [->| ->]; done.
Qed.
Lemma keeps_sum a r : at_hand h H a r -> keeps_GI D T h (OSum (Some a)).
Proof.
  intros Hh. pose proof (hand_at a r Hh) as (Da & [Ha Hv] & Hf & _). pose proof (allocable_lt63 _ _ (holds_allocable _ _ _ _ Hv Hf)) as Hlt.
  pose proof (sum_ok h a r _ Ha Hv Hlt) as E. fold (shape r) in E. destruct (array_sum (t_dt r) (shape r) (contents h r)) as [v|] eqn:Es.
  - destruct E as [E Hty]. eapply keeps_add; [cbn [exec]; rewrite un_some, new_handle_eq, E; done|]. apply red_GI; try done; [by left|].
    intros Hr. cbv zeta. eapply sum_num; [|exact Es]. by eapply hand_float.
  - apply keeps_ub. destruct E as (u & c & E & _). cbn [exec]. rewrite un_some, new_handle_eq, E. by eexists _, _.
Qed.
Lemma keeps_mean a r : at_hand h H a r -> keeps_GI D T h (OMean (Some a)).
Proof.
  intros Hh. pose proof (hand_at a r Hh) as (Da & [Ha Hv] & Hf & _). pose proof (allocable_lt63 _ _ (holds_allocable _ _ _ _ Hv Hf)) as Hlt.
  pose proof (mean_ok h a r _ Ha Hv Hlt) as E. fold (shape r) in E. destruct (array_mean (t_dt r) (shape r) (contents h r)) as [v|] eqn:Es.
  - destruct E as [E Hty]. eapply keeps_add; [cbn [exec]; rewrite un_some, new_handle_eq, E; done|]. apply red_GI; try done; [by right|].
    intros Hr. cbv zeta. eapply mean_num; [|exact Es]. by eapply hand_float.
  - apply keeps_ub. destruct E as (u & c & E & _). cbn [exec]. rewrite un_some, new_handle_eq, E. by eexists _, _.
Qed.
End ops.
