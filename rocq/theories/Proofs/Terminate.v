(** No call runs for ever: the only loops that could are those over a shape, which end
    because sizes are not negative, and the traversals of backward. *)
From Verif.Proofs Require Export Inv3 Chain.
From Verif.Model Require Export Api.

(** ** pure functions *)
Lemma od_bind {A B} (o : outcome A) (k : A -> outcome B) :
  o <> Diverge -> (forall a, k a <> Diverge) -> obind o k <> Diverge.
Proof. destruct o; simpl; auto; done. Qed.
Lemma od_expect b : orun_expect b <> Diverge.
Proof. by destruct b. Qed.
Lemma od_schk z : schk z <> Diverge.
Proof. unfold schk. by case_match. Qed.
Ltac od_tac := repeat lazymatch goal with
  | |- obind _ _ <> Diverge => apply od_bind; [|intros ?]
  | |- orun_expect _ <> Diverge => apply od_expect
  | |- schk _ <> Diverge => apply od_schk
  | |- Ok _ <> Diverge => discriminate
  | |- UB _ <> Diverge => discriminate
  | |- Throw _ <> Diverge => discriminate
  | |- (match ?x with _ => _ end) <> Diverge => destruct x
  | |- (let _ := _ in _) <> Diverge => cbv zeta
  end.

Section pure.
Context {fo : FOps}.
Lemma od_cvt a b v : cvt a b v <> Diverge.
Proof. unfold cvt. od_tac. Qed.
Lemma od_arith o p a b : arith o p a b <> Diverge.
Proof. unfold arith, int_chk. od_tac. Qed.
Lemma od_binop o a b x y : binop o a b x y <> Diverge.
Proof. unfold binop. od_tac; auto using od_cvt, od_arith. Qed.
Lemma od_cmpop o a b x y : cmpop o a b x y <> Diverge.
Proof. unfold cmpop, compare_vals. od_tac; auto using od_cvt. Qed.
Lemma od_negop a x : negop a x <> Diverge.
Proof. unfold negop, int_chk. od_tac. Qed.
Lemma od_cnt_loop idx : forall st p, cnt_loop p st idx <> Diverge.
Proof. induction idx as [|i idx IH]; intros [|s st] p; simpl; try done. Qed.
Lemma od_cnt l idx : cnt_from_index l idx <> Diverge.
Proof. unfold cnt_from_index. od_tac. apply od_cnt_loop. Qed.
Lemma od_aug_rev rs : forall ri, aug_rev rs ri <> Diverge.
Proof. induction rs as [|s rs IH]; intros ri; simpl; [done|]. od_tac; apply IH. Qed.
Lemma od_cnt_aug l idx : cnt_from_aug_index l idx <> Diverge.
Proof. unfold cnt_from_aug_index. od_tac; [apply od_aug_rev|apply od_cnt]. Qed.
Lemma od_brange u : forall v, brange_rev u v <> Diverge.
Proof. induction u as [|s u IH]; intros [|t v]; simpl; try done. od_tac. apply IH. Qed.
Lemma od_broadcast u v : broadcast_range u v <> Diverge.
Proof. unfold broadcast_range. destruct (if Nat.ltb _ _ then _ else _). od_tac. apply od_brange. Qed.
Lemma od_new_blob t b : new_blob t b <> Diverge.
Proof. unfold new_blob. od_tac. Qed.
Lemma od_stoll s : stoll s <> Diverge.
Proof. unfold stoll. cbv zeta. destruct (match drop_ws s with [] => _ | _ => _ end). od_tac. Qed.
Lemma od_slice_dim n st parts : slice_dim n st parts <> Diverge.
Proof. unfold slice_dim. od_tac; auto using od_stoll. Qed.
Lemma od_slice_dims ss : forall sts each off, slice_dims ss sts each off <> Diverge.
Proof.
  induction ss as [|n ss IH]; intros [|st sts] each off; cbn [slice_dims]; try done.
  destruct (match each with [] => _ | _ => _ end). od_tac; [apply od_slice_dim|apply IH].
Qed.
Lemma od_slice_layout l s : slice_layout l s <> Diverge.
Proof. unfold slice_layout. od_tac. apply od_slice_dims. Qed.
Lemma od_regularize ss n : regularize_size ss n <> Diverge.
Proof. unfold regularize_size. od_tac. Qed.
Lemma od_isometry ss : forall sts, isometry ss sts <> Diverge.
Proof.
  induction ss as [|s ss IH]; intros [|st sts]; simpl; try done. od_tac. apply IH.
Qed.
Lemma od_is_same a b : is_same_spec a b <> Diverge.
Proof. unfold is_same_spec. od_tac. Qed.
Lemma od_all_same f l : all_same f l <> Diverge.
Proof. induction l as [|x l IH]; simpl; [done|]. od_tac; [apply od_is_same|apply IH]. Qed.
Lemma od_node_spec l : node_spec l <> Diverge.
Proof. unfold node_spec. od_tac. apply od_all_same. Qed.
Fixpoint od_tinit (t : tinit) : tinit_spec t <> Diverge.
Proof.
  destruct t as [dt xs|ts]; cbn [tinit_spec]; [done|]. apply od_bind; [|apply od_node_spec].
  induction ts as [|t ts IH]; [done|]. apply od_bind; [apply od_tinit|]. intros s. by apply od_bind.
Qed.

(** ** shapes stay nonnegative *)
Notation nonneg := (Forall (fun n => 0 <= n)).
Lemma brange_nonneg u : forall v l, nonneg u -> nonneg v -> brange_rev u v = Ok l -> nonneg l.
Proof.
  induction u as [|s u IH]; intros [|t v] l Hu Hv H; simpl in H; try (injection H as <-; done).
  apply obind_ok_inv in H as (_ & _ & H). apply obind_ok_inv in H as (x & Hx & [= <-]).
  apply Forall_cons in Hu as [? ?]. apply Forall_cons in Hv as [? ?]. constructor; [lia|]. by eapply IH.
Qed.
Lemma broadcast_nonneg u v l : nonneg u -> nonneg v -> broadcast_range u v = Ok l -> nonneg l.
Proof.
  intros Hu Hv H. unfold broadcast_range in H.
  destruct (Nat.ltb _ _); apply obind_ok_inv in H as (x & Hx & [= <-]);
    apply Forall_rev; (eapply brange_nonneg; [| |exact Hx]); by apply Forall_rev.
Qed.
Definition okp {A} (o : outcome A) (P : A -> Prop) : Prop := match o with Ok a => P a | _ => True end.
Lemma okp_bind {A B} (o : outcome A) (k : A -> outcome B) P : (forall a, okp (k a) P) -> okp (obind o k) P.
Proof. intros H. destruct o; simpl; auto; apply H. Qed.
Lemma quot_ge a b : -1 <= a -> 0 <= b -> -1 <= Z.quot a b.
Proof.
  intros Ha Hb. destruct (decide (b = 0)) as [->|]. { by destruct a. }
  destruct (decide (a = -1)) as [->|].
  - rewrite <- (Z.opp_involutive (Z.quot _ _)), <- Z.quot_opp_l by done. change (- -1) with 1.
    destruct (decide (b = 1)) as [->|]; [done|]. rewrite Z.quot_small by lia. lia.
  - pose proof (Z.quot_pos a b). lia.
Qed.
Lemma slice_dim_nonneg n st parts :
  okp (slice_dim n st parts) (fun x => match x.1 with Some (k, _) => 0 <= k | None => True end).
Proof.
  unfold slice_dim. repeat lazymatch goal with
  | |- okp (obind _ _) _ => apply okp_bind; intros ?
  | |- okp (Ok (None, _)) _ => exact I
  | |- okp (Ok (Some (0, _), _)) _ => simpl; lia
  | |- okp (match ?x with _ => _ end) _ => destruct x
  | |- okp (let _ := _ in _) _ => cbv zeta
  end; simpl; match goal with |- context [Z.quot ?a ?b] => pose proof (quot_ge a b) end; lia.
Qed.
Lemma slice_dims_nonneg ss : forall sts each off y, slice_dims ss sts each off = Ok y -> nonneg y.1.1.
Proof.
  induction ss as [|n ss IH]; intros sts each off y H; [injection H as <-; constructor|].
  destruct sts as [|st sts]; [done|]. cbn [slice_dims] in H.
  destruct (match each with [] => _ | _ => _ end) as [parts each'].
  apply obind_ok_inv in H as (x & Hx & H). apply obind_ok_inv in H as (z & Hz & [= <-]).
  pose proof (slice_dim_nonneg n st parts) as Hd. rewrite Hx in Hd. simpl in Hd.
  destruct x.1 as [[k s]|]; simpl; [constructor; [done|]|]; by eapply IH.
Qed.
Lemma slice_layout_nonneg l s l' : slice_layout l s = Ok l' -> nonneg (sizes l').
Proof.
  intros H. unfold slice_layout in H. apply obind_ok_inv in H as (_ & _ & H).
  apply obind_ok_inv in H as (y & Hy & [= <-]). simpl. by eapply slice_dims_nonneg.
Qed.
Lemma u64_nonneg z : 0 <= u64 z.
Proof. apply Z.mod_pos_bound. done. Qed.
Lemma in_map_iff' {A B} (f : A -> B) l y : In y (map f l) -> exists x, y = f x /\ In x l.
Proof. intros (x & <- & H)%in_map_iff. by exists x. Qed.
Lemma ok_inj {A} (a b : A) : Ok a = Ok b -> a = b. Proof. congruence. Qed.
Lemma regularize_nonneg ss n l : regularize_size ss n = Ok l -> nonneg l.
Proof.
  unfold regularize_size. destruct ss as [|z ss]. { intros (_ & _ & [= <-])%obind_ok_inv. constructor. }
  intros (_ & _ & H)%obind_ok_inv. destruct (Nat.eqb _ _).
  - destruct (_ =? 0); [done|]. apply obind_ok_inv in H as (_ & _ & H). apply ok_inj in H as <-.
    rewrite Forall_forall. intros x [y [-> _]]%elem_of_list_In%in_map_iff'. case_match; apply u64_nonneg.
  - apply ok_inj in H as <-. rewrite Forall_forall. intros x [y [-> _]]%elem_of_list_In%in_map_iff'. apply u64_nonneg.
Qed.
Lemma nth_nonneg i l : nonneg l -> 0 <= nth i l 0.
Proof.
  intros H. revert i. induction H as [|x l Hx H IH]; intros [|i]; simpl; try lia; auto.
Qed.
Lemma insert_nonneg i z l : 0 <= z -> nonneg l -> nonneg (<[i := z]> l).
Proof. intros Hz Hl. by apply Forall_insert. Qed.
Lemma swap_nonneg i j l : nonneg l -> nonneg (swap_at i j l).
Proof. intros H. unfold swap_at. repeat apply insert_nonneg; auto using nth_nonneg. Qed.
Fixpoint tinit_nonneg (t : tinit) : forall s, tinit_spec t = Ok s -> nonneg (sp_shape s).
Proof.
  destruct t as [dt xs|ts]; cbn [tinit_spec]; intros s H.
  { injection H as <-. simpl. constructor; [lia|constructor]. }
  apply obind_ok_inv in H as (subs & Hs & H).
  assert (Forall (fun s => nonneg (sp_shape s)) subs) as Hf.
  { clear H. revert subs Hs. induction ts as [|t ts IH]; intros subs Hs; [by injection Hs as <-|].
    apply obind_ok_inv in Hs as (a & Ha & Hs). apply obind_ok_inv in Hs as (b & Hb & [= <-]).
    constructor; [by eapply tinit_nonneg|by apply IH]. }
  unfold node_spec in H. destruct subs as [|f subs]. { injection H as <-. constructor. }
  apply obind_ok_inv in H as ([|] & _ & H); [|done]. injection H as <-. cbn [sp_shape].
  apply Forall_cons in Hf as [Hf _]. constructor; [lia|done].
Qed.
End pure.

Notation nonneg := (Forall (fun n => 0 <= n)).
(** ** kernels *)
Section nv.
Context {fo : FOps}.
Definition nv {S A} (m : M S A) : Prop := forall s, (m s).1 <> Diverge.
Section gen.
Context {S : Type}.
Lemma nv_bind {A B} (m : M S A) (k : A -> M S B) : nv m -> (forall a, nv (k a)) -> nv (bind m k).
Proof. intros Hm Hk s. unfold bind. specialize (Hm s). destruct (m s) as [[a|?|?|] s']; simpl in *; try done. apply Hk. Qed.
Lemma nv_ret {A} (a : A) : nv (S := S) (mret a). Proof. done. Qed.
Lemma nv_ub {A} u : nv (@mub S A u). Proof. done. Qed.
Lemma nv_throw {A} u : nv (@mthrow S A u). Proof. done. Qed.
Lemma nv_lift {A} (o : outcome A) : o <> Diverge -> nv (S := S) (lift o). Proof. by intros H s. Qed.
Lemma nv_expect b : nv (S := S) (run_expect b). Proof. by destruct b. Qed.
Lemma nv_mapM {A} (f : A -> M S unit) l : (forall x, nv (f x)) -> nv (mapM_ f l).
Proof. intros Hf. induction l as [|x l IH]; [done|]. cbn [mapM_]. apply nv_bind; auto. Qed.
Lemma nv_for_each range (op : list Z -> M S unit) : nonneg range -> (forall sv, nv (op sv)) -> nv (for_each_sizevec range op).
Proof. intros Hr Hop s. rewrite for_each_run by done. by apply nv_mapM. Qed.
Lemma nv_run_idx {R} (op : list Z -> M S (option R)) l : (forall x, nv (op x)) -> nv (run_idx op l).
Proof. intros Hf. induction l as [|x l IH]; [done|]. cbn [run_idx]. apply nv_bind; [done|]. by intros [?|]. Qed.
Lemma nv_odometer {R} range (op : list Z -> M S (option R)) : nonneg range -> existsb (Z.eqb 0) range = false -> range <> [] ->
  (forall sv, nv (op sv)) -> nv (odometer range op).
Proof. intros Hr H0 Hne Hop s. rewrite odometer_run; [by apply nv_run_idx|done|by apply existsb_zero_false]. Qed.
End gen.
Lemma nv_get_ten t : nv (get_ten t). Proof. intros h. unfold get_ten. by case_match. Qed.
Lemma nv_get_sto t : nv (get_sto t). Proof. intros h. unfold get_sto. by case_match. Qed.
Lemma nv_set_sto s x : nv (set_sto s x). Proof. done. Qed.
End nv.
Ltac nv_step :=
  lazymatch goal with
  | |- nv (bind _ _) => apply nv_bind; [|intros ?]
  | |- nv (mret _) => apply nv_ret
  | |- nv (mub _) => apply nv_ub
  | |- nv (mthrow _) => apply nv_throw
  | |- nv (lift (cvt _ _ _)) => apply nv_lift, od_cvt
  | |- nv (lift (binop _ _ _ _ _)) => apply nv_lift, od_binop
  | |- nv (lift (cmpop _ _ _ _ _)) => apply nv_lift, od_cmpop
  | |- nv (lift (negop _ _)) => apply nv_lift, od_negop
  | |- nv (lift (new_blob _ _)) => apply nv_lift, od_new_blob
  | |- nv (run_expect _) => apply nv_expect
  | |- nv (get_ten _) => apply nv_get_ten
  | |- nv (get_sto _) => apply nv_get_sto
  | |- nv (set_sto _ _) => apply nv_set_sto
  | |- nv (idx_aug _ _) => apply nv_lift, od_cnt_aug
  | |- nv (idx_exact _ _) => apply nv_lift, od_cnt
  | |- nv (mapM_ _ _) => apply nv_mapM; intros ?
  | |- nv (for_each_sizevec _ _) => apply nv_for_each; [|intros ?]
  | |- nv (plain _ _) => unfold plain
  | |- nv (match ?x with _ => _ end) => destruct x
  | |- nv (let _ := _ in _) => cbv zeta
  | |- nv (load _ _ _) => unfold load
  | |- nv (store _ _ _ _) => unfold store
  | |- nv (store_cvt _ _ _ _ _) => unfold store_cvt
  | |- nv (load_aug _ _ _) => unfold load_aug
  | |- nv (load_exact _ _ _) => unfold load_exact
  end.
Ltac nv_tac := repeat nv_step.
Section nv2.
Context {fo : FOps}.
Notation nn r := (nonneg (shape r)).
Lemma nv_brange (l r : list Z) {B} (k : list Z -> E B) : nonneg l -> nonneg r ->
  (forall x, nonneg x -> nv (k x)) -> nv (bind (lift (broadcast_range l r)) k).
Proof.
  intros Hl Hr Hk h. unfold bind, lift. pose proof (od_broadcast l r). pose proof (broadcast_nonneg l r).
  destruct (broadcast_range l r); simpl; try done. apply Hk. eauto.
Qed.
Lemma nv_tensor_add L R d l r : nn l -> nn r -> nv (tensor_add L R d l r).
Proof. intros. unfold tensor_add, binary_body. apply nv_brange; [done..|]. intros. by nv_tac. Qed.
Lemma nv_tensor_sub L R d l r : nn l -> nn r -> nv (tensor_sub L R d l r).
Proof. intros. unfold tensor_sub, binary_body. apply nv_brange; [done..|]. intros. by nv_tac. Qed.
Lemma nv_tensor_mul L R d l r : nn d -> nv (tensor_mul L R d l r).
Proof. intros. unfold tensor_mul, binary_body. by nv_tac. Qed.
Lemma nv_tensor_div L R d l r : nn d -> nv (tensor_div L R d l r).
Proof. intros. unfold tensor_div, binary_body. by nv_tac. Qed.
Lemma nv_tensor_cmp c L R d l r : nn d -> nv (tensor_cmp c L R d l r).
Proof. intros. unfold tensor_cmp. by nv_tac. Qed.
Lemma nv_tensor_fill T N d n : nn d -> nv (tensor_fill T N d n).
Proof. intros H. unfold tensor_fill, shape in *. destruct (sizes (t_lay d)); nv_tac; done. Qed.
Lemma nv_tensor_eye T d : nv (tensor_eye T d).
Proof. unfold tensor_eye. nv_tac. Qed.
Lemma nv_to_type T U d s : nn d -> nv (tensor_to_type T U d s).
Proof. intros. unfold tensor_to_type, copy_body. by nv_tac. Qed.
Lemma nv_clone T U d s : nn d -> nv (tensor_clone T U d s).
Proof. intros. unfold tensor_clone, copy_body. by nv_tac. Qed.
Lemma numel_zero ss : forall z, 0 ∈ ss -> fold_left (fun n s => u64 (n * s)) ss z = 0.
Proof.
  assert (forall ss, fold_left (fun n s => u64 (n * s)) ss 0 = 0) as H0 by (induction ss0; done).
  induction ss as [|s ss IH]; intros z H; [by apply elem_of_nil in H|]. simpl.
  apply elem_of_cons in H as [<-|H]; [|by apply IH]. by rewrite Z.mul_0_r.
Qed.
Lemma numel_nozero ss : numel_of ss <> 0 -> existsb (Z.eqb 0) ss = false.
Proof.
  intros H. destruct (existsb (Z.eqb 0) ss) eqn:E; [|done]. apply existsb_zero_true in E.
  by destruct H; apply numel_zero.
Qed.
Lemma nv_sum T U d s : nn s -> nv (tensor_sum T U d s).
Proof.
  intros H. unfold tensor_sum, lnumel. destruct (Z.eqb_spec (numel_of (sizes (t_lay s))) 0) as [|Hn]; [done|].
  apply numel_nozero in Hn. unfold shape in H. destruct (sizes (t_lay s)) as [|n ss]; [by nv_tac|].
  apply nv_bind; [|done]. apply nv_odometer; [done..|]. intros. unfold plain, sum_body. nv_tac.
Qed.
Lemma nv_mean T U d s : nn s -> nv (tensor_mean T U d s).
Proof.
  intros H. unfold tensor_mean, lnumel. destruct (Z.eqb_spec (numel_of (sizes (t_lay s))) 0) as [|Hn]; [done|].
  apply numel_nozero in Hn. unfold shape, mean_div in *.
  apply nv_bind; [apply nv_lift, od_cvt|]. intros n'.
  destruct (sizes (t_lay s)) as [|n ss]; [by nv_tac|].
  apply nv_bind; [|intros; nv_tac]. apply nv_odometer; [done..|]. intros. unfold plain, sum_body. nv_tac.
Qed.
Lemma nv_mul_acc D L R d l r : nn d -> nn l -> nn r -> nv (tensor_mul_acc_f D L R d l r).
Proof.
  intros. unfold tensor_mul_acc_f, mul_acc_body. apply nv_brange; [done..|]. intros.
  apply nv_brange; [done..|]. intros. by nv_tac.
Qed.
Lemma nv_abs T U d s g : nn d -> nv (tensor_abs T U d s g).
Proof. intros. unfold tensor_abs. nv_tac; done. Qed.
Lemma nv_on_heap {X A} (m : E A) : nv m -> nv (on_heap (X := X) m).
Proof. intros Hm [h x]. unfold on_heap. specialize (Hm h). by destruct (m h). Qed.
Lemma nv_extremum c T d s g : nn s -> nv (tensor_extremum c T d s g).
Proof.
  intros H. unfold tensor_extremum. nv_tac.
  intros h. assert (nv (for_each_sizevec (sizes (t_lay s)) (extremum_body c T d s))) as Hf.
  { apply nv_for_each; [done|]. intros sv. unfold extremum_body.
    apply nv_bind; [apply nv_on_heap; nv_tac|]. intros x1. apply nv_bind; [apply nv_on_heap; nv_tac|]. intros x2.
    apply nv_bind; [apply nv_lift, od_cmpop|]. intros [|]; [done|].
    apply nv_bind; [apply nv_on_heap; nv_tac|]. intros _. by intros [? ?]. }
  specialize (Hf (h, [])). destruct (for_each_sizevec _ _ _) as [[?|?|?|] [? ?]]; done.
Qed.
Lemma nv_div_num D L R a b c : nn b -> nv (tensor_div_back_numerator D L R a b c).
Proof. intros. unfold tensor_div_back_numerator. by nv_tac. Qed.
Lemma nv_div_den D L a b c d : nn c -> nv (tensor_div_back_denominator D L a b c d).
Proof. intros. unfold tensor_div_back_denominator. by nv_tac. Qed.
Lemma nv_tensor_cat T U d s o : nn s -> nv (tensor_cat T U d s o).
Proof. intros. unfold tensor_cat. by nv_tac. Qed.
End nv2.
