(** Final forms: iteration, creation, binary operators, through the public API. *)
From Verif.Proofs Require Export Check.
From Verif.Spec Require Export Calls.
From Verif.Model Require Export Api.

Section with_fops.
Context {fo : FOps}.

Lemma new_handle_eq m h :
  new_handle m h = match m h with
                   | (Ok t, h') => (Ok (RHandle (Some t)), h') | (Throw e, h') => (Throw e, h')
                   | (UB u, h') => (UB u, h') | (Diverge, h') => (Diverge, h') end.
Proof. done. Qed.

Lemma un_some a f h : un (Some a) f h = new_handle (f a) h.
Proof. done. Qed.
Lemma bin_some a b f h : bin (Some a) (Some b) f h = new_handle (f a b) h.
Proof. done. Qed.

Lemma holds_ty h r v idx : holds h r v -> in_range (sizes (t_lay r)) idx -> has_ty (t_dt r) (v idx).
Proof. intros [_ H] Hi. by apply H. Qed.

(** C02 *)
Lemma new_layout h ss dt :
  Forall (fun n => 0 <= n < two64) ss -> fits dt ss ->
  exists t r cs h', exec (ONew ss dt) h = (Ok (RHandle (Some t)), h') /\ extends h h' /\
    h_ten h !! t = None /\ h_ten h' !! t = Some r /\ h_sto h !! t_sto r = None /\
    t_dt r = dt /\ shape r = ss /\ backed h' r cs /\
    Z.of_nat (length cs) = size_prod ss /\
    row_major_lay (t_lay r) /\ lay_inj (t_lay r) /\
    forall p, 0 <= p < Z.of_nat (length cs) -> exists idx, in_range ss idx /\ pos (t_lay r) idx = p.
Proof.
  intros Hss Hf. assert (allocable dt ss) as Ha by done.
  pose proof (allocable_prod _ _ Ha). pose proof (allocable_lt63 _ _ Ha) as H63.
  pose proof (allocable_nonneg _ _ Ha) as Hn.
  cbn [exec]. rewrite new_handle_eq, create_ok by done.
  eexists _, _, _, _. split; [done|]. split; [apply alloc_extends|].
  split; [by apply lookup_ge_None_2|]. split; [apply alloc_ten|].
  split; [by apply lookup_ge_None_2|]. split; [done|]. split; [done|].
  split; [apply alloc_backed; [done|]; by rewrite replicate_length|].
  rewrite replicate_length. cbn [sizes contig]. split; [lia|].
  split; [intros idx Hi; by apply pos_contig|]. split; [by apply contig_lay_inj|].
  intros p Hp. destruct (lookup_lt_is_Some_2 (indices ss) (Z.to_nat p)) as [idx Hidx].
  { pose proof (length_indices ss Hn). lia. }
  destruct (indices_lookup_inv ss _ idx Hn Hidx) as [Hr Hrm]. exists idx. split; [done|].
  simpl. rewrite pos_contig by done. lia.
Qed.

(** C03 *)
Lemma from_blob_new h ss dt data d :
  Forall (fun n => 0 <= n < two64) ss -> fits dt ss ->
  size_prod ss <= Z.of_nat (length data) -> Forall (has_ty dt) data ->
  exists t h', exec (OFromBlob data ss dt) h = (Ok (RHandle (Some t)), h') /\
    new_tensor h h' t dt ss false (fun idx => nth (Z.to_nat (row_major ss idx)) data d).
Proof.
  intros Hss Hf Hl Hd. assert (allocable dt ss) as Ha by done.
  cbn [exec]. rewrite new_handle_eq, (from_blob_ok h ss dt data d) by done.
  eexists _, _. split; [done|]. apply alloc_new_tensor; [done|].
  intros idx Hi. pose proof (row_major_bounds ss idx Hi).
  destruct (lookup_lt_is_Some_2 data (Z.to_nat (row_major ss idx))) as [x Hx]; [lia|].
  rewrite (nth_lookup_Some _ _ _ _ Hx). rewrite Forall_lookup in Hd. by eapply Hd.
Qed.

(** C04 *)
Definition zero_of (dt : dtype) : val := if floating dt then VF f_zero else VI 0.
Definition one_of (dt : dtype) : val := if floating dt then VF (f_of_Z (fmt dt) 1) else VI 1.
Lemma zero_of_val dt : zero_val dt = zero_of dt.
Proof. by destruct dt. Qed.
Lemma zero_of_ty dt : has_ty dt (zero_of dt).
Proof. by destruct dt. Qed.
Lemma one_of_ty dt : has_ty dt (one_of dt).
Proof. by destruct dt. Qed.

Lemma zeros_new h ss dt :
  Forall (fun n => 0 <= n < two64) ss -> fits dt ss ->
  exists t h', exec (OZeros ss dt) h = (Ok (RHandle (Some t)), h') /\
    new_tensor h h' t dt ss false (fun _ => zero_of dt).
Proof.
  intros Hss Hf. assert (allocable dt ss) as Ha by done.
  cbn [exec]. rewrite new_handle_eq, zeros_ok, zero_of_val by done.
  eexists _, _. split; [done|]. apply alloc_new_tensor; [done|]. intros; apply zero_of_ty.
Qed.
Lemma scalar_extends h dt v : extends h (scalar_heap h dt v).
Proof. apply alloc_extends. Qed.
Lemma fill_new_tensor h ss dt nt v w :
  allocable dt ss -> cpp_cvt nt dt v = Some w ->
  exists t h', new_handle (let! tmp := create_scalar nt v in fill_new ss dt tmp nt) h =
      (Ok (RHandle (Some t)), h') /\ new_tensor h h' t dt ss false (fun _ => w).
Proof.
  intros Ha Hw. rewrite new_handle_eq, fill_scalar_ok, Hw by done.
  eexists _, _. split; [done|]. eapply new_tensor_trans; [apply scalar_extends|].
  replace (Datatypes.S (length (h_ten h))) with (length (h_ten (scalar_heap h nt v))).
  2:{ unfold scalar_heap. simpl. rewrite app_length. simpl. lia. }
  apply alloc_new_tensor; [done|]. intros. by eapply cpp_cvt_ty.
Qed.
Lemma ones_new h ss dt :
  Forall (fun n => 0 <= n < two64) ss -> fits dt ss ->
  exists t h', exec (OOnes ss dt) h = (Ok (RHandle (Some t)), h') /\
    new_tensor h h' t dt ss false (fun _ => one_of dt).
Proof. intros Hss Hf. apply (fill_new_tensor h ss dt I8 (VI 1)); [done|]. apply cpp_cvt_one. Qed.
Lemma full_int_new h ss dt n :
  Forall (fun n => 0 <= n < two64) ss -> fits dt ss ->
  exists t h', exec (OFullInt ss n dt) h = (Ok (RHandle (Some t)), h') /\
    new_tensor h h' t dt ss false
      (fun _ => if floating dt then VF (f_of_Z (fmt dt) n) else VI (reduce (width dt) n)).
Proof.
  intros Hss Hf. apply (fill_new_tensor h ss dt I64 (VI n)); [done|]. unfold cpp_cvt.
  by destruct (floating dt).
Qed.
Lemma full_double_new h ss dt x :
  Forall (fun n => 0 <= n < two64) ss -> fits dt ss ->
  (forall w, cpp_cvt F64 dt (VF x) = Some w ->
   exists t h', exec (OFullDouble ss x dt) h = (Ok (RHandle (Some t)), h') /\
     new_tensor h h' t dt ss false (fun _ => w)) /\
  (cpp_cvt F64 dt (VF x) = None -> exists h', exec (OFullDouble ss x dt) h = (UB FloatRange, h')).
Proof.
  intros Hss Hf. split.
  - intros w Hw. by apply (fill_new_tensor h ss dt F64 (VF x)).
  - intros Hn. cbn [exec]. unfold full_double. rewrite new_handle_eq, fill_scalar_ok, Hn by done.
    by eexists.
Qed.
Lemma eye_new h n m dt :
  0 <= n < two64 -> 0 <= m < two64 -> fits dt [n; m] ->
  exists t h', exec (OEye n m dt) h = (Ok (RHandle (Some t)), h') /\
    new_tensor h h' t dt [n; m] false
      (fun idx => match idx with [i; j] => if i =? j then one_of dt else zero_of dt
                               | _ => zero_of dt end).
Proof.
  intros Hn Hm Hf. assert (allocable dt [n; m]) as Ha by (split; [do 2 (apply Forall_cons_2; [done|]); apply Forall_nil_2|done]).
  cbn [exec]. rewrite new_handle_eq, eye_ok by done.
  eexists _, _. split; [done|]. eapply new_tensor_ext; [|apply alloc_new_tensor; [done|]].
  - intros idx _. unfold eye_val. rewrite zero_of_val. done.
  - intros idx Hi. unfold eye_val. rewrite zero_of_val.
    destruct idx as [|i [|j [|]]]; try apply zero_of_ty.
    destruct (i =? j); [apply one_of_ty|apply zero_of_ty].
Qed.
Lemma zeros_like_eq h t r :
  h_ten h !! t = Some r -> exec (OZerosLike (Some t)) h = exec (OZeros (shape r) (t_dt r)) h.
Proof.
  intros Ht. cbn [exec]. rewrite un_some, !new_handle_eq. unfold zeros_like.
  by erewrite bind_ok by (by apply get_ten_ok).
Qed.
Lemma ones_like_eq h t r :
  h_ten h !! t = Some r -> exec (OOnesLike (Some t)) h = exec (OOnes (shape r) (t_dt r)) h.
Proof.
  intros Ht. cbn [exec]. rewrite un_some, !new_handle_eq. unfold ones_like.
  by erewrite bind_ok by (by apply get_ten_ok).
Qed.
Lemma like_new h t r v :
  tensor_at h t r v -> fits (t_dt r) (shape r) ->
  (exists u h', exec (OZerosLike (Some t)) h = (Ok (RHandle (Some u)), h') /\
     new_tensor h h' u (t_dt r) (shape r) false (fun _ => zero_of (t_dt r))) /\
  (exists u h', exec (OOnesLike (Some t)) h = (Ok (RHandle (Some u)), h') /\
     new_tensor h h' u (t_dt r) (shape r) false (fun _ => one_of (t_dt r))).
Proof.
  intros [Ht Hh] Hf. rewrite (zeros_like_eq h t r Ht), (ones_like_eq h t r Ht).
  apply holds_shape in Hh. split; [by apply zeros_new|by apply ones_new].
Qed.

(** C05-C14 *)
Lemma exec_arith_eq o a b h :
  exec (exec_arith o (Some a) (Some b)) h = new_handle (op_arith o a b) h.
Proof. by destruct o. Qed.

Definition arith_statement (o : aop) (h : heap) (a b : nat) : Prop :=
  forall ra rb va vb, tensor_at h a ra va -> tensor_at h b rb vb ->
  let ss := bshape (shape ra) (shape rb) in
  let D := dt_join (t_dt ra) (t_dt rb) in
  let e idx := cpp_arith o (t_dt ra) (t_dt rb) D (va (bidx (shape ra) idx)) (vb (bidx (shape rb) idx)) in
  compatible (shape ra) (shape rb) -> no_zero_one (shape ra) (shape rb) -> fits D ss ->
  (forall w, (forall idx, in_range ss idx -> e idx = Some (w idx)) ->
     exists t h', exec (exec_arith o (Some a) (Some b)) h = (Ok (RHandle (Some t)), h') /\
       new_tensor h h' t D ss (t_rg ra || t_rg rb) w) /\
  ((exists idx, in_range ss idx /\ e idx = None) ->
     exists u h', exec (exec_arith o (Some a) (Some b)) h = (UB u, h') /\ arith_ub u).

Lemma arith_new o h a b : (order_of o = false -> f_commutative fo) -> arith_statement o h a b.
Proof.
  intros Hcomm ra rb va vb [Ha Hva] [Hb Hvb] ss D e Hc Hz Hf.
  destruct (op_arith_spec o h a b ra rb va vb Ha Hb Hva Hvb Hc Hz Hf Hcomm) as [Hok Hub].
  rewrite exec_arith_eq, new_handle_eq. split.
  - intros w Hw. rewrite (Hok w Hw). eexists _, _. split; [done|]. apply alloc_new_tensor.
    + split; [|done]. apply bshape_Forall; by eapply holds_shape.
    + intros idx Hi. specialize (Hw idx Hi). unfold e in Hw.
      pose proof (binop_cpp o (t_dt ra) (t_dt rb) D (va (bidx (shape ra) idx)) (vb (bidx (shape rb) idx))) as Hx.
      rewrite Hw in Hx. apply Hx.
      * eapply holds_ty; [done|]. by eapply bidx_in_l.
      * eapply holds_ty; [done|]. by eapply bidx_in_r.
      * apply dt_join_floating.
  - intros Hn. destruct (Hub Hn) as (u & cs & -> & Hu). by eexists _, _.
Qed.

Lemma sub_new h a b : arith_statement ASub h a b.
Proof. by apply arith_new. Qed.
Lemma div_new h a b : arith_statement ADiv h a b.
Proof. by apply arith_new. Qed.
Lemma add_new h a b : f_commutative fo -> arith_statement AAdd h a b.
Proof. intros. by apply arith_new. Qed.
Lemma mul_new h a b : f_commutative fo -> arith_statement AMul h a b.
Proof. intros. by apply arith_new. Qed.

Lemma cmp_new c h a b ra rb va vb :
  tensor_at h a ra va -> tensor_at h b rb vb ->
  let ss := bshape (shape ra) (shape rb) in
  compatible (shape ra) (shape rb) -> no_zero_one (shape ra) (shape rb) -> fits I8 ss ->
  exists t h', exec (OCmp c (Some a) (Some b)) h = (Ok (RHandle (Some t)), h') /\
    new_tensor h h' t I8 ss false
      (fun idx => VI (if cpp_cmp c (t_dt ra) (t_dt rb) (va (bidx (shape ra) idx)) (vb (bidx (shape rb) idx))
                      then 1 else 0)).
Proof.
  intros [Ha Hva] [Hb Hvb] ss Hc Hz Hf. cbn [exec]. rewrite bin_some, new_handle_eq.
  rewrite (op_cmp_spec c h a b ra rb va vb) by done. eexists _, _. split; [done|].
  apply alloc_new_tensor.
  - split; [|done]. apply bshape_Forall; by eapply holds_shape.
  - intros idx _. cbv beta. match goal with |- context [if ?b then _ else _] => by destruct b end.
Qed.
End with_fops.
