(** The kernels only write buffers: the tensor records are the same after any outcome. *)
From Verif.Proofs Require Export Frame3.

Section with_fops.
Context {fo : FOps}.

Definition st {A} (m : E A) : Prop := forall h, h_ten (m h).2 = h_ten h /\ h_ver (m h).2 = h_ver h.

Lemma st_bind {A B} (m : E A) (k : A -> E B) : st m -> (forall a, st (k a)) -> st (bind m k).
Proof.
  intros Hm Hk h. unfold bind. specialize (Hm h). destruct (m h) as [[a|?|?|] h']; simpl in *; try done.
  destruct (Hk a h') as [-> ->]. done.
Qed.
Lemma st_reads {A} (m : E A) : reads m -> st m.
Proof. intros Hm h. by rewrite (reads_run m h Hm). Qed.
Lemma st_ret {A} (a : A) : st (mret a). Proof. done. Qed.
Lemma st_ub {A} u : st (@mub _ A u). Proof. done. Qed.
Lemma st_throw {A} u : st (@mthrow _ A u). Proof. done. Qed.
Lemma st_lift {A} (o : outcome A) : st (lift o).
Proof. apply st_reads. reads_tac. Qed.
Lemma st_expect b : st (run_expect b).
Proof. apply st_reads. reads_tac. Qed.
Lemma st_get_sto s : st (get_sto s).
Proof. apply st_reads. reads_tac. Qed.
Lemma st_get_ten s : st (get_ten s).
Proof. apply st_reads. reads_tac. Qed.
Lemma st_set_sto s x : st (set_sto s x). Proof. done. Qed.
Lemma st_load T s p : st (load T s p).
Proof. apply st_reads, reads_load. Qed.
Lemma st_store T s p v : st (store T s p v).
Proof. unfold store. apply st_bind; [apply st_get_sto|]. intros r. by repeat case_match. Qed.
Lemma st_store_cvt T D s p v : st (store_cvt T D s p v).
Proof. apply st_bind; [apply st_lift|]. intros. apply st_store. Qed.
Lemma st_idx_aug t sv : st (idx_aug t sv). Proof. apply st_lift. Qed.
Lemma st_idx_exact t sv : st (idx_exact t sv). Proof. apply st_lift. Qed.
Lemma st_load_aug T t sv : st (load_aug T t sv).
Proof. apply st_bind; [apply st_lift|]. intros. apply st_load. Qed.
Lemma st_load_exact T t sv : st (load_exact T t sv).
Proof. apply st_bind; [apply st_lift|]. intros. apply st_load. Qed.
Lemma st_mapM {A} (f : A -> E unit) l : (forall x, st (f x)) -> st (mapM_ f l).
Proof. intros Hf. induction l as [|x l IH]; [done|]. cbn [mapM_]. apply st_bind; auto. Qed.

Lemma wp_snd {S A} (m : M S A) (I : S -> Prop) s :
  wp m (fun _ => I) (fun _ => I) s <-> I (m s).2.
Proof. unfold wp. by destruct (m s) as [[?|?|?|] ?]. Qed.
Lemma st_for_each range op : (forall sv, st (op sv)) -> st (for_each_sizevec range op).
Proof.
  intros Hop h.
  apply (wp_snd _ (fun h' => h_ten h' = h_ten h /\ h_ver h' = h_ver h)).
  apply wp_for_each_any; [done|done|]. intros sv s [H1 H2]. apply wp_snd.
  destruct (Hop sv s) as [-> ->]. done.
Qed.
Lemma st_odometer {R} range (op : list Z -> E (option R)) : (forall sv, st (op sv)) -> st (odometer range op).
Proof.
  intros Hop h.
  apply (wp_snd _ (fun h' => h_ten h' = h_ten h /\ h_ver h' = h_ver h)).
  apply wp_odometer; [done|done|]. intros sv s [H1 H2]. apply wp_snd.
  destruct (Hop sv s) as [-> ->]. done.
Qed.

Ltac st_step :=
  lazymatch goal with
  | |- st (bind _ _) => apply st_bind; [|intros ?]
  | |- st (mret _) => apply st_ret
  | |- st (mub _) => apply st_ub
  | |- st (mthrow _) => apply st_throw
  | |- st (lift _) => apply st_lift
  | |- st (run_expect _) => apply st_expect
  | |- st (get_ten _) => apply st_get_ten
  | |- st (get_sto _) => apply st_get_sto
  | |- st (set_sto _ _) => apply st_set_sto
  | |- st (load _ _ _) => apply st_load
  | |- st (store _ _ _ _) => apply st_store
  | |- st (store_cvt _ _ _ _ _) => apply st_store_cvt
  | |- st (idx_aug _ _) => apply st_idx_aug
  | |- st (idx_exact _ _) => apply st_idx_exact
  | |- st (load_aug _ _ _) => apply st_load_aug
  | |- st (load_exact _ _ _) => apply st_load_exact
  | |- st (mapM_ _ _) => apply st_mapM; intros ?
  | |- st (for_each_sizevec _ _) => apply st_for_each; intros ?
  | |- st (odometer _ _) => apply st_odometer; intros ?
  | |- st (plain _ _) => unfold plain
  | |- st (match ?x with _ => _ end) => destruct x
  | |- st (let _ := _ in _) => cbv zeta
  end.
Ltac st_tac := repeat st_step.

Lemma st_tensor_add L R d l r : st (tensor_add L R d l r).
Proof. unfold tensor_add, binary_body. st_tac. Qed.
Lemma st_tensor_sub L R d l r : st (tensor_sub L R d l r).
Proof. unfold tensor_sub, binary_body. st_tac. Qed.
Lemma st_tensor_mul L R d l r : st (tensor_mul L R d l r).
Proof. unfold tensor_mul, binary_body. st_tac. Qed.
Lemma st_tensor_div L R d l r : st (tensor_div L R d l r).
Proof. unfold tensor_div, binary_body. st_tac. Qed.
Lemma st_tensor_cmp c L R d l r : st (tensor_cmp c L R d l r).
Proof. unfold tensor_cmp. st_tac. Qed.
Lemma st_tensor_fill T N a b : st (tensor_fill T N a b).
Proof. unfold tensor_fill. st_tac. Qed.
Lemma st_tensor_eye T a : st (tensor_eye T a).
Proof. unfold tensor_eye. st_tac. Qed.
Lemma st_tensor_to_type T U a b : st (tensor_to_type T U a b).
Proof. unfold tensor_to_type, copy_body. st_tac. Qed.
Lemma st_tensor_clone T U a b : st (tensor_clone T U a b).
Proof. unfold tensor_clone, copy_body. st_tac. Qed.
Lemma st_tensor_sum T U a b : st (tensor_sum T U a b).
Proof. unfold tensor_sum, sum_body. st_tac. Qed.
Lemma st_tensor_mean T U a b : st (tensor_mean T U a b).
Proof. unfold tensor_mean, sum_body, mean_div. st_tac. Qed.
Lemma st_mul_acc D L R d l r : st (tensor_mul_acc_f D L R d l r).
Proof. unfold tensor_mul_acc_f, mul_acc_body. st_tac. Qed.
Lemma st_tensor_abs T U a b g : st (tensor_abs T U a b g).
Proof. unfold tensor_abs. st_tac. Qed.
Lemma st_div_num D L R a b c : st (tensor_div_back_numerator D L R a b c).
Proof. unfold tensor_div_back_numerator. st_tac. Qed.
Lemma st_div_den D L a b c d : st (tensor_div_back_denominator D L a b c d).
Proof. unfold tensor_div_back_denominator. st_tac. Qed.
Lemma st_tensor_cat T U a b o : st (tensor_cat T U a b o).
Proof. unfold tensor_cat. st_tac. Qed.

Lemma wp_on_heap {X A} (m : E A) (I : heap -> Prop) (s : heap * X) :
  st m -> (forall h h', h_ten h' = h_ten h -> h_ver h' = h_ver h -> I h -> I h') ->
  I s.1 -> wp (on_heap m) (fun _ s' => I s'.1) (fun _ s' => I s'.1) s.
Proof.
  intros Hm HI Hs. destruct s as [h x]. apply (wp_snd _ (fun s => I s.1)).
  unfold on_heap. destruct (Hm h) as [H1 H2]. destruct (m h) as [o h']. simpl in *. eauto.
Qed.
Lemma st_extremum_body c T dst src sv (I : heap -> Prop) s :
  (forall h h', h_ten h' = h_ten h -> h_ver h' = h_ver h -> I h -> I h') -> I s.1 ->
  wp (extremum_body c T dst src sv) (fun _ s' => I s'.1) (fun _ s' => I s'.1) s.
Proof.
  intros HI Hs. unfold extremum_body.
  apply wp_bind. eapply wp_mono; [apply wp_on_heap; [apply st_load_exact|exact HI|exact Hs]| |done].
  intros x s1 H1. apply wp_bind. eapply wp_mono; [apply wp_on_heap; [apply st_load|exact HI|exact H1]| |done].
  intros y s2 H2. apply wp_bind, wp_lift. destruct (cmpop _ _ _ _ _) as [[]|?|?|]; try done.
  apply wp_bind. eapply wp_mono; [apply wp_on_heap; [apply st_store|exact HI|exact H2]| |done].
  intros ? [h s3] H3. exact H3.
Qed.
Lemma st_tensor_extremum c T a b g : st (tensor_extremum c T a b g).
Proof.
  unfold tensor_extremum. st_tac.
  intros h. pose proof (wp_for_each_any (sizes (t_lay b)) (extremum_body c T a b)
    (fun s : heap * list Z => h_ten s.1 = h_ten h /\ h_ver s.1 = h_ver h)
    (fun _ s => h_ten s.1 = h_ten h /\ h_ver s.1 = h_ver h) (h, [])) as H.
  apply (wp_snd _ (fun s : heap * list Z => h_ten s.1 = h_ten h /\ h_ver s.1 = h_ver h)) in H; try done.
  - destruct (for_each_sizevec _ _ _) as [o [h' sv]]. done.
  - intros sv s Hs. apply (st_extremum_body _ _ _ _ _ (fun h' => h_ten h' = h_ten h /\ h_ver h' = h_ver h)).
    + intros h1 h2 -> ->. done.
    + done.
Qed.
Lemma st_sto_zero s : st (sto_zero s). Proof. unfold sto_zero. st_tac. Qed.
Lemma st_sto_alloc s : st (sto_alloc s). Proof. unfold sto_alloc. st_tac. Qed.
Lemma st_sto_release s : st (sto_release s). Proof. unfold sto_release. st_tac. Qed.
Lemma st_sto_is_alloc s : st (sto_is_alloc s). Proof. unfold sto_is_alloc. st_tac. Qed.
Lemma st_addeq l r : st (op_addeq l r).
Proof. unfold op_addeq. st_tac. apply st_tensor_add. Qed.
Lemma st_zero_grad t : st (zero_grad t).
Proof. unfold zero_grad. st_tac. apply st_sto_zero. Qed.
Lemma st_randn_write dt s i x : st (randn_write dt s i x).
Proof. unfold randn_write. st_tac. Qed.
Lemma st_cat_copy dt d dst rs off : st (cat_copy dt d dst rs off).
Proof. revert off. induction rs as [|r rs IH]; intros off; [done|]. cbn [cat_copy]. st_tac; [apply st_tensor_cat|apply IH]. Qed.
Lemma st_mul_add dst l r : st (tensor_mul_add_f dst l r).
Proof. unfold tensor_mul_add_f, dispatch_ffi. st_tac. apply st_mul_acc. Qed.
Lemma st_div_num_f dst l r : st (tensor_div_back_numerator_f dst l r).
Proof. unfold tensor_div_back_numerator_f, dispatch_ffi. st_tac. apply st_div_num. Qed.
End with_fops.
Ltac st_step :=
  lazymatch goal with
  | |- st (bind _ _) => apply st_bind; [|intros ?]
  | |- st (mret _) => apply st_ret
  | |- st (mub _) => apply st_ub
  | |- st (mthrow _) => apply st_throw
  | |- st (lift _) => apply st_lift
  | |- st (run_expect _) => apply st_expect
  | |- st (get_ten _) => apply st_get_ten
  | |- st (get_sto _) => apply st_get_sto
  | |- st (set_sto _ _) => apply st_set_sto
  | |- st (load _ _ _) => apply st_load
  | |- st (store _ _ _ _) => apply st_store
  | |- st (store_cvt _ _ _ _ _) => apply st_store_cvt
  | |- st (match ?x with _ => _ end) => destruct x
  end.
Ltac st_tac := repeat st_step.
