(** Frame: which buffers and tensors a call can change, for every outcome. *)
From Verif.Proofs Require Export Wp.
From Verif.Spec Require Export Frame.

Section with_fops.
Context {fo : FOps}.

(** relative to the starting heap [h0]; [K] are the protected buffers *)
Definition kept (K : nat -> Prop) (h0 h : heap) : Prop :=
  (forall s x, K s -> h_sto h0 !! s = Some x -> h_sto h !! s = Some x) /\
  (length (h_sto h0) <= length (h_sto h))%nat /\
  (length (h_ten h0) <= length (h_ten h))%nat /\
  (forall t x, h_ten h0 !! t = Some x ->
     exists x', h_ten h !! t = Some x' /\ same_data x x').
(** buffers that may be written *)
Definition wr (K : nat -> Prop) (h0 : heap) (s : nat) : Prop := ~ K s \/ h_sto h0 !! s = None.

Lemma same_data_refl r : same_data r r.
Proof. done. Qed.
Lemma same_data_trans a b c : same_data a b -> same_data b c -> same_data a c.
Proof. unfold same_data. intros (?&?&?) (?&?&?). repeat split; congruence. Qed.
Lemma kept_refl K h : kept K h h.
Proof. repeat split; eauto using same_data_refl. Qed.
Lemma kept_trans K h0 h1 h2 : kept K h0 h1 -> kept K h1 h2 -> kept K h0 h2.
Proof.
  intros (A1&B1&C1&D1) (A2&B2&C2&D2). split; [|split; [lia|split; [lia|]]].
  - intros s x HK Hs. by apply A2, A1.
  - intros t x Ht. destruct (D1 t x Ht) as (y & Hy & H1). destruct (D2 t y Hy) as (z & Hz & H2).
    exists z. split; [done|]. by eapply same_data_trans.
Qed.

Section frame.
Context (K : nat -> Prop) (h0 : heap).
Notation kp := (kept K h0).

Lemma kept_put h s x : kp h -> wr K h0 s -> kp (Hp (<[s := x]> (h_sto h)) (h_ten h) (h_ver h)).
Proof.
  intros (A&B&C&D) Hw. split; [|simpl; rewrite insert_length; auto].
  intros s' y HK Hs. simpl. destruct (decide (s = s')) as [->|Hne].
  - destruct Hw as [Hw|Hw]; [done|congruence].
  - rewrite list_lookup_insert_ne by done. by apply A.
Qed.
Lemma kept_set h t r r' : kp h -> h_ten h !! t = Some r -> same_data r r' ->
  kp (Hp (h_sto h) (<[t := r']> (h_ten h)) (h_ver h)).
Proof.
  intros (A&B&C&D) Ht Hsd. split; [done|]. split; [done|]. split; [simpl; by rewrite insert_length|].
  intros t' x Hx. simpl. destruct (D t' x Hx) as (y & Hy & H).
  destruct (decide (t = t')) as [<-|Hne].
  - exists r'. rewrite list_lookup_insert by (by eapply lookup_lt_Some). split; [done|].
    eapply same_data_trans; [exact H|]. congruence.
  - exists y. rewrite list_lookup_insert_ne by done. done.
Qed.
Lemma kept_new_sto h x : kp h -> kp (Hp (h_sto h ++ [x]) (h_ten h) (h_ver h)).
Proof.
  intros (A&B&C&D). split; [|simpl; rewrite app_length; simpl; split; [lia|auto]].
  intros s y HK Hs. simpl. apply lookup_app_l_Some. by apply A.
Qed.
Lemma kept_new_ten h x : kp h -> kp (Hp (h_sto h) (h_ten h ++ [x]) (h_ver h)).
Proof.
  intros (A&B&C&D). split; [done|]. simpl. rewrite app_length. simpl. split; [done|]. split; [lia|].
  intros t y Ht. destruct (D t y Ht) as (z & Hz & H). exists z. split; [|done]. by apply lookup_app_l_Some.
Qed.
Lemma kept_ver h v : kp h -> kp (Hp (h_sto h) (h_ten h) v).
Proof. done. Qed.
Lemma kept_fresh_sto h : kp h -> wr K h0 (length (h_sto h)).
Proof. intros (A&B&C&D). right. apply lookup_ge_None_2. lia. Qed.
Lemma kept_lookup h t r0 r : kp h -> h_ten h0 !! t = Some r0 -> h_ten h !! t = Some r -> same_data r0 r.
Proof. intros (A&B&C&D) H0 H. destruct (D t r0 H0) as (x & Hx & Hs). congruence. Qed.

(** shape of the statements *)
Definition fr {A} (m : E A) (P : A -> heap -> Prop) (h : heap) : Prop :=
  wp m (fun a h' => kp h' /\ P a h') (fun _ => kp) h.
Notation tt_ := (fun _ _ => True).

Lemma fr_bind {A B} (m : E A) (k : A -> E B) P P' h :
  fr m P h -> (forall a h', kp h' -> P a h' -> fr (k a) P' h') -> fr (bind m k) P' h.
Proof.
  intros Hm Hk. apply wp_bind. eapply wp_mono; [exact Hm| |done]. intros a h' [H1 H2]. by apply Hk.
Qed.
Lemma fr_mono {A} (m : E A) (P P' : A -> heap -> Prop) h :
  fr m P h -> (forall a h', kp h' -> P a h' -> P' a h') -> fr m P' h.
Proof. intros Hm H. eapply wp_mono; [exact Hm| |done]. intros a h' [H1 H2]. auto. Qed.
Lemma fr_ret {A} (a : A) (P : A -> heap -> Prop) h : kp h -> P a h -> fr (mret a) P h.
Proof. done. Qed.
Lemma fr_throw {A} e (P : A -> heap -> Prop) h : kp h -> fr (mthrow e) P h.
Proof. done. Qed.
Lemma fr_ub {A} e (P : A -> heap -> Prop) h : kp h -> fr (mub e) P h.
Proof. done. Qed.
Lemma fr_lift {A} (o : outcome A) (P : A -> heap -> Prop) h :
  kp h -> (forall a, o = Ok a -> P a h) -> fr (lift o) P h.
Proof. intros. apply wp_lift. destruct o; auto. Qed.
Lemma fr_expect b h : kp h -> fr (run_expect b) tt_ h.
Proof. intros. apply wp_expect; auto. Qed.
Lemma fr_get_ten t h : kp h -> fr (get_ten t) (fun r h' => h' = h /\ h_ten h !! t = Some r) h.
Proof. intros. apply wp_get_ten; auto. Qed.
Lemma fr_get_sto t h : kp h -> fr (get_sto t) (fun r h' => h' = h /\ h_sto h !! t = Some r) h.
Proof. intros. apply wp_get_sto; auto. Qed.
Lemma fr_deref {A} (o : option A) h : kp h -> fr (deref o) (fun a h' => h' = h /\ o = Some a) h.
Proof. intros. apply wp_deref; auto. Qed.
Lemma fr_set_ten t r r' h : kp h -> h_ten h !! t = Some r -> same_data r r' ->
  fr (set_ten t r') (fun _ h' => h' = Hp (h_sto h) (<[t := r']> (h_ten h)) (h_ver h)) h.
Proof. intros. apply wp_set_ten. split; [by eapply kept_set|done]. Qed.
Lemma fr_set_sto s x h : kp h -> wr K h0 s -> fr (set_sto s x) (fun _ h' => h_ten h' = h_ten h) h.
Proof. intros. apply wp_set_sto. split; [by apply kept_put|done]. Qed.
Lemma fr_new_ten r h : kp h ->
  fr (new_ten r) (fun t h' => t = length (h_ten h) /\ h' = Hp (h_sto h) (h_ten h ++ [r]) (h_ver h)) h.
Proof. intros. apply wp_new_ten. split; [by apply kept_new_ten|done]. Qed.
Lemma fr_new_sto r h : kp h ->
  fr (new_sto r) (fun s h' => h_ten h' = h_ten h /\ s = length (h_sto h) /\ wr K h0 s) h.
Proof. intros. apply wp_new_sto. split; [by apply kept_new_sto|]. split; [done|]. split; [done|]. by apply kept_fresh_sto. Qed.

Lemma fr_load T s p h : kp h -> fr (load T s p) (fun _ h' => h' = h) h.
Proof.
  intros H. unfold load. eapply fr_bind; [by apply fr_get_sto|]. intros r h' _ [-> _].
  repeat case_match; first [by apply fr_ret|by apply fr_ub].
Qed.
Lemma fr_store T s p v h : kp h -> wr K h0 s -> fr (store T s p v) (fun _ h' => h_ten h' = h_ten h) h.
Proof.
  intros H Hw. unfold store. eapply fr_bind; [by apply fr_get_sto|]. intros r h' _ [-> _].
  repeat case_match; first [by apply fr_ret|by apply fr_ub|by apply fr_set_sto].
Qed.
Lemma fr_store_cvt T D s p v h : kp h -> wr K h0 s -> fr (store_cvt T D s p v) (fun _ h' => h_ten h' = h_ten h) h.
Proof. intros. eapply fr_bind; [by apply (fr_lift _ (fun _ h' => h' = h))|]. intros ? ? _ ->. by apply fr_store. Qed.

(** loops over buffers keep the tensors *)
Definition kt (h1 h : heap) : Prop := kp h /\ h_ten h = h_ten h1.
Lemma fr_for_each range op h :
  kp h -> (forall sv h', kp h' -> fr (op sv) (fun _ h'' => h_ten h'' = h_ten h') h') ->
  fr (for_each_sizevec range op) (fun _ h' => h_ten h' = h_ten h) h.
Proof.
  intros H Hop. apply (wp_for_each_any range op (kt h)); [done|by intros ? []|].
  intros sv s [H1 H2]. eapply wp_mono; [by apply Hop| |done]. intros a s' [H3 H4]. split; [done|congruence].
Qed.
Lemma fr_odometer {R} range (op : list Z -> E (option R)) h :
  kp h -> (forall sv h', kp h' -> fr (op sv) (fun _ h'' => h_ten h'' = h_ten h') h') ->
  fr (odometer range op) (fun _ h' => h_ten h' = h_ten h) h.
Proof.
  intros H Hop. apply (wp_odometer range op (kt h)); [done|by intros ? []|].
  intros sv s [H1 H2]. eapply wp_mono; [by apply Hop| |done]. intros a s' [H3 H4]. split; [done|congruence].
Qed.
Lemma fr_mapM {A} (op : A -> E unit) l h :
  kp h -> (forall x h', kp h' -> fr (op x) (fun _ h'' => h_ten h'' = h_ten h') h') ->
  fr (mapM_ op l) (fun _ h' => h_ten h' = h_ten h) h.
Proof.
  intros H Hop. apply (wp_mapM op l (kt h)); [done|].
  intros sv s _ [H1 H2]. eapply wp_mono; [by apply Hop| |done]. intros a s' [H3 H4]. split; [done|congruence].
Qed.

(** calls that only read *)
Definition reads {A} (m : E A) : Prop := forall h, (m h).2 = h.
Lemma reads_run {A} (m : E A) h : reads m -> m h = ((m h).1, h).
Proof. intros H. specialize (H h). by destruct (m h); simpl in *; subst. Qed.
Lemma reads_bind {A B} (m : E A) (k : A -> E B) : reads m -> (forall a, reads (k a)) -> reads (bind m k).
Proof.
  intros Hm Hk h. unfold bind. rewrite (reads_run m h Hm). destruct (m h).1; try done. apply Hk.
Qed.
Lemma reads_ret {A} (a : A) : reads (mret a). Proof. done. Qed.
Lemma reads_lift {A} (a : outcome A) : reads (lift a). Proof. done. Qed.
Lemma reads_throw {A} e : reads (mthrow (A:=A) e). Proof. done. Qed.
Lemma reads_ub {A} e : reads (mub (A:=A) e). Proof. done. Qed.
Lemma reads_expect b : reads (run_expect b). Proof. by destruct b. Qed.
Lemma reads_get_ten t : reads (get_ten t). Proof. intros h. unfold get_ten. by destruct (h_ten h !! t). Qed.
Lemma reads_get_sto t : reads (get_sto t). Proof. intros h. unfold get_sto. by destruct (h_sto h !! t). Qed.
Lemma reads_deref {A} (o : option A) : reads (deref o). Proof. by destruct o. Qed.
Lemma reads_load T s p : reads (load T s p).
Proof. apply reads_bind; [apply reads_get_sto|]. intros r. by repeat case_match. Qed.
Lemma reads_load_aug T t sv : reads (load_aug T t sv).
Proof. apply reads_bind; [apply reads_lift|]. intros. apply reads_load. Qed.
Lemma reads_load_exact T t sv : reads (load_exact T t sv).
Proof. apply reads_bind; [apply reads_lift|]. intros. apply reads_load. Qed.

Lemma reads_idx_aug t sv : reads (idx_aug t sv). Proof. done. Qed.
Lemma reads_idx_exact t sv : reads (idx_exact t sv). Proof. done. Qed.

Lemma fr_read {A B} (m : E A) (k : A -> E B) P h :
  reads m -> kp h -> (forall a, m h = (Ok a, h) -> fr (k a) P h) -> fr (bind m k) P h.
Proof.
  intros Hm Hh Hk. unfold fr, wp, bind. rewrite (reads_run m h Hm).
  destruct (m h).1 eqn:E; try done. apply Hk. rewrite (reads_run m h Hm). by rewrite E.
Qed.
Lemma fr_reads {A} (m : E A) (P : A -> heap -> Prop) h :
  reads m -> kp h -> (forall a, m h = (Ok a, h) -> P a h) -> fr m P h.
Proof.
  intros Hm Hh Hk. unfold fr, wp. rewrite (reads_run m h Hm).
  destruct (m h).1 eqn:E; try done. split; [done|]. apply Hk. rewrite (reads_run m h Hm). by rewrite E.
Qed.
End frame.
End with_fops.
Global Hint Resolve kept_refl : core.
Global Hint Resolve reads_ret reads_lift reads_throw reads_ub reads_expect reads_get_ten reads_get_sto
  reads_deref reads_load reads_load_aug reads_load_exact reads_idx_aug reads_idx_exact : reads.
Ltac reads_tac := repeat first [solve [eauto with reads] | apply reads_bind; [|intros] | progress case_match].

Ltac rd := eapply fr_read; [solve [reads_tac]|eassumption|].

Section with_fops.
Context {fo : FOps} (K : nat -> Prop) (h0 : heap).
Notation kp := (kept K h0).
Notation fr := (fr K h0).
Notation wr := (wr K h0).

Lemma get_ten_inv t h r h' : get_ten t h = (Ok r, h') -> h_ten h !! t = Some r /\ h' = h.
Proof. unfold get_ten. destruct (h_ten h !! t); [by intros [= -> ->]|done]. Qed.

(** ** kernels *)
Notation same_ten h := (fun _ h' => h_ten h' = h_ten h).
Lemma fr_loop range op h :
  kp h -> (forall sv h', kp h' -> fr (op sv) (same_ten h') h') -> fr (for_each_sizevec range op) (same_ten h) h.
Proof. apply fr_for_each. Qed.

Lemma fr_binary o D L R dst l r sv h : kp h -> wr (t_sto dst) ->
  fr (binary_body o D L R dst l r sv) (same_ten h) h.
Proof.
  intros. unfold binary_body. rd. intros a _. rd. intros b _. rd. intros v _. rd. intros p _.
  by apply fr_store_cvt.
Qed.
Lemma fr_add L R dst l r h : kp h -> wr (t_sto dst) -> fr (tensor_add L R dst l r) (same_ten h) h.
Proof. intros. unfold tensor_add. rd. intros rg _. apply fr_loop; [done|]. intros. by apply fr_binary. Qed.
Lemma fr_sub L R dst l r h : kp h -> wr (t_sto dst) -> fr (tensor_sub L R dst l r) (same_ten h) h.
Proof. intros. unfold tensor_sub. rd. intros rg _. apply fr_loop; [done|]. intros. by apply fr_binary. Qed.
Lemma fr_mul L R dst l r h : kp h -> wr (t_sto dst) -> fr (tensor_mul L R dst l r) (same_ten h) h.
Proof. intros. unfold tensor_mul. apply fr_loop; [done|]. intros. by apply fr_binary. Qed.
Lemma fr_div L R dst l r h : kp h -> wr (t_sto dst) -> fr (tensor_div L R dst l r) (same_ten h) h.
Proof. intros. unfold tensor_div. apply fr_loop; [done|]. intros. by apply fr_binary. Qed.
Lemma fr_cmp c L R dst l r h : kp h -> wr (t_sto dst) -> fr (tensor_cmp c L R dst l r) (same_ten h) h.
Proof.
  intros. unfold tensor_cmp. apply fr_loop; [done|]. intros. rd. intros a _. rd. intros b _. rd. intros v _.
  rd. intros p _. by apply fr_store_cvt.
Qed.
Lemma fr_fill T N dst n h : kp h -> wr (t_sto dst) -> fr (tensor_fill T N dst n) (same_ten h) h.
Proof.
  intros. unfold tensor_fill. rd. intros a _. rd. intros b _.
  destruct (sizes _); [by apply fr_store|]. apply fr_loop; [done|]. intros. rd. intros p _. by apply fr_store.
Qed.
Lemma fr_eye T dst h : kp h -> wr (t_sto dst) -> fr (tensor_eye T dst) (same_ten h) h.
Proof.
  intros. unfold tensor_eye. apply fr_mapM; [done|]. intros. rd. intros p _. by apply fr_store_cvt.
Qed.
Lemma fr_copy To From dst src sv h : kp h -> wr (t_sto dst) -> fr (copy_body To From dst src sv) (same_ten h) h.
Proof. intros. unfold copy_body. rd. intros v _. rd. intros p _. by apply fr_store_cvt. Qed.
Lemma fr_to_type To From dst src h : kp h -> wr (t_sto dst) -> fr (tensor_to_type To From dst src) (same_ten h) h.
Proof. intros. apply fr_loop; [done|]. intros. by apply fr_copy. Qed.
Lemma fr_clone To From dst src h : kp h -> wr (t_sto dst) -> fr (tensor_clone To From dst src) (same_ten h) h.
Proof. intros. apply fr_loop; [done|]. intros. by apply fr_copy. Qed.
Lemma fr_sum_body To From dst src sv h : kp h -> wr (t_sto dst) -> fr (sum_body To From dst src sv) (same_ten h) h.
Proof. intros. unfold sum_body. rd. intros x _. rd. intros a _. rd. intros v _. by apply fr_store_cvt. Qed.
Lemma fr_plain {X} (op : X -> E unit) x h : fr (op x) (same_ten h) h -> fr (plain op x) (same_ten h) h.
Proof. intros Hf. unfold plain. eapply fr_bind; [exact Hf|]. intros ? h' Hk Ht. by apply fr_ret. Qed.
Lemma fr_odo_sum To From dst src ss h : kp h -> wr (t_sto dst) ->
  fr (odometer ss (plain (sum_body To From dst src))) (same_ten h) h.
Proof. intros. apply fr_odometer; [done|]. intros. by apply fr_plain, fr_sum_body. Qed.
Lemma fr_sum To From dst src h : kp h -> wr (t_sto dst) -> fr (tensor_sum To From dst src) (same_ten h) h.
Proof.
  intros. unfold tensor_sum. case_match; [by apply fr_ret|]. case_match.
  - rd. intros x _. by apply fr_store_cvt.
  - eapply fr_bind; [by apply fr_odo_sum|]. intros ? h' ? ?. by apply fr_ret.
Qed.
Lemma fr_mean_div To dst n h : kp h -> wr (t_sto dst) -> fr (mean_div To dst n) (same_ten h) h.
Proof. intros. unfold mean_div. rd. intros a _. rd. intros v _. by apply fr_store_cvt. Qed.
Lemma fr_mean To From dst src h : kp h -> wr (t_sto dst) -> fr (tensor_mean To From dst src) (same_ten h) h.
Proof.
  intros. unfold tensor_mean. case_match; [by apply fr_ret|]. rd. intros n _. case_match.
  - rd. intros x _. eapply fr_bind; [by apply fr_store_cvt|]. intros ? h' ? E. rewrite <- E. by apply fr_mean_div.
  - eapply fr_bind; [by apply fr_odo_sum|]. intros ? h' ? E. rewrite <- E. by apply fr_mean_div.
Qed.
Lemma fr_mul_acc D L R dst l r h : kp h -> wr (t_sto dst) -> fr (tensor_mul_acc_f D L R dst l r) (same_ten h) h.
Proof.
  intros. unfold tensor_mul_acc_f. rd. intros rg _. rd. intros rg' _. apply fr_loop; [done|]. intros.
  unfold mul_acc_body. rd. intros a _. rd. intros b _. rd. intros v _. rd. intros p _. rd. intros d _. rd. intros w _.
  by apply fr_store_cvt.
Qed.
Lemma fr_div_num D L R dst og den h : kp h -> wr (t_sto dst) -> fr (tensor_div_back_numerator D L R dst og den) (same_ten h) h.
Proof.
  intros. apply fr_loop; [done|]. intros.
  rd. intros a _. rd. intros b _. rd. intros v _. rd. intros p _. rd. intros d _. rd. intros w _.
  by apply fr_store_cvt.
Qed.
Lemma fr_div_den Den Quot dst og quot den h : kp h -> wr (t_sto dst) ->
  fr (tensor_div_back_denominator Den Quot dst og quot den) (same_ten h) h.
Proof.
  intros. apply fr_loop; [done|]. intros.
  rd. intros a _. rd. intros b _. rd. intros v _. rd. intros c _. rd. intros w _. rd. intros p _. rd. intros d _. rd. intros x _.
  by apply fr_store_cvt.
Qed.
Lemma fr_abs To From dst src grad h : kp h -> wr (t_sto dst) -> (forall g, grad = Some g -> wr (t_sto g)) ->
  fr (tensor_abs To From dst src grad) (same_ten h) h.
Proof.
  intros Hk Hw Hg. apply fr_loop; [done|]. intros sv h1 Hk1. rd. intros tmp _. rd. intros ge _.
  assert (forall z h1, kp h1 -> fr (match grad with
      | None => mret tt
      | Some g => let! p := idx_exact g sv in store_cvt I32 From (t_sto g) p (VI z) end) (same_ten h1) h1) as Hput.
  { intros z h2 Hk2. destruct grad as [g|]; [|by apply fr_ret]. rd. intros p _. apply fr_store_cvt; auto. }
  destruct ge.
  - eapply fr_bind; [by apply Hput|]. intros ? h2 ? E. rewrite <- E. rd. intros p _. by apply fr_store_cvt.
  - eapply fr_bind; [by apply Hput|]. intros ? h2 ? E. rewrite <- E. rd. intros m _. rd. intros p _. by apply fr_store_cvt.
Qed.
Lemma fr_cat To From dst src off h : kp h -> wr (t_sto dst) -> fr (tensor_cat To From dst src off) (same_ten h) h.
Proof. intros. apply fr_loop; [done|]. intros. rd. intros v _. rd. intros p _. by apply fr_store_cvt. Qed.

Lemma wp_extremum_body c T dst src sv h h3 x : kp h3 -> h_ten h3 = h_ten h -> wr (t_sto dst) ->
  wp (extremum_body c T dst src sv) (fun _ x => kp x.1 /\ h_ten x.1 = h_ten h) (fun _ x => kp x.1) (h3, x).
Proof.
  intros Hk3 E3 Hw. unfold wp, extremum_body, on_heap, bind, lift.
  rewrite (reads_run (load_exact T src sv) h3) by (by apply reads_load_exact).
  destruct (load_exact T src sv h3).1 as [y|?|?|]; try done.
  rewrite (reads_run (load T (t_sto dst) 0) h3) by (by apply reads_load).
  destruct (load T (t_sto dst) 0 h3).1 as [z|?|?|]; try done.
  destruct (cmpop c T T _ _) as [[]|?|?|]; try done.
  pose proof (fr_store K h0 T (t_sto dst) 0 y h3 Hk3 Hw) as Hs. unfold Frame.fr, wp in Hs.
  destruct (store T (t_sto dst) 0 y h3) as [[[]|?|?|] h4]; try done. simpl.
  destruct Hs as [? Hs]. split; [done|congruence].
Qed.
Lemma fr_extremum c T dst src grad h : kp h -> wr (t_sto dst) -> (forall g, grad = Some g -> wr (t_sto g)) ->
  fr (tensor_extremum c T dst src grad) (same_ten h) h.
Proof.
  intros Hk Hw Hg. unfold tensor_extremum. rd. intros f _.
  eapply fr_bind; [by apply fr_store|]. intros ? h1 Hk1 E1.
  eapply (fr_bind _ _ _ _ (same_ten h)).
  { unfold Frame.fr, wp.
    pose proof (wp_for_each_any (sizes (t_lay src)) (extremum_body c T dst src)
      (fun x => kp x.1 /\ h_ten x.1 = h_ten h) (fun _ x => kp x.1) (h1, [])) as Hl.
    unfold wp in Hl at 2. destruct (for_each_sizevec _ _ _) as [o [h2 sv]]. simpl in Hl.
    assert (match o with Ok _ => kp h2 /\ h_ten h2 = h_ten h | _ => kp h2 end) as Ho.
    { destruct o; (apply Hl; [done|by intros ? []|]); clear Hl;
      intros sv' [h3 sv''] [Hk3 E3]; by apply wp_extremum_body. }
    by destruct o. }
  intros best h2 Hk2 E2. destruct grad as [g|]; [|by apply fr_ret].
  rd. intros p _. rewrite <- E2. apply fr_store_cvt; auto.
Qed.
End with_fops.
