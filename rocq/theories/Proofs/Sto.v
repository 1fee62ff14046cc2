(** Buffers keep their element type and size in bytes; an allocated buffer has at least as
    many cells as its size in bytes gives. *)
From Verif.Proofs Require Export Kernels Later Track.

Section with_fops.
Context {fo : FOps}.

Definition sok (x : storage) : Prop :=
  0 <= sto_bytes x < two64 /\
  match sto_blob x with
  | Some cs => sto_bytes x / size_of (sto_ty x) <= Z.of_nat (length cs)
  | None => True
  end.
(** the cells of a buffer keep their number, unless it is allocated again *)
Definition same_len (x x' : storage) : Prop := forall cs', sto_blob x' = Some cs' ->
  (exists cs, sto_blob x = Some cs /\ length cs' = length cs) \/ length cs' = Z.to_nat (sto_bytes x / size_of (sto_ty x)).
Definition same_sto (x x' : storage) : Prop := sto_ty x' = sto_ty x /\ sto_bytes x' = sto_bytes x /\ same_len x x'.
Lemma same_sto_refl x : same_sto x x.
Proof. split; [done|]. split; [done|]. intros cs E. left. by exists cs. Qed.
Lemma same_sto_blob x cs cs' : sto_blob x = Some cs -> length cs' = length cs -> same_sto x (Sto (sto_ty x) (sto_bytes x) (Some cs')).
Proof. intros E L. split; [done|]. split; [done|]. intros cs0 E0. injection E0 as <-. left. by exists cs. Qed.
Definition rs (l l' : list storage) : Prop :=
  (forall s x, l !! s = Some x -> exists x', l' !! s = Some x' /\ same_sto x x') /\
  (Forall sok l -> Forall sok l').
Lemma rs_refl l : rs l l. Proof. split; [|done]. intros s x H. exists x. split; [done|apply same_sto_refl]. Qed.
Lemma rs_trans a b c : rs a b -> rs b c -> rs a c.
Proof.
  intros [H1 H2] [H3 H4]. split; [|auto]. intros s x H. destruct (H1 s x H) as (x' & Hx' & E1 & E2 & L1).
  destruct (H3 s x' Hx') as (x'' & Hx'' & E3 & E4 & L2). exists x''. split; [done|]. split; [congruence|]. split; [congruence|].
  intros cs E. destruct (L2 cs E) as [(cs' & E' & ->)|L]; [by apply L1|right]. congruence.
Qed.
Lemma rs_upd l s x x' : l !! s = Some x -> same_sto x x' -> (sok x -> sok x') -> rs l (<[s := x']> l).
Proof.
  intros H E Hs. split.
  - intros s' y Hy. destruct (decide (s' = s)) as [->|Hne].
    + assert (y = x) as -> by congruence. exists x'. split; [|done]. apply list_lookup_insert. by eapply lookup_lt_Some.
    + exists y. rewrite list_lookup_insert_ne by done. split; [done|apply same_sto_refl].
  - intros Ha. apply Forall_insert; [done|]. apply Hs. by eapply Forall_lookup_1.
Qed.
Lemma rs_new l x : sok x -> rs l (l ++ [x]).
Proof.
  intros Hx. split.
  - intros s y Hy. exists y. split; [by apply lookup_app_l_Some|apply same_sto_refl].
  - intros H. apply Forall_app. by split; [|constructor].
Qed.

Definition ss {A} (m : E A) : Prop := forall h, rs (h_sto h) (h_sto (m h).2).
Lemma ss_bind {A B} (m : E A) (k : A -> E B) : ss m -> (forall a, ss (k a)) -> ss (bind m k).
Proof.
  intros Hm Hk h. unfold bind. specialize (Hm h). destruct (m h) as [[a|?|?|] h']; simpl in *; try done.
  eapply rs_trans; [exact Hm|apply Hk].
Qed.
Lemma ss_reads {A} (m : E A) : reads m -> ss m.
Proof. intros Hm h. rewrite (reads_run m h Hm). apply rs_refl. Qed.
Lemma ss_refl {A} (m : E A) : (forall h, h_sto (m h).2 = h_sto h) -> ss m.
Proof. intros H h. rewrite H. apply rs_refl. Qed.
Lemma ss_ret {A} (a : A) : ss (mret a). Proof. by apply ss_refl. Qed.
Lemma ss_ub {A} u : ss (@mub _ A u). Proof. by apply ss_refl. Qed.
Lemma ss_throw {A} u : ss (@mthrow _ A u). Proof. by apply ss_refl. Qed.
Lemma ss_set_ten t r : ss (set_ten t r). Proof. by apply ss_refl. Qed.
Lemma ss_new_ten r : ss (new_ten r). Proof. by apply ss_refl. Qed.
Lemma ss_bump : ss bump. Proof. by apply ss_refl. Qed.
Lemma ss_heap_size : ss heap_size. Proof. by apply ss_refl. Qed.
Lemma ss_global : ss global_version. Proof. by apply ss_refl. Qed.
Lemma ss_create_view dt l s : ss (create_view dt l s). Proof. by apply ss_refl. Qed.
Lemma ss_new_sto x : sok x -> ss (new_sto x). Proof. intros H h. by apply rs_new. Qed.
Lemma ss_sto_bind {B} s (k : storage -> E B) :
  (forall x h, h_sto h !! s = Some x -> rs (h_sto h) (h_sto (k x h).2)) -> ss (bind (get_sto s) k).
Proof.
  intros H h. unfold bind, get_sto. destruct (h_sto h !! s) as [x|] eqn:E; [|apply rs_refl]. by apply H.
Qed.
Lemma ss_set s x x' h : h_sto h !! s = Some x -> same_sto x x' -> (sok x -> sok x') ->
  rs (h_sto h) (h_sto (set_sto s x' h).2).
Proof. intros. by eapply rs_upd. Qed.
Lemma sok_same x cs cs' : sto_blob x = Some cs -> length cs' = length cs ->
  sok x -> sok (Sto (sto_ty x) (sto_bytes x) (Some cs')).
Proof. unfold sok. simpl. intros -> ->. done. Qed.
Lemma ss_store T s p v : ss (store T s p v).
Proof.
  unfold store. apply ss_sto_bind. intros x h Hx. destruct (sto_blob x) as [cs|] eqn:Eb; [|apply rs_refl].
  case_match; [|apply rs_refl]. case_match; [|apply rs_refl]. eapply ss_set; [done|eapply same_sto_blob; [done|by rewrite insert_length]|].
  eapply sok_same; [done|]. by rewrite insert_length.
Qed.
Lemma ss_store_cvt T D s p v : ss (store_cvt T D s p v).
Proof. apply ss_bind; [apply ss_reads; reads_tac|]. intros. apply ss_store. Qed.
Lemma ss_sto_zero s : ss (sto_zero s).
Proof.
  unfold sto_zero. apply ss_sto_bind. intros x h Hx. destruct (sto_blob x) as [cs|] eqn:Eb; [|apply rs_refl].
  eapply ss_set; [done|eapply same_sto_blob; [done|by rewrite map_length]|]. eapply sok_same; [done|]. by rewrite map_length.
Qed.
Lemma ss_sto_release s : ss (sto_release s).
Proof. apply ss_sto_bind. intros x h Hx. eapply ss_set; [done|by split|]. intros [? _]. done. Qed.
Lemma size_of_pos dt : 0 < size_of dt. Proof. by destruct dt. Qed.
Lemma fresh_cells_sok dt b cs : 0 <= b < two64 -> new_blob dt b = Ok cs -> sok (Sto dt b (Some cs)).
Proof.
  unfold new_blob. intros Hb. case_match; [|done]. intros [= <-]. split; [done|]. simpl.
  unfold fresh_cells. rewrite replicate_length, Z2Nat.id; [done|]. apply Z.div_pos; [lia|apply size_of_pos].
Qed.
Lemma ss_sto_alloc s : ss (sto_alloc s).
Proof.
  apply ss_sto_bind. intros x h Hx. unfold bind, lift.
  destruct (new_blob (sto_ty x) (sto_bytes x)) as [b|?|?|] eqn:Eb; [|apply rs_refl..].
  eapply (ss_set s x); [done| |intros [Hb _]; by apply fresh_cells_sok]. split; [done|]. split; [done|]. intros cs E. injection E as <-. right.
  unfold new_blob in Eb. case_match; [|done]. injection Eb as <-. unfold fresh_cells. by rewrite replicate_length.
Qed.
Lemma ss_create dt l p : ss (create dt l p).
Proof.
  unfold create. assert (0 <= u64 (size_of dt * lnumel l) < two64) as Hb by apply u64_range.
  destruct p.
  - intros h. unfold bind, lift. destruct (new_blob _ _) as [b|?|?|] eqn:Eb; [|apply rs_refl..].
    cbn. apply rs_new. by apply fresh_cells_sok.
  - intros h. cbn. apply rs_new. by split.
Qed.
Lemma ss_mapM {A} (f : A -> E unit) l : (forall x, ss (f x)) -> ss (mapM_ f l).
Proof. intros Hf. induction l as [|x l IH]; [by apply ss_refl|]. cbn [mapM_]. apply ss_bind; auto. Qed.
Lemma ss_for_each range op : (forall sv, ss (op sv)) -> ss (for_each_sizevec range op).
Proof.
  intros Hop h. apply (wp_snd _ (fun h' => rs (h_sto h) (h_sto h'))).
  apply wp_for_each_any; [apply rs_refl|done|]. intros sv s H. apply wp_snd.
  eapply rs_trans; [exact H|apply Hop].
Qed.
Lemma ss_odometer {R} range (op : list Z -> E (option R)) : (forall sv, ss (op sv)) -> ss (odometer range op).
Proof.
  intros Hop h. apply (wp_snd _ (fun h' => rs (h_sto h) (h_sto h'))).
  apply wp_odometer; [apply rs_refl|done|]. intros sv s H. apply wp_snd.
  eapply rs_trans; [exact H|apply Hop].
Qed.
End with_fops.

Ltac ss_step :=
  lazymatch goal with
  | |- ss (bind _ _) => apply ss_bind; [|intros ?]
  | |- ss (mret _) => apply ss_ret
  | |- ss (mub _) => apply ss_ub
  | |- ss (mthrow _) => apply ss_throw
  | |- ss (lift _) => apply ss_reads; reads_tac
  | |- ss (run_expect _) => apply ss_reads; reads_tac
  | |- ss (get_ten _) => apply ss_reads; reads_tac
  | |- ss (get_sto _) => apply ss_reads; reads_tac
  | |- ss (deref _) => apply ss_reads; reads_tac
  | |- ss (set_ten _ _) => apply ss_set_ten
  | |- ss (new_ten _) => apply ss_new_ten
  | |- ss (create_view _ _ _) => apply ss_create_view
  | |- ss (create _ _ _) => apply ss_create
  | |- ss bump => apply ss_bump
  | |- ss heap_size => apply ss_heap_size
  | |- ss global_version => apply ss_global
  | |- ss (load _ _ _) => apply ss_reads; reads_tac
  | |- ss (store _ _ _ _) => apply ss_store
  | |- ss (store_cvt _ _ _ _ _) => apply ss_store_cvt
  | |- ss (sto_zero _) => apply ss_sto_zero
  | |- ss (sto_alloc _) => apply ss_sto_alloc
  | |- ss (sto_release _) => apply ss_sto_release
  | |- ss (sto_is_alloc _) => unfold sto_is_alloc
  | |- ss (idx_aug _ _) => apply ss_reads; reads_tac
  | |- ss (idx_exact _ _) => apply ss_reads; reads_tac
  | |- ss (load_aug _ _ _) => apply ss_reads; reads_tac
  | |- ss (load_exact _ _ _) => apply ss_reads; reads_tac
  | |- ss (mapM_ _ _) => apply ss_mapM; intros ?
  | |- ss (for_each_sizevec _ _) => apply ss_for_each; intros ?
  | |- ss (odometer _ _) => apply ss_odometer; intros ?
  | |- ss (plain _ _) => unfold plain
  | |- ss (match ?x with _ => _ end) => destruct x
  | |- ss (let _ := _ in _) => cbv zeta
  end.
Ltac ss_tac := repeat ss_step.

Section with_fops.
Context {fo : FOps}.
Lemma ss_tensor_add L R d l r : ss (tensor_add L R d l r).
Proof. unfold tensor_add, binary_body. ss_tac. Qed.
Lemma ss_tensor_sub L R d l r : ss (tensor_sub L R d l r).
Proof. unfold tensor_sub, binary_body. ss_tac. Qed.
Lemma ss_tensor_mul L R d l r : ss (tensor_mul L R d l r).
Proof. unfold tensor_mul, binary_body. ss_tac. Qed.
Lemma ss_tensor_div L R d l r : ss (tensor_div L R d l r).
Proof. unfold tensor_div, binary_body. ss_tac. Qed.
Lemma ss_tensor_cmp c L R d l r : ss (tensor_cmp c L R d l r).
Proof. unfold tensor_cmp. ss_tac. Qed.
Lemma ss_tensor_fill T N a b : ss (tensor_fill T N a b).
Proof. unfold tensor_fill. ss_tac. Qed.
Lemma ss_tensor_eye T a : ss (tensor_eye T a).
Proof. unfold tensor_eye. ss_tac. Qed.
Lemma ss_tensor_to_type T U a b : ss (tensor_to_type T U a b).
Proof. unfold tensor_to_type, copy_body. ss_tac. Qed.
Lemma ss_tensor_clone T U a b : ss (tensor_clone T U a b).
Proof. unfold tensor_clone, copy_body. ss_tac. Qed.
Lemma ss_tensor_sum T U a b : ss (tensor_sum T U a b).
Proof. unfold tensor_sum, sum_body. ss_tac. Qed.
Lemma ss_tensor_mean T U a b : ss (tensor_mean T U a b).
Proof. unfold tensor_mean, sum_body, mean_div. ss_tac. Qed.
Lemma ss_mul_acc D L R d l r : ss (tensor_mul_acc_f D L R d l r).
Proof. unfold tensor_mul_acc_f, mul_acc_body. ss_tac. Qed.
Lemma ss_tensor_abs T U a b g : ss (tensor_abs T U a b g).
Proof. unfold tensor_abs. ss_tac. Qed.
Lemma ss_div_num D L R a b c : ss (tensor_div_back_numerator D L R a b c).
Proof. unfold tensor_div_back_numerator. ss_tac. Qed.
Lemma ss_div_den D L a b c d : ss (tensor_div_back_denominator D L a b c d).
Proof. unfold tensor_div_back_denominator. ss_tac. Qed.
Lemma ss_tensor_cat T U a b o : ss (tensor_cat T U a b o).
Proof. unfold tensor_cat. ss_tac. Qed.
Lemma wp_on_heap_ss {X A} (m : E A) l (s : heap * X) : ss m -> rs l (h_sto s.1) ->
  wp (on_heap m) (fun _ s' => rs l (h_sto s'.1)) (fun _ s' => rs l (h_sto s'.1)) s.
Proof.
  intros Hm Hs. destruct s as [h x]. apply (wp_snd _ (fun s => rs l (h_sto s.1))).
  unfold on_heap. specialize (Hm h). destruct (m h) as [o h']. simpl in *. by eapply rs_trans.
Qed.
Lemma ss_extremum_body c T dst src sv l s : rs l (h_sto s.1) ->
  wp (extremum_body c T dst src sv) (fun _ s' => rs l (h_sto s'.1)) (fun _ s' => rs l (h_sto s'.1)) s.
Proof.
  intros Hs. unfold extremum_body.
  apply wp_bind. eapply wp_mono; [apply wp_on_heap_ss; [ss_tac|exact Hs]| |done].
  intros x s1 H1. apply wp_bind. eapply wp_mono; [apply wp_on_heap_ss; [ss_tac|exact H1]| |done].
  intros y s2 H2. apply wp_bind, wp_lift. destruct (cmpop _ _ _ _ _) as [[]|?|?|]; try done.
  apply wp_bind. eapply wp_mono; [apply wp_on_heap_ss; [ss_tac|exact H2]| |done].
  intros ? [h s3] H3. exact H3.
Qed.
Lemma ss_tensor_extremum c T a b g : ss (tensor_extremum c T a b g).
Proof.
  unfold tensor_extremum. ss_tac.
  intros h. pose proof (wp_for_each_any (sizes (t_lay b)) (extremum_body c T a b)
    (fun s : heap * list Z => rs (h_sto h) (h_sto s.1))
    (fun _ s => rs (h_sto h) (h_sto s.1)) (h, [])) as H.
  apply (wp_snd _ (fun s : heap * list Z => rs (h_sto h) (h_sto s.1))) in H; try done.
  - destruct (for_each_sizevec _ _ _) as [o [h' sv]]. done.
  - apply rs_refl.
  - intros sv s Hs. by apply ss_extremum_body.
Qed.
Lemma ss_randn_write dt s i x : ss (randn_write dt s i x).
Proof.
  unfold randn_write. case_match; [ss_tac|]. apply ss_sto_bind. intros y h Hy.
  destruct (sto_blob y) as [cs|] eqn:Eb; [|apply rs_refl]. case_match; [|apply rs_refl].
  eapply ss_set; [done|eapply same_sto_blob; [done|by rewrite !insert_length]|]. eapply sok_same; [done|]. by rewrite !insert_length.
Qed.
Lemma ss_cat_copy dt d dst l off : ss (cat_copy dt d dst l off).
Proof. revert off. induction l as [|r l IH]; intros off; [apply ss_ret|]. cbn [cat_copy]. ss_tac; [apply ss_tensor_cat|apply IH]. Qed.
Lemma ss_mul_add dst l r : ss (tensor_mul_add_f dst l r).
Proof. unfold tensor_mul_add_f, dispatch_ffi. ss_tac. apply ss_mul_acc. Qed.
Lemma ss_div_num_f dst l r : ss (tensor_div_back_numerator_f dst l r).
Proof. unfold tensor_div_back_numerator_f, dispatch_ffi. ss_tac. apply ss_div_num. Qed.

Lemma ss_create_scalar dt v : ss (create_scalar dt v).
Proof. unfold create_scalar. ss_tac. Qed.
Lemma ss_fill_new a dt t nt : ss (fill_new a dt t nt).
Proof. unfold fill_new. ss_tac. apply ss_tensor_fill. Qed.
Lemma ss_track a k l : ss (track a k l). Proof. unfold track. ss_tac. Qed.
Lemma ss_addeq l r : ss (op_addeq l r).
Proof. unfold op_addeq. ss_tac. apply ss_tensor_add. Qed.
Lemma ss_zero_grad t : ss (zero_grad t).
Proof. unfold zero_grad. ss_tac. Qed.
Lemma ss_binary kernel k l r o :
  (forall a b c d e, ss (kernel a b c d e)) -> ss (apply_binary_operator kernel k l r o).
Proof.
  intros Hk. unfold apply_binary_operator, apply_no_grad_binary_op, track. ss_tac; apply Hk.
Qed.
Lemma ss_share a b : ss (share_grad_storage a b). Proof. unfold share_grad_storage. ss_tac. Qed.
Lemma ss_finish a b : ss (finish_view a b).
Proof. unfold finish_view. ss_tac; [apply ss_track|apply ss_share]. Qed.
Lemma ss_zeros a dt : ss (zeros a dt). Proof. unfold zeros. ss_tac. Qed.
Lemma ss_ones a dt : ss (ones a dt).
Proof. unfold ones. ss_tac; [apply ss_create_scalar|apply ss_fill_new]. Qed.
Lemma ss_clone t : ss (op_clone t).
Proof. unfold op_clone. ss_tac; [apply ss_tensor_clone|apply ss_track]. Qed.
Lemma ss_reshape_sv t l : ss (op_reshape_sv t l).
Proof.
  unfold op_reshape_sv. ss_tac; try apply ss_track; try apply ss_share; try apply ss_clone.
Qed.
Lemma ss_from_blob d l dt : ss (from_blob d l dt).
Proof.
  unfold from_blob. do 2 (apply ss_bind; [ss_tac|intros ?]). apply ss_sto_bind. intros x h Hx.
  destruct (sto_blob x) as [cs|] eqn:Eb; [|apply rs_refl]. destruct (Z.ltb_spec (Z.of_nat (length d)) (Z.of_nat (length cs))); [apply rs_refl|].
  eapply rs_upd; [done|eapply same_sto_blob; [done|]|eapply sok_same; [done|]]; rewrite map_length, firstn_length; lia.
Qed.
Lemma ss_randn l dt x : ss (op_randn l dt x).
Proof. unfold op_randn. ss_tac. apply ss_randn_write. Qed.

(** autograd *)
Lemma ss_upd_fn t f : ss (upd_fn t f). Proof. unfold upd_fn. ss_tac. Qed.
Lemma ss_acc_update p : ss (try_accumulate_update p).
Proof. unfold try_accumulate_update. ss_tac; apply ss_upd_fn. Qed.
Lemma ss_acc_grad p w o : ss (try_accumulate_grad p w o).
Proof.
  unfold try_accumulate_grad. ss_tac; try apply ss_acc_update; try apply ss_addeq; try apply ss_mul_add.
Qed.
Lemma ss_out_grad t : ss (out_grad t). Proof. unfold out_grad. ss_tac. Qed.
Lemma ss_input l i : ss (input l i). Proof. unfold input. ss_tac. Qed.
Lemma ss_cat_back t d l s : ss (cat_back t d l s).
Proof.
  revert s. induction l as [|x l IH]; intros s; [apply ss_ret|]. cbn [cat_back]. ss_tac; [apply ss_acc_grad|apply IH].
Qed.
Lemma ss_step_back t k l : ss (step_back t k l).
Proof.
  destruct k; cbn [step_back]; unfold dispatch_ff, ones_like, full_double; ss_tac; try apply ss_input; try apply ss_out_grad; try apply ss_acc_grad;
    try apply ss_acc_update; try apply ss_div_num_f; try apply ss_div_den; try apply ss_ones;
    try apply ss_create_scalar; try apply ss_fill_new; try apply ss_cat_back.
Qed.
Lemma ss_get_fn t : ss (get_fn t). Proof. unfold get_fn. ss_tac. Qed.
Lemma ss_visit_reset l : ss (visit_reset l).
Proof. induction l as [|x l IH]; [apply ss_ret|]. cbn [visit_reset]. ss_tac; apply IH. Qed.
Lemma ss_visit_count l : ss (visit_count l).
Proof. induction l as [|x l IH]; [apply ss_ret|]. cbn [visit_count]. ss_tac; apply IH. Qed.
Lemma ss_visit_ready l : ss (visit_ready l).
Proof. induction l as [|x l IH]; [apply ss_ret|]. cbn [visit_ready]. ss_tac; apply IH. Qed.
Lemma ss_bfs n body q : (forall x, ss (body x)) -> ss (bfs n body q).
Proof.
  intros Hb. revert q. induction n as [|n IH]; intros [|x q]; cbn [bfs]; try apply ss_ret; [by apply ss_refl|].
  apply ss_bind; [apply Hb|]. intros. apply IH.
Qed.
Lemma ss_backward t : ss (backward t).
Proof.
  unfold backward, refresh_n_outway, ones_like. ss_tac; try apply ss_upd_fn; try apply ss_bfs;
    try apply ss_ones; intros; unfold process; ss_tac; try apply ss_get_fn; try apply ss_visit_reset;
    try apply ss_visit_count; try apply ss_visit_ready; apply ss_step_back.
Qed.
Lemma ss_op_cat l d : ss (op_cat l d).
Proof.
  unfold op_cat. ss_tac; [apply ss_reads, reads_get_all|apply ss_cat_copy..|apply ss_track].
Qed.
Lemma ss_op_all x : ss (op_all x).
Proof.
  unfold op_all. ss_tac; apply ss_reads, reads_load_bool.
Qed.
End with_fops.
