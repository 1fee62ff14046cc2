(** Calls end, and how processing one node changes the graph. *)
From Verif.Spec Require Export Sized.
From Verif.Proofs Require Export Terminate.
From Verif.Model Require Export Api.

Section with_fops.
Context {fo : FOps}.
Notation any := (fun _ _ => True).

Definition nd {A} (m : E A) (P : A -> heap -> Prop) (h : heap) : Prop :=
  wp m (fun a h' => sized h' /\ P a h') (fun x h' => x <> ADiverge /\ sized h') h.
Lemma nd_bind {A B} (m : E A) (k : A -> E B) P P' h :
  nd m P h -> (forall a h', sized h' -> P a h' -> nd (k a) P' h') -> nd (bind m k) P' h.
Proof. intros Hm Hk. apply wp_bind. eapply wp_mono; [exact Hm| |done]. intros a h' [? ?]. by apply Hk. Qed.
Lemma nd_mono {A} (m : E A) (P P' : A -> heap -> Prop) h : nd m P h -> (forall a h', sized h' -> P a h' -> P' a h') -> nd m P' h.
Proof. intros Hm H. eapply wp_mono; [exact Hm| |done]. intros a h' [? ?]. auto. Qed.
Lemma nd_weak {A} (m : E A) (P : A -> heap -> Prop) h : nd m P h -> nd m any h.
Proof. intros H. by eapply nd_mono. Qed.
Lemma nd_ret {A} (a : A) (P : A -> heap -> Prop) h : sized h -> P a h -> nd (mret a) P h. Proof. done. Qed.
Lemma nd_ub {A} u (P : A -> heap -> Prop) h : sized h -> nd (mub u) P h. Proof. done. Qed.
Lemma nd_throw {A} u (P : A -> heap -> Prop) h : sized h -> nd (mthrow u) P h. Proof. done. Qed.
Lemma nd_reads {A} (m : E A) h : reads m -> nv m -> sized h -> nd m (fun _ h' => h' = h) h.
Proof.
  intros Hm Hv Hs. unfold nd, wp. specialize (Hv h). rewrite (reads_run m h Hm) in *. by destruct (m h).1.
Qed.
Lemma nd_read {A B} (m : E A) (k : A -> E B) P h : reads m -> nv m -> sized h ->
  (forall a, m h = (Ok a, h) -> nd (k a) P h) -> nd (bind m k) P h.
Proof.
  intros Hm Hv Hs Hk. unfold nd, wp, bind. specialize (Hv h). specialize (Hk).
  rewrite (reads_run m h Hm) in *. destruct (m h).1 as [a|?|?|]; try done. by apply Hk.
Qed.
Lemma nd_get {B} t (k : tensor -> E B) P h : sized h ->
  (forall r, h_ten h !! t = Some r -> nonneg (shape r) -> nd (k r) P h) -> nd (bind (get_ten t) k) P h.
Proof.
  intros Hs Hk. apply nd_read; [apply reads_get_ten|apply nv_get_ten|done|]. intros r [Hr _]%get_ten_inv.
  apply Hk; [done|by eapply Hs].
Qed.
Lemma nv_deref {A} (o : option A) : nv (deref o). Proof. by destruct o. Qed.
Lemma nd_deref {A B} (o : option A) (k : A -> E B) P h : sized h ->
  (forall a, o = Some a -> nd (k a) P h) -> nd (bind (deref o) k) P h.
Proof.
  intros Hs Hk. destruct o as [a|]; [|done]. apply nd_read; [apply reads_deref|apply nv_deref|done|].
  intros x [= <-]. by apply Hk.
Qed.
Lemma nd_expect {B} b (k : unit -> E B) P h : sized h -> (b = true -> nd (k tt) P h) -> nd (bind (run_expect b) k) P h.
Proof. intros Hs Hk. destruct b; [by apply Hk|done]. Qed.
Lemma nd_lift {A B} (o : outcome A) (k : A -> E B) P h : o <> Diverge -> sized h ->
  (forall a, o = Ok a -> nd (k a) P h) -> nd (bind (lift o) k) P h.
Proof. intros Ho Hs Hk. destruct o; try done. by apply Hk. Qed.
Lemma sized_same h h' : sized h -> h_ten h' = h_ten h -> sized h'.
Proof. intros H E t r. rewrite E. apply H. Qed.
Lemma nd_st {A} (m : E A) h : st m -> nv m -> sized h -> nd m (fun _ h' => h_ten h' = h_ten h /\ h_ver h' = h_ver h) h.
Proof.
  intros Hm Hv Hs. unfold nd, wp. specialize (Hv h). destruct (Hm h) as [H1 H2].
  pose proof (sized_same h (m h).2 Hs H1). by destruct (m h) as [[?|?|?|] h'].
Qed.
Lemma nd_kernel {A} (m : E A) h : st m -> nv m -> sized h -> nd m any h.
Proof. intros. eapply nd_weak, nd_st; done. Qed.
Lemma sized_new h h' r : sized h -> h_ten h' = h_ten h ++ [r] -> nonneg (shape r) -> sized h'.
Proof.
  intros H E Hr t x. rewrite E. intros [Hx|[Hl Hx]]%lookup_app_Some; [by eapply H|].
  destruct (t - length (h_ten h))%nat; [|done]. simpl in Hx. congruence.
Qed.
Definition fresh_ten (dt : dtype) (lay : layout) (t : nat) (h h' : heap) : Prop :=
  exists s, t = length (h_ten h) /\ h_ten h' = h_ten h ++ [Ten dt lay s None false false None] /\ h_ver h' = h_ver h.
Lemma nd_create dt lay b h : sized h -> nonneg (sizes lay) -> nd (create dt lay b) (fun t h' => fresh_ten dt lay t h h') h.
Proof.
  intros Hs Hl. unfold create.
  apply (nd_bind _ _ (fun _ h' => h' = h)).
  { destruct b; [|done]. apply nd_lift; [apply od_new_blob|done|]. done. }
  intros blob h1 Hs1 ->. unfold nd, wp, bind, new_sto, create_view, new_ten. simpl.
  split; [by eapply sized_new|]. by eexists.
Qed.
Lemma nd_create_view dt lay s h : sized h -> nonneg (sizes lay) -> nd (create_view dt lay s) (fun t h' => fresh_ten dt lay t h h') h.
Proof. intros Hs Hl. split; [by eapply sized_new|]. by eexists. Qed.
Lemma nd_new dt lay b h : sized h -> nonneg (sizes lay) -> nd (create dt lay b) any h.
Proof. intros. by eapply nd_weak, nd_create. Qed.
Lemma nd_new_view dt lay s h : sized h -> nonneg (sizes lay) -> nd (create_view dt lay s) any h.
Proof. intros. by eapply nd_weak, nd_create_view. Qed.
Lemma sized_set h t r : sized h -> nonneg (shape r) -> sized (Hp (h_sto h) (<[t := r]> (h_ten h)) (h_ver h)).
Proof.
  intros H Hr u x. simpl. intros [(_ & <- & _)|(_ & Hx)]%list_lookup_insert_Some; [done|by eapply H].
Qed.
Lemma nd_set t r h : sized h -> nonneg (shape r) -> nd (set_ten t r) any h.
Proof. intros. split; [by apply sized_set|done]. Qed.

Lemma nd_create_scalar dt v h : sized h -> nd (create_scalar dt v) any h.
Proof.
  intros Hs. eapply nd_bind; [apply nd_new; [done|constructor]|]. intros t h1 Hs1 _. apply nd_get; [done|]. intros r _ _.
  eapply nd_bind; [apply nd_kernel; [apply st_store|unfold store; nv_tac|done]|]. intros. by apply nd_ret.
Qed.
Lemma nd_track t k ins h : sized h -> nd (track t k ins) any h.
Proof. intros Hs. apply nd_get; [done|]. intros r _ Hr. by apply nd_set. Qed.
Lemma nd_fill_new ss dt tmp nt h : sized h -> nonneg ss -> nd (fill_new ss dt tmp nt) any h.
Proof.
  intros Hs Hss. eapply nd_bind; [by apply nd_new|]. intros t h1 Hs1 _. apply nd_get; [done|]. intros d _ Hd.
  apply nd_get; [done|]. intros n _ _.
  eapply nd_bind; [apply nd_kernel; [apply st_tensor_fill|by apply nv_tensor_fill|done]|]. intros. by apply nd_ret.
Qed.
Lemma nd_ones ss dt h : sized h -> nonneg ss -> nd (ones ss dt) any h.
Proof. intros. eapply nd_bind; [by apply nd_create_scalar|]. intros. by apply nd_fill_new. Qed.
Lemma nv_sto_zero s : nv (sto_zero s). Proof. unfold sto_zero. nv_tac. Qed.
Lemma nv_sto_alloc s : nv (sto_alloc s). Proof. unfold sto_alloc. nv_tac. Qed.
Lemma nd_zeros ss dt h : sized h -> nonneg ss -> nd (zeros ss dt) any h.
Proof.
  intros. eapply nd_bind; [by apply nd_new|]. intros t h1 Hs1 _. apply nd_get; [done|]. intros d _ Hd.
  eapply nd_bind; [apply nd_kernel; [apply st_sto_zero|apply nv_sto_zero|done]|]. intros. by apply nd_ret.
Qed.
Lemma nd_full_double ss x dt h : sized h -> nonneg ss -> nd (full_double ss x dt) any h.
Proof. intros. eapply nd_bind; [by apply nd_create_scalar|]. intros. by apply nd_fill_new. Qed.
Lemma nd_full_int ss x dt h : sized h -> nonneg ss -> nd (full_int ss x dt) any h.
Proof. intros. eapply nd_bind; [by apply nd_create_scalar|]. intros. by apply nd_fill_new. Qed.
Lemma nd_eye n m dt h : sized h -> nonneg [n; m] -> nd (eye n m dt) any h.
Proof.
  intros. eapply nd_bind; [by apply nd_new|]. intros t h1 Hs1 _. apply nd_get; [done|]. intros d _ Hd.
  eapply nd_bind; [apply nd_kernel; [apply st_sto_zero|apply nv_sto_zero|done]|]. intros ? h2 Hs2 _.
  eapply nd_bind; [apply nd_kernel; [apply st_tensor_eye|apply nv_tensor_eye|done]|]. intros. by apply nd_ret.
Qed.
Lemma nd_from_blob d ss dt h : sized h -> nonneg ss -> nd (from_blob d ss dt) any h.
Proof.
  intros. eapply nd_bind; [by apply nd_new|]. intros t h1 Hs1 _. apply nd_get; [done|]. intros r _ Hd.
  apply nd_read; [reads_tac|apply nv_get_sto|done|]. intros s _.
  eapply (nd_bind _ _ any). { destruct (sto_blob s) as [cs|]; [|done]. destruct (_ <? _); [done|]. by apply nd_kernel. }
  intros. by apply nd_ret.
Qed.
Lemma nd_binary kernel k l r o h : sized h ->
  (forall L R d l r, st (kernel L R d l r)) ->
  (forall L R d l r, nonneg (shape d) -> nonneg (shape l) -> nonneg (shape r) -> nv (kernel L R d l r)) ->
  nd (apply_binary_operator kernel k l r o) any h.
Proof.
  intros Hs Hst Hnv. eapply (nd_bind _ _ any).
  { apply nd_get; [done|]. intros lr _ Hl. apply nd_get; [done|]. intros rr _ Hr.
    apply nd_lift; [apply od_broadcast|done|]. intros rg Hrg%broadcast_nonneg; [|done..].
    eapply nd_bind; [by apply nd_new|]. intros t h1 Hs1 _. apply nd_get; [done|]. intros d _ Hd.
    eapply (nd_bind _ _ any); [|intros; by apply nd_ret]. repeat case_match; apply nd_kernel; auto. }
  intros t h1 Hs1 _. apply nd_get; [done|]. intros lr _ _. apply nd_get; [done|]. intros rr _ _.
  case_match; [done|]. eapply nd_bind; [by apply nd_track|]. intros. by apply nd_ret.
Qed.
Lemma nd_op_sub a b h : sized h -> nd (op_sub a b) any h.
Proof. intros. apply nd_binary; auto using st_tensor_sub, nv_tensor_sub. Qed.
Lemma nd_op_cmp c a b h : sized h -> nd (op_cmp c a b) any h.
Proof.
  intros Hs. apply nd_get; [done|]. intros lr _ Hl. apply nd_get; [done|]. intros rr _ Hr.
  apply nd_lift; [apply od_broadcast|done|]. intros rg Hrg%broadcast_nonneg; [|done..].
  eapply nd_bind; [by apply nd_new|]. intros t h1 Hs1 _. apply nd_get; [done|]. intros d _ Hd.
  eapply nd_bind; [apply nd_kernel; [apply st_tensor_cmp|by apply nv_tensor_cmp|done]|]. intros. by apply nd_ret.
Qed.
Lemma nd_addeq a b h : sized h -> nd (op_addeq a b) (fun _ h' => h_ten h' = h_ten h /\ h_ver h' = h_ver h) h.
Proof.
  intros Hs. apply nd_get; [done|]. intros lr _ Hl. apply nd_get; [done|]. intros rr _ Hr.
  apply nd_expect; [done|]. intros _. apply nd_st; [apply st_tensor_add|by apply nv_tensor_add|done].
Qed.
Lemma nd_to_dtype t dt h : sized h -> nd (to_dtype t dt) any h.
Proof.
  intros Hs. apply nd_get; [done|]. intros r _ Hr. case_match; [done|]. case_match; [done|].
  eapply nd_bind; [by apply nd_new|]. intros u h1 Hs1 _. apply nd_get; [done|]. intros d _ Hd.
  eapply nd_bind; [apply nd_kernel; [apply st_tensor_to_type|by apply nv_to_type|done]|]. intros ? h2 Hs2 _.
  case_match; [done|]. eapply nd_bind; [by apply nd_track|]. intros. by apply nd_ret.
Qed.
Lemma nd_op_clone t h : sized h -> nd (op_clone t) any h.
Proof.
  intros Hs. apply nd_get; [done|]. intros r _ Hr.
  eapply nd_bind; [by apply nd_new|]. intros u h1 Hs1 _. apply nd_get; [done|]. intros d _ Hd.
  eapply nd_bind; [apply nd_kernel; [apply st_tensor_clone|by apply nv_clone|done]|]. intros ? h2 Hs2 _.
  case_match; [done|]. eapply nd_bind; [by apply nd_track|]. intros. by apply nd_ret.
Qed.
Lemma nd_op_sum t h : sized h -> nd (op_sum t) any h.
Proof.
  intros Hs. apply nd_get; [done|]. intros r _ Hr.
  eapply nd_bind; [apply nd_zeros; [done|constructor]|]. intros u h1 Hs1 _. apply nd_get; [done|]. intros d _ Hd.
  eapply nd_bind; [apply nd_kernel; [apply st_tensor_sum|by apply nv_sum|done]|]. intros ? h2 Hs2 _.
  eapply (nd_bind _ _ any); [case_match; [by apply nd_track|done]|]. intros. by apply nd_ret.
Qed.
Lemma nd_op_mean t h : sized h -> nd (op_mean t) any h.
Proof.
  intros Hs. apply nd_get; [done|]. intros r _ Hr.
  eapply nd_bind; [apply nd_zeros; [done|constructor]|]. intros u h1 Hs1 _. apply nd_get; [done|]. intros d _ Hd.
  eapply nd_bind; [apply nd_kernel; [apply st_tensor_mean|by apply nv_mean|done]|]. intros ? h2 Hs2 _.
  eapply (nd_bind _ _ any); [case_match; [by apply nd_track|done]|]. intros. by apply nd_ret.
Qed.
Lemma nd_op_abs t h : sized h -> nd (op_abs t) any h.
Proof.
  intros Hs. apply nd_get; [done|]. intros r _ Hr.
  eapply nd_bind; [by apply nd_new|]. intros u h1 Hs1 _. apply nd_get; [done|]. intros d _ Hd. case_match.
  - eapply nd_bind; [apply nd_kernel; [apply st_tensor_abs|by apply nv_abs|done]|]. intros. by apply nd_ret.
  - eapply nd_bind; [by apply nd_new|]. intros g h2 Hs2 _. apply nd_get; [done|]. intros gr _ _.
    eapply nd_bind; [apply nd_kernel; [apply st_tensor_abs|by apply nv_abs|done]|]. intros ? h3 Hs3 _.
    eapply nd_bind; [by apply nd_track|]. intros. by apply nd_ret.
Qed.
Lemma nd_op_extremum c t h : sized h -> nd (op_extremum c t) any h.
Proof.
  intros Hs. apply nd_get; [done|]. intros r _ Hr.
  eapply nd_bind; [apply nd_zeros; [done|constructor]|]. intros u h1 Hs1 _. apply nd_get; [done|]. intros d _ Hd. case_match.
  - eapply nd_bind; [apply nd_kernel; [apply st_tensor_extremum|by apply nv_extremum|done]|]. intros. by apply nd_ret.
  - eapply (nd_bind _ _ any). { apply nd_get; [done|]. intros r' _ Hr'. by apply nd_zeros. }
    intros g h2 Hs2 _. apply nd_get; [done|]. intros gr _ _.
    eapply nd_bind; [apply nd_kernel; [apply st_tensor_extremum|by apply nv_extremum|done]|]. intros ? h3 Hs3 _.
    eapply nd_bind; [by apply nd_track|]. intros. by apply nd_ret.
Qed.
Lemma nd_share a b h : sized h -> nd (share_grad_storage a b) any h.
Proof.
  intros Hs. apply nd_get; [done|]. intros f _ Hf. eapply (nd_bind _ _ any).
  { case_match; [done|]. eapply nd_bind; [by apply nd_new|]. intros g h1 Hs1 _. by apply nd_set. }
  intros ? h1 Hs1 _. apply nd_get; [done|]. intros f' _ Hf'. case_match; [|done].
  apply nd_get; [done|]. intros fg _ _. apply nd_get; [done|]. intros x _ Hx.
  eapply nd_bind; [by apply nd_new_view|]. intros g h2 Hs2 _. apply nd_get; [done|]. intros y _ Hy. by apply nd_set.
Qed.
Lemma nd_finish_view a b h : sized h -> nd (finish_view a b) any h.
Proof.
  intros Hs. apply nd_get; [done|]. intros f _ Hf. case_match; [done|].
  eapply nd_bind; [by apply nd_track|]. intros ? h1 Hs1 _. eapply nd_bind; [by apply nd_share|]. intros. by apply nd_ret.
Qed.
Lemma nd_slice t s h : sized h -> nd (op_slice t s) any h.
Proof.
  intros Hs. apply nd_get; [done|]. intros r _ Hr. apply nd_lift; [apply od_slice_layout|done|].
  intros l Hl%slice_layout_nonneg. eapply nd_bind; [by apply nd_new_view|]. intros. by apply nd_finish_view.
Qed.
Lemma nd_transpose t i j h : sized h -> nd (op_transpose t i j) any h.
Proof.
  intros Hs. apply nd_get; [done|]. intros r _ Hr. apply nd_expect; [done|]. intros _. apply nd_expect; [done|]. intros _.
  eapply nd_bind; [apply nd_new_view; [done|by apply swap_nonneg]|]. intros. by apply nd_finish_view.
Qed.
Lemma nd_reshape_sv t ss h : sized h -> nonneg ss -> nd (op_reshape_sv t ss) any h.
Proof.
  intros Hs Hss. apply nd_get; [done|]. intros r _ Hr. cbv zeta. apply nd_expect; [done|]. intros _.
  eapply (nd_bind _ _ any).
  { case_match; [|done]. eapply nd_bind; [by apply nd_new_view|]. intros u h1 Hs1 _. case_match; [done|].
    eapply nd_bind; [by apply nd_track|]. intros ? h2 Hs2 _. eapply nd_bind; [by apply nd_share|]. intros. by apply nd_ret. }
  intros [tf|] h1 Hs1 _; [done|].
  eapply (nd_bind _ _ any); [by case_match|]. intros ? h2 Hs2 _.
  apply nd_lift; [apply od_isometry|done|]. intros iso _. eapply (nd_bind _ _ any).
  { destruct iso.
    - eapply (nd_bind _ _ any); [by repeat case_match|]. intros sts h3 Hs3 _.
      eapply nd_bind; [by apply nd_new_view|]. intros. by apply nd_ret.
    - eapply nd_bind; [by apply nd_op_clone|]. intros m h3 Hs3 _. apply nd_get; [done|]. intros mr _ _.
      eapply nd_bind; [by apply nd_new_view|]. intros. by apply nd_ret. }
  intros [tf ln] h3 Hs3 _. apply nd_get; [done|]. intros i _ _. case_match; [done|].
  eapply nd_bind; [by apply nd_track|]. intros ? h4 Hs4 _. eapply nd_bind; [by apply nd_share|]. intros. by apply nd_ret.
Qed.
Lemma nd_get_all ts h : sized h -> nd (get_all ts) (fun rs h' => h' = h /\ Forall (fun r => nonneg (shape r)) rs) h.
Proof.
  revert h. induction ts as [|t ts IH]; intros h Hs; [done|]. cbn [get_all]. apply nd_get; [done|]. intros r _ Hr.
  eapply nd_bind; [by apply IH|]. intros rs h1 Hs1 [-> Hrs]. apply nd_ret; [done|]. split; [done|]. by constructor.
Qed.
Lemma nd_cat_copy dt dim d ts : forall s h, sized h -> Forall (fun r => nonneg (shape r)) ts -> nd (cat_copy dt dim d ts s) any h.
Proof.
  induction ts as [|t ts IH]; intros s h Hs Hts; [done|]. cbn [cat_copy]. apply Forall_cons in Hts as [Ht Hts].
  eapply nd_bind; [apply nd_kernel; [apply st_tensor_cat|by apply nv_tensor_cat|done]|]. intros. by apply IH.
Qed.
Lemma nd_cat ts dim h : sized h -> nd (op_cat ts dim) any h.
Proof.
  intros Hs. eapply nd_bind; [by apply nd_get_all|]. intros rs h1 Hs1 [-> Hrs]. destruct rs as [|r0 rest]; [done|].
  cbv zeta. apply nd_expect; [done|]. intros _. apply nd_expect; [done|]. intros _.
  pose proof Hrs as [Hr0 _]%Forall_cons.
  eapply nd_bind. { apply nd_new; [done|]. cbn [sizes contig]. apply insert_nonneg; [|done].
    cbn [fold_left]. assert (forall l z, 0 <= z -> 0 <= fold_left (fun n r => u64 (n + nth (Z.to_nat dim) (sizes (t_lay r)) 0)) l z) as H.
    { induction l as [|x l IH]; intros z Hz; [done|]. apply IH, u64_nonneg. }
    apply H, u64_nonneg. }
  intros u h2 Hs2 _. apply nd_get; [done|]. intros dr _ _.
  eapply nd_bind; [by apply nd_cat_copy|]. intros ? h3 Hs3 _. case_match; [|done].
  eapply nd_bind; [by apply nd_track|]. intros. by apply nd_ret.
Qed.
Lemma nd_all t h : sized h -> nd (op_all t) any h.
Proof.
  intros Hs. apply nd_get; [done|]. intros r _ Hr. cbv zeta.
  assert (forall p, nv (load_bool_byte (t_sto r) p)) as Hl.
  { intros p. unfold load_bool_byte. nv_tac. }
  assert (forall p, reads (load_bool_byte (t_sto r) p)) as Hl'.
  { intros p. unfold load_bool_byte. reads_tac. }
  destruct (existsb (Z.eqb 0) (sizes (t_lay r))) eqn:E0; [done|]. unfold shape in Hr.
  destruct (sizes (t_lay r)) as [|n ss].
  - apply nd_kernel; [apply st_bind; [apply st_idx_exact|intros; apply st_reads, Hl']| |done].
    apply nv_bind; [apply nv_lift, od_cnt|intros; apply Hl].
  - eapply (nd_bind _ _ any); [|intros; by apply nd_ret]. apply nd_kernel; [| |done].
    + apply st_odometer. intros sv. apply st_bind; [apply st_idx_exact|]. intros p.
      apply st_bind; [apply st_reads, Hl'|]. intros. apply st_ret.
    + apply nv_odometer; [done..|]. intros sv. apply nv_bind; [apply nv_lift, od_cnt|]. intros p. by apply nv_bind.
Qed.
Lemma nv_randn_write dt s i x : nv (randn_write dt s i x). Proof. unfold randn_write. nv_tac. Qed.
Lemma st_randn_write dt s i x : st (randn_write dt s i x). Proof. unfold randn_write. repeat first [apply st_store | apply st_bind; [apply st_get_sto|intros ?] | case_match]; done. Qed.
Lemma nd_randn ss dt xs h : sized h -> nonneg ss -> nd (op_randn ss dt xs) any h.
Proof.
  intros Hs Hss. apply nd_expect; [done|]. intros _. eapply nd_bind; [by apply nd_new|]. intros u h1 Hs1 _.
  apply nd_get; [done|]. intros d _ _.
  eapply (nd_bind _ _ any); [|intros; by apply nd_ret]. apply nd_kernel; [| |done].
  - apply st_mapM. intros. apply st_randn_write.
  - apply nv_mapM. intros. apply nv_randn_write.
Qed.
Lemma nd_create_impl s h : sized h -> nonneg (sp_shape s) -> nd (create_impl s) any h.
Proof.
  intros Hs Hss. unfold create_impl. destruct (sp_shape s) as [|n ss]; [done|].
  apply nd_lift; [by case_match|done|]. intros dt _. eapply nd_bind; [by apply nd_new|]. intros u h1 Hs1 _.
  apply nd_get; [done|]. intros d _ _. apply nd_read; [reads_tac|apply nv_get_sto|done|]. intros x _.
  eapply (nd_bind _ _ any); [by apply nd_kernel|]. intros. by apply nd_ret.
Qed.
Lemma nv_collect {A} l (f : Z -> E A) : (forall i, nv (f i)) -> nv (collect l f).
Proof.
  intros Hf. induction l as [|i l IH]; [done|]. cbn [collect]. apply nv_bind; [done|]. intros x.
  apply nv_bind; [done|]. intros. apply nv_ret.
Qed.
Lemma nv_to_string dt s ss : forall sts off, nv (to_string_helper dt s ss sts off).
Proof.
  induction ss as [|n ss IH]; intros sts off; cbn [to_string_helper].
  - apply nv_bind; [|intros; apply nv_ret]. unfold load_byte_off. nv_tac.
  - destruct sts as [|st sts]; [by case_match|]. apply nv_bind; [|intros; apply nv_ret]. by apply nv_collect.
Qed.
Lemma nd_impl_to_string t h : sized h -> nd (impl_to_string t) any h.
Proof.
  intros Hs. apply nd_get; [done|]. intros r _ _. eapply nd_weak, nd_reads; [|apply nv_to_string|done].
  apply reads_to_string.
Qed.
End with_fops.
