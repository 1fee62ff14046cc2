(** Calls other than backward leave the counters of existing graph nodes alone, and the
    nodes they make start with all counters 0. *)
From Verif.Proofs Require Export Terminate2.
From Verif.Model Require Export Api.

Section with_fops.
Context {fo : FOps}.
Notation any := (fun _ _ => True).
Definition zero_counters (f : gradfn) : Prop := gf_nout f = 0 /\ gf_acc f = 0 /\ gf_ver f = 0.
Definition fnk (h h' : heap) : Prop :=
  h_ver h' = h_ver h /\
  forall t r' f, h_ten h' !! t = Some r' -> t_fn r' = Some f ->
    zero_counters f /\ t_rg r' = true \/ exists r, h_ten h !! t = Some r /\ t_fn r = Some f /\ (t_rg r = true -> t_rg r' = true).
Lemma fnk_refl h : fnk h h.
Proof. split; [done|]. intros t r f Hr Hf. right. by exists r. Qed.
Lemma fnk_trans h1 h2 h3 : fnk h1 h2 -> fnk h2 h3 -> fnk h1 h3.
Proof.
  intros [V1 K1] [V2 K2]. split; [congruence|]. intros t r f Hr Hf.
  destruct (K2 t r f Hr Hf) as [?|(r2 & Hr2 & Hf2 & G2)]; [by left|].
  destruct (K1 t r2 f Hr2 Hf2) as [[? ?]|(r1 & Hr1 & Hf1 & G1)]; [left; auto|right; exists r1; auto].
Qed.
Lemma fnk_same h h' : h_ten h' = h_ten h -> h_ver h' = h_ver h -> fnk h h'.
Proof. intros E V. split; [done|]. intros t r f Hr Hf. right. exists r. by rewrite <- E. Qed.
Lemma fnk_app h h' r : h_ten h' = h_ten h ++ [r] -> h_ver h' = h_ver h -> t_fn r = None -> fnk h h'.
Proof.
  intros E V Hn. split; [done|]. intros t x f. rewrite E. intros [Hx|[Hl Hx]]%lookup_app_Some Hf; [right; by exists x|].
  destruct (t - length (h_ten h))%nat; [|done]. simpl in Hx. congruence.
Qed.
Lemma fnk_set h t r r' : h_ten h !! t = Some r ->
  (t_fn r' = t_fn r /\ (t_rg r = true -> t_rg r' = true)) \/ (exists f, t_fn r' = Some f /\ zero_counters f /\ t_rg r' = true) ->
  fnk h (Hp (h_sto h) (<[t := r']> (h_ten h)) (h_ver h)).
Proof.
  intros Ht Hr. split; [done|]. intros u x f. simpl. intros [(<- & <- & _)|(_ & Hx)]%list_lookup_insert_Some Hf.
  - destruct Hr as [[E G]|(f' & E & Hz & G)]; [right; exists r; split; [done|]; split; [congruence|done]|left]. split; [congruence|done].
  - right. by exists x.
Qed.
Definition fk {A} (m : E A) (P : A -> heap -> Prop) (h : heap) : Prop :=
  wp m (fun a h' => fnk h h' /\ P a h') (fun _ h' => fnk h h') h.
Lemma fk_bind {A B} (m : E A) (k : A -> E B) P P' h :
  fk m P h -> (forall a h', fnk h h' -> P a h' -> fk (k a) P' h') -> fk (bind m k) P' h.
Proof.
  intros Hm Hk. apply wp_bind. eapply wp_mono; [exact Hm| |done]. intros a h' [H1 H2].
  eapply wp_mono; [by apply Hk| |].
  - intros b h'' [H3 H4]. split; [by eapply fnk_trans|done].
  - intros ? h'' H3. by eapply fnk_trans.
Qed.
Lemma fk_mono {A} (m : E A) (P P' : A -> heap -> Prop) h : fk m P h -> (forall a h', P a h' -> P' a h') -> fk m P' h.
Proof. intros Hm H. eapply wp_mono; [exact Hm| |done]. intros a h' [? ?]. auto. Qed.
Lemma fk_any {A} (m : E A) (P : A -> heap -> Prop) h : fk m P h -> fk m any h.
Proof. intros H. by eapply fk_mono. Qed.
Lemma fk_ret {A} (a : A) (P : A -> heap -> Prop) h : P a h -> fk (mret a) P h.
Proof. intros. split; [apply fnk_refl|done]. Qed.
Lemma fk_ub {A} u (P : A -> heap -> Prop) h : fk (mub u) P h. Proof. apply fnk_refl. Qed.
Lemma fk_throw {A} u (P : A -> heap -> Prop) h : fk (mthrow u) P h. Proof. apply fnk_refl. Qed.
Lemma fk_st {A} (m : E A) h : st m -> fk m (fun _ h' => h_ten h' = h_ten h) h.
Proof.
  intros Hm. unfold fk, wp. destruct (Hm h) as [H1 H2]. pose proof (fnk_same h (m h).2 H1 H2).
  by destruct (m h) as [[?|?|?|] ?].
Qed.
Lemma fk_sta {A} (m : E A) h : st m -> fk m any h.
Proof. intros. by eapply fk_any, fk_st. Qed.
Lemma fk_read {A B} (m : E A) (k : A -> E B) P h : reads m ->
  (forall a, m h = (Ok a, h) -> fk (k a) P h) -> fk (bind m k) P h.
Proof.
  intros Hm Hk. unfold fk, wp, bind. rewrite (reads_run m h Hm) in *.
  destruct (m h).1 as [a|?|?|]; try apply fnk_refl. by apply Hk.
Qed.
Lemma fk_get {B} t (k : tensor -> E B) P h : (forall r, h_ten h !! t = Some r -> fk (k r) P h) -> fk (bind (get_ten t) k) P h.
Proof. intros Hk. apply fk_read; [apply reads_get_ten|]. intros r [Hr _]%get_ten_inv. by apply Hk. Qed.
Lemma fk_deref {A B} (o : option A) (k : A -> E B) P h : (forall a, o = Some a -> fk (k a) P h) -> fk (bind (deref o) k) P h.
Proof. intros Hk. destruct o as [a|]; [by apply Hk|apply fk_ub]. Qed.
Lemma fk_expect {B} b (k : unit -> E B) P h : fk (k tt) P h -> fk (bind (run_expect b) k) P h.
Proof. intros Hk. destruct b; [done|apply fk_throw]. Qed.
Lemma fk_lift {A B} (o : outcome A) (k : A -> E B) P h : (forall a, o = Ok a -> fk (k a) P h) -> fk (bind (lift o) k) P h.
Proof. intros Hk. destruct o; try apply fnk_refl. by apply Hk. Qed.
Lemma fk_set t r r' h : h_ten h !! t = Some r ->
  (t_fn r' = t_fn r /\ (t_rg r = true -> t_rg r' = true)) \/ (exists f, t_fn r' = Some f /\ zero_counters f /\ t_rg r' = true) ->
  fk (set_ten t r') any h.
Proof. intros. split; [by eapply fnk_set|done]. Qed.
Lemma fk_create_view dt lay s h : fk (create_view dt lay s) (fun t h' => fresh_ten dt lay t h h') h.
Proof. split; [by eapply fnk_app|]. by eexists. Qed.
Lemma fk_create dt lay b h : fk (create dt lay b) (fun t h' => fresh_ten dt lay t h h') h.
Proof.
  unfold create. apply (fk_bind _ _ (fun _ h' => h' = h)).
  { destruct b; [|by apply fk_ret]. apply fk_lift. intros. by apply fk_ret. }
  intros blob h1 _ ->. split; [by eapply fnk_app|]. by eexists.
Qed.
Lemma fk_new_view dt lay s h : fk (create_view dt lay s) any h. Proof. eapply fk_any, fk_create_view. Qed.
Lemma fk_new dt lay b h : fk (create dt lay b) any h. Proof. eapply fk_any, fk_create. Qed.
Lemma fk_create_scalar dt v h : fk (create_scalar dt v) any h.
Proof.
  eapply fk_bind; [apply fk_new|]. intros t h1 _ _. apply fk_get. intros r _.
  eapply fk_bind; [apply fk_sta, st_store|]. intros. by apply fk_ret.
Qed.
Lemma fk_track t k ins h : fk (track t k ins) any h.
Proof. apply fk_get. intros r Hr. eapply fk_set; [done|]. right. by eexists. Qed.
Lemma fk_track_ret {A} (a : A) t k ins h : fk (track t k ins ;;; mret a) any h.
Proof. eapply fk_bind; [apply fk_track|]. intros. by apply fk_ret. Qed.
Lemma fk_fill_new ss dt tmp nt h : fk (fill_new ss dt tmp nt) any h.
Proof.
  eapply fk_bind; [apply fk_new|]. intros t h1 _ _. apply fk_get. intros d _. apply fk_get. intros n _.
  eapply fk_bind; [apply fk_sta, st_tensor_fill|]. intros. by apply fk_ret.
Qed.
Lemma fk_ones ss dt h : fk (ones ss dt) any h.
Proof. eapply fk_bind; [apply fk_create_scalar|]. intros. apply fk_fill_new. Qed.
Lemma fk_zeros ss dt h : fk (zeros ss dt) any h.
Proof.
  eapply fk_bind; [apply fk_new|]. intros t h1 _ _. apply fk_get. intros d _.
  eapply fk_bind; [apply fk_sta, st_sto_zero|]. intros. by apply fk_ret.
Qed.
Lemma fk_full_double ss x dt h : fk (full_double ss x dt) any h.
Proof. eapply fk_bind; [apply fk_create_scalar|]. intros. apply fk_fill_new. Qed.
Lemma fk_full_int ss x dt h : fk (full_int ss x dt) any h.
Proof. eapply fk_bind; [apply fk_create_scalar|]. intros. apply fk_fill_new. Qed.
Lemma fk_eye n m dt h : fk (eye n m dt) any h.
Proof.
  eapply fk_bind; [apply fk_new|]. intros t h1 _ _. apply fk_get. intros d _.
  eapply fk_bind; [apply fk_sta, st_sto_zero|]. intros ? h2 _ _.
  eapply fk_bind; [apply fk_sta, st_tensor_eye|]. intros. by apply fk_ret.
Qed.
Lemma fk_from_blob d ss dt h : fk (from_blob d ss dt) any h.
Proof.
  eapply fk_bind; [apply fk_new|]. intros t h1 _ _. apply fk_get. intros r _. apply fk_read; [reads_tac|]. intros s _.
  eapply (fk_bind _ _ any). { destruct (sto_blob s) as [cs|]; [|apply fk_ub]. destruct (_ <? _); [apply fk_ub|]. by apply fk_sta. }
  intros. by apply fk_ret.
Qed.
Lemma fk_binary kernel k l r o h : (forall L R d l r, st (kernel L R d l r)) -> fk (apply_binary_operator kernel k l r o) any h.
Proof.
  intros Hst. eapply (fk_bind _ _ any).
  { apply fk_get. intros lr _. apply fk_get. intros rr _. apply fk_lift. intros rg _.
    eapply fk_bind; [apply fk_new|]. intros t h1 _ _. apply fk_get. intros d _.
    eapply (fk_bind _ _ any); [|intros; by apply fk_ret]. repeat case_match; by apply fk_sta. }
  intros t h1 _ _. apply fk_get. intros lr _. apply fk_get. intros rr _.
  case_match; [by apply fk_ret|]. apply fk_track_ret.
Qed.
Lemma fk_op_cmp c a b h : fk (op_cmp c a b) any h.
Proof.
  apply fk_get. intros lr _. apply fk_get. intros rr _. apply fk_lift. intros rg _.
  eapply fk_bind; [apply fk_new|]. intros t h1 _ _. apply fk_get. intros d _.
  eapply fk_bind; [apply fk_sta, st_tensor_cmp|]. intros. by apply fk_ret.
Qed.
Lemma fk_addeq a b h : fk (op_addeq a b) any h.
Proof. apply fk_get. intros lr _. apply fk_get. intros rr _. apply fk_expect. apply fk_sta, st_tensor_add. Qed.
Lemma fk_to_dtype t dt h : fk (to_dtype t dt) any h.
Proof.
  apply fk_get. intros r _. case_match; [apply fk_throw|]. case_match; [by apply fk_ret|].
  eapply fk_bind; [apply fk_new|]. intros u h1 _ _. apply fk_get. intros d _.
  eapply fk_bind; [apply fk_sta, st_tensor_to_type|]. intros ? h2 _ _. case_match; [by apply fk_ret|]. apply fk_track_ret.
Qed.
Lemma fk_op_clone t h : fk (op_clone t) any h.
Proof.
  apply fk_get. intros r _. eapply fk_bind; [apply fk_new|]. intros u h1 _ _. apply fk_get. intros d _.
  eapply fk_bind; [apply fk_sta, st_tensor_clone|]. intros ? h2 _ _. case_match; [by apply fk_ret|]. apply fk_track_ret.
Qed.
Lemma fk_op_sum t h : fk (op_sum t) any h.
Proof.
  apply fk_get. intros r _. eapply fk_bind; [apply fk_zeros|]. intros u h1 _ _. apply fk_get. intros d _.
  eapply fk_bind; [apply fk_sta, st_tensor_sum|]. intros ? h2 _ _.
  eapply (fk_bind _ _ any); [case_match; [apply fk_track|by apply fk_ret]|]. intros. by apply fk_ret.
Qed.
Lemma fk_op_mean t h : fk (op_mean t) any h.
Proof.
  apply fk_get. intros r _. eapply fk_bind; [apply fk_zeros|]. intros u h1 _ _. apply fk_get. intros d _.
  eapply fk_bind; [apply fk_sta, st_tensor_mean|]. intros ? h2 _ _.
  eapply (fk_bind _ _ any); [case_match; [apply fk_track|by apply fk_ret]|]. intros. by apply fk_ret.
Qed.
Lemma fk_op_abs t h : fk (op_abs t) any h.
Proof.
  apply fk_get. intros r _. eapply fk_bind; [apply fk_new|]. intros u h1 _ _. apply fk_get. intros d _. case_match.
  - eapply fk_bind; [apply fk_sta, st_tensor_abs|]. intros. by apply fk_ret.
  - eapply fk_bind; [apply fk_new|]. intros g h2 _ _. apply fk_get. intros gr _.
    eapply fk_bind; [apply fk_sta, st_tensor_abs|]. intros ? h3 _ _. apply fk_track_ret.
Qed.
Lemma fk_op_extremum c t h : fk (op_extremum c t) any h.
Proof.
  apply fk_get. intros r _. eapply fk_bind; [apply fk_zeros|]. intros u h1 _ _. apply fk_get. intros d _. case_match.
  - eapply fk_bind; [apply fk_sta, st_tensor_extremum|]. intros. by apply fk_ret.
  - eapply (fk_bind _ _ any). { apply fk_get. intros. apply fk_zeros. } intros g h2 _ _. apply fk_get. intros gr _.
    eapply fk_bind; [apply fk_sta, st_tensor_extremum|]. intros ? h3 _ _. apply fk_track_ret.
Qed.
Lemma fk_share a b h : fk (share_grad_storage a b) any h.
Proof.
  apply fk_get. intros f Hf. eapply (fk_bind _ _ any).
  { case_match; [by apply fk_ret|]. eapply fk_bind; [apply fk_create|]. intros g h1 _ (s & _ & E & _).
    eapply (fk_set _ f); [|by left]. rewrite E. by apply lookup_app_l_Some. }
  intros ? h1 _ _. apply fk_get. intros f' _. case_match; [|apply fk_ub]. apply fk_get. intros fg _. apply fk_get. intros x _.
  eapply fk_bind; [apply fk_new_view|]. intros g h2 _ _. apply fk_get. intros y Hy. eapply fk_set; [done|by left].
Qed.
Lemma fk_finish_view a b h : fk (finish_view a b) any h.
Proof.
  apply fk_get. intros f _. case_match; [by apply fk_ret|].
  eapply fk_bind; [apply fk_track|]. intros ? h1 _ _. eapply fk_bind; [apply fk_share|]. intros. by apply fk_ret.
Qed.
Lemma fk_slice t s h : fk (op_slice t s) any h.
Proof. apply fk_get. intros r _. apply fk_lift. intros l _. eapply fk_bind; [apply fk_new_view|]. intros. apply fk_finish_view. Qed.
Lemma fk_transpose t i j h : fk (op_transpose t i j) any h.
Proof. apply fk_get. intros r _. do 2 apply fk_expect. eapply fk_bind; [apply fk_new_view|]. intros. apply fk_finish_view. Qed.
Lemma fk_reshape_sv t ss h : fk (op_reshape_sv t ss) any h.
Proof.
  apply fk_get. intros r _. cbv zeta. apply fk_expect. eapply (fk_bind _ _ any).
  { case_match; [|by apply fk_ret]. eapply fk_bind; [apply fk_new_view|]. intros u h1 _ _. case_match; [by apply fk_ret|].
    eapply fk_bind; [apply fk_track|]. intros ? h2 _ _. eapply fk_bind; [apply fk_share|]. intros. by apply fk_ret. }
  intros [tf|] h1 _ _; [by apply fk_ret|].
  eapply (fk_bind _ _ any); [case_match; [apply fk_ub|by apply fk_ret]|]. intros ? h2 _ _.
  apply fk_lift. intros iso _. eapply (fk_bind _ _ any).
  { destruct iso.
    - eapply (fk_bind _ _ any); [repeat case_match; first [by apply fk_ret|apply fk_ub]|]. intros sts h3 _ _.
      eapply fk_bind; [apply fk_new_view|]. intros. by apply fk_ret.
    - eapply fk_bind; [apply fk_op_clone|]. intros m h3 _ _. apply fk_get. intros mr _.
      eapply fk_bind; [apply fk_new_view|]. intros. by apply fk_ret. }
  intros [tf ln] h3 _ _. apply fk_get. intros i _. case_match; [by apply fk_ret|].
  eapply fk_bind; [apply fk_track|]. intros ? h4 _ _. eapply fk_bind; [apply fk_share|]. intros. by apply fk_ret.
Qed.
Lemma st_cat_copy dt dim d ts : forall s, st (cat_copy dt dim d ts s).
Proof. induction ts as [|t ts IH]; intros s; [apply st_ret|]. cbn [cat_copy]. apply st_bind; [apply st_tensor_cat|]. intros. apply IH. Qed.
Lemma fk_cat ts dim h : fk (op_cat ts dim) any h.
Proof.
  apply fk_read; [apply reads_get_all|]. intros rs _. destruct rs as [|r0 rest]; [apply fk_ub|].
  cbv zeta. do 2 apply fk_expect. eapply fk_bind; [apply fk_new|]. intros u h2 _ _. apply fk_get. intros dr _.
  eapply fk_bind; [apply fk_sta, st_cat_copy|]. intros ? h3 _ _. case_match; [|by apply fk_ret]. apply fk_track_ret.
Qed.
Lemma fk_randn ss dt xs h : fk (op_randn ss dt xs) any h.
Proof.
  apply fk_expect. eapply fk_bind; [apply fk_new|]. intros u h1 _ _. apply fk_get. intros d _.
  eapply (fk_bind _ _ any); [|intros; by apply fk_ret]. apply fk_sta, st_mapM. intros. apply st_randn_write.
Qed.
Lemma fk_create_impl s h : fk (create_impl s) any h.
Proof.
  unfold create_impl. destruct (sp_shape s) as [|n ss]; [by apply fk_ret|].
  apply fk_lift. intros dt _. eapply fk_bind; [apply fk_new|]. intros u h1 _ _.
  apply fk_get. intros d _. apply fk_read; [reads_tac|]. intros x _.
  eapply (fk_bind _ _ any); [by apply fk_sta|]. intros. by apply fk_ret.
Qed.
Lemma fk_new_handle m h : fk m any h -> fk (new_handle m) any h.
Proof. intros H. eapply fk_bind; [done|]. intros. by apply fk_ret. Qed.
Lemma fk_un a f h : (forall x, fk (f x) any h) -> fk (un a f) any h.
Proof. intros H. apply fk_deref. intros x _. by apply fk_new_handle. Qed.
Lemma fk_bin a b f h : (forall x y, fk (f x y) any h) -> fk (bin a b f) any h.
Proof. intros H. apply fk_deref. intros x _. apply fk_deref. intros y _. by apply fk_new_handle. Qed.
Lemma fk_query a f h : fk (query a f) any h.
Proof. apply fk_deref. intros x _. apply fk_get. intros. by apply fk_ret. Qed.
Lemma fk_no_result m h : fk m any h -> fk (no_result m) any h.
Proof. intros H. eapply fk_bind; [done|]. intros. by apply fk_ret. Qed.
Lemma fk_exec o h : (forall t, o <> OBackward t) -> (forall t, o <> ORequires t false) -> fk (exec o) any h.
Proof.
  intros Hb Hq. destruct o; cbn [exec]; try (apply fk_query); try (apply fk_un; intros); try (apply fk_bin; intros);
    try (apply fk_new_handle); try by (apply fk_binary; auto using st_tensor_add, st_tensor_sub, st_tensor_mul, st_tensor_div).
  - apply fk_create_scalar.
  - apply fk_new.
  - apply fk_lift. intros s _. eapply fk_bind; [apply fk_create_impl|]. intros. by apply fk_ret.
  - apply fk_zeros.
  - apply fk_ones.
  - apply fk_get. intros. apply fk_zeros.
  - apply fk_get. intros. apply fk_ones.
  - apply fk_full_int.
  - apply fk_full_double.
  - apply fk_eye.
  - apply fk_from_blob.
  - apply fk_randn.
  - apply fk_get. intros. apply fk_randn.
  - by apply fk_ret.
  - eapply fk_bind; [apply fk_create_scalar|]. intros. apply fk_binary, st_tensor_sub.
  - apply fk_op_cmp.
  - apply fk_deref. intros x _. apply fk_deref. intros y _. apply fk_no_result, fk_addeq.
  - apply fk_to_dtype.
  - apply fk_slice.
  - apply fk_transpose.
  - apply fk_get. intros. apply fk_lift. intros. apply fk_reshape_sv.
  - apply fk_get. intros. apply fk_reshape_sv.
  - apply fk_read. { apply reads_deref_all. } intros xs _. apply fk_new_handle, fk_cat.
  - apply fk_op_sum.
  - apply fk_op_mean.
  - apply fk_op_abs.
  - apply fk_op_extremum.
  - apply fk_op_extremum.
  - apply fk_op_clone.
  - apply fk_op_clone.
  - apply fk_get. intros. apply fk_new_view.
  - by destruct (Hb a).
  - apply fk_deref. intros x _. apply fk_no_result, fk_sta, st_zero_grad.
  - apply fk_deref. intros x _. apply fk_no_result. apply fk_get. intros r Hr.
    destruct b; [|by destruct (Hq a)]. eapply (fk_bind _ _ (fun _ h' => h' = h)). { destruct (is_float _); [by apply fk_ret|apply fk_throw]. }
    intros ? h1 _ ->. eapply fk_set; [done|by left].
  - apply fk_deref. intros x _. apply fk_get. intros r Hr. apply fk_no_result. eapply fk_set; [done|by left].
  - apply fk_deref. intros x _. apply fk_get. intros r Hr. apply fk_no_result, fk_sta. unfold sto_release.
    apply st_bind; [apply st_get_sto|]. intros. apply st_set_sto.
  - apply fk_deref. intros x _. eapply fk_bind; [apply fk_sta, st_op_all|]. intros. by apply fk_ret.
  - destruct a as [x|]; [|by apply fk_ret]. eapply (fk_bind _ _ any); [|intros; by apply fk_ret].
    apply fk_get. intros r _. apply fk_sta, st_reads, reads_to_string.
  - apply fk_deref. intros x _. apply (fk_bind _ _ any); [|intros; by apply fk_ret]. apply fk_get. intros. apply fk_throw.
Qed.
End with_fops.
