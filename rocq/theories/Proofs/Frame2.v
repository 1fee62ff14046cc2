(** Frame of every call of the API except backward. *)
From Verif.Proofs Require Export Frame.

Section with_fops.
Context {fo : FOps} (K : nat -> Prop) (h0 : heap).
Notation kp := (kept K h0).
Notation fr := (fr K h0).
Notation wr := (wr K h0).
Notation any := (fun _ _ => True).

(** [t] is a tensor on a writable buffer *)
Definition own {A} (t : nat) : A -> heap -> Prop := fun _ h => exists r, h_ten h !! t = Some r /\ wr (t_sto r).
Definition owned (t : nat) (h : heap) : Prop := exists r, h_ten h !! t = Some r /\ wr (t_sto r).

Lemma fr_weak {A} (m : E A) (P : A -> heap -> Prop) h : fr m P h -> fr m any h.
Proof. intros H. by eapply fr_mono. Qed.
Lemma fr_new_handle m (P : nat -> heap -> Prop) h : fr m P h -> fr (new_handle m) any h.
Proof. intros H. eapply fr_bind; [exact H|]. intros. by apply fr_ret. Qed.

Lemma fr_create_view dt lay s h : kp h ->
  fr (create_view dt lay s) (fun t h' => t = length (h_ten h) /\
    h' = Hp (h_sto h) (h_ten h ++ [Ten dt lay s None false false None]) (h_ver h)) h.
Proof. apply fr_new_ten. Qed.
Lemma lookup_snoc {A} (l : list A) x : (l ++ [x]) !! length l = Some x.
Proof. rewrite lookup_app_r, Nat.sub_diag by lia. done. Qed.

Lemma fr_create dt lay b h : kp h ->
  fr (create dt lay b) (fun t h' => t = length (h_ten h) /\
    exists s, wr s /\ h_ten h' = h_ten h ++ [Ten dt lay s None false false None]) h.
Proof.
  intros Hk. unfold create. eapply (fr_bind _ _ _ _ (fun _ h' => h' = h)).
  { destruct b; [|by apply fr_ret]. eapply fr_read; [done|done|]. intros. by apply fr_ret. }
  intros blob ? _ ->. eapply fr_bind; [by apply fr_new_sto|].
  intros s h1 Hk1 (E1 & -> & Hw). eapply fr_mono; [by apply fr_create_view|].
  intros t h2 Hk2 [-> ->]. rewrite E1. split; [done|]. eexists. split; [exact Hw|]. done.
Qed.
Lemma fr_create' dt lay b h : kp h ->
  fr (create dt lay b) (fun t h' => owned t h') h.
Proof.
  intros Hk. eapply fr_mono; [by apply fr_create|]. intros t h' Hk' (-> & s & Hw & E).
  eexists. rewrite E. split; [apply lookup_snoc|done].
Qed.
Lemma owned_get t h r h' : owned t h -> get_ten t h = (Ok r, h') -> wr (t_sto r).
Proof. intros (r' & Hr & Hw) [H _]%get_ten_inv. congruence. Qed.
Lemma owned_same t h h' : owned t h -> h_ten h' = h_ten h -> owned t h'.
Proof. intros (r & Hr & Hw) E. exists r. by rewrite E. Qed.

Lemma fr_create_scalar dt v h : kp h -> fr (create_scalar dt v) owned h.
Proof.
  intros Hk. unfold create_scalar. eapply fr_bind; [by apply fr_create'|]. intros t h1 Hk1 Ho.
  rd. intros r Hr. pose proof (owned_get _ _ _ _ Ho Hr). eapply fr_bind; [by apply fr_store|].
  intros ? h2 Hk2 E. apply fr_ret; [done|]. by eapply owned_same.
Qed.

Lemma fr_track ret k ins h : kp h -> fr (track ret k ins) (fun _ h' => forall t, owned t h -> owned t h') h.
Proof.
  intros Hk. unfold track. rd. intros r [Hr _]%get_ten_inv. eapply fr_mono; [by eapply fr_set_ten|].
  intros ? h' _ ->. intros t (x & Hx & Hw). unfold owned. simpl. destruct (decide (t = ret)) as [->|Hne].
  - eexists. rewrite list_lookup_insert by (by eapply lookup_lt_Some). split; [done|]. simpl. congruence.
  - exists x. by rewrite list_lookup_insert_ne.
Qed.

(** fresh results filled by a kernel *)
Lemma fr_fill_new ss dt tmp nt h : kp h -> fr (fill_new ss dt tmp nt) owned h.
Proof.
  intros Hk. unfold fill_new. eapply fr_bind; [by apply fr_create'|]. intros t h1 Hk1 Ho.
  rd. intros r Hr. rd. intros n _. pose proof (owned_get _ _ _ _ Ho Hr).
  eapply fr_bind; [by apply fr_fill|]. intros ? h2 Hk2 E. apply fr_ret; [done|]. by eapply owned_same.
Qed.
Lemma fr_ones ss dt h : kp h -> fr (ones ss dt) owned h.
Proof. intros. eapply fr_bind; [by apply fr_create_scalar|]. intros. by apply fr_fill_new. Qed.
Lemma fr_full_int ss n dt h : kp h -> fr (full_int ss n dt) owned h.
Proof. intros. eapply fr_bind; [by apply fr_create_scalar|]. intros. by apply fr_fill_new. Qed.
Lemma fr_full_double ss n dt h : kp h -> fr (full_double ss n dt) owned h.
Proof. intros. eapply fr_bind; [by apply fr_create_scalar|]. intros. by apply fr_fill_new. Qed.
Lemma fr_sto_zero s h : kp h -> wr s -> fr (sto_zero s) (fun _ h' => h_ten h' = h_ten h) h.
Proof. intros. unfold sto_zero. rd. intros r _. case_match; [by apply fr_set_sto|by apply fr_ret]. Qed.
Lemma fr_sto_alloc s h : kp h -> wr s -> fr (sto_alloc s) (fun _ h' => h_ten h' = h_ten h) h.
Proof. intros. unfold sto_alloc. rd. intros r _. rd. intros b _. by apply fr_set_sto. Qed.
Lemma fr_zeros ss dt h : kp h -> fr (zeros ss dt) owned h.
Proof.
  intros Hk. unfold zeros. eapply fr_bind; [by apply fr_create'|]. intros t h1 Hk1 Ho.
  rd. intros r Hr. pose proof (owned_get _ _ _ _ Ho Hr).
  eapply fr_bind; [by apply fr_sto_zero|]. intros ? h2 Hk2 E. apply fr_ret; [done|]. by eapply owned_same.
Qed.
Lemma fr_zeros_like t h : kp h -> fr (zeros_like t) owned h.
Proof. intros. unfold zeros_like. rd. intros. by apply fr_zeros. Qed.
Lemma fr_ones_like t h : kp h -> fr (ones_like t) owned h.
Proof. intros. unfold ones_like. rd. intros. by apply fr_ones. Qed.
Lemma fr_eye_op n m dt h : kp h -> fr (eye n m dt) owned h.
Proof.
  intros Hk. unfold eye. eapply fr_bind; [by apply fr_create'|]. intros t h1 Hk1 Ho.
  rd. intros r Hr. pose proof (owned_get _ _ _ _ Ho Hr).
  eapply fr_bind; [by apply fr_sto_zero|]. intros ? h2 Hk2 E.
  eapply fr_bind; [by apply fr_eye|]. intros ? h3 Hk3 E3. apply fr_ret; [done|]. eapply owned_same; [done|congruence].
Qed.
Lemma fr_from_blob d ss dt h : kp h -> fr (from_blob d ss dt) any h.
Proof.
  intros Hk. unfold from_blob. eapply fr_bind; [by apply fr_create'|]. intros t h1 Hk1 Ho.
  rd. intros r Hr. pose proof (owned_get _ _ _ _ Ho Hr). rd. intros s _.
  eapply (fr_bind _ _ _ _ any); [|intros; by apply fr_ret].
  case_match; [|by apply fr_ub]. case_match; [by apply fr_ub|]. eapply fr_weak. by apply fr_set_sto.
Qed.
Lemma fr_binop kernel k l r order h : kp h ->
  (forall L R dst a b h, kp h -> wr (t_sto dst) -> fr (kernel L R dst a b) (fun _ h' => h_ten h' = h_ten h) h) ->
  fr (apply_binary_operator kernel k l r order) any h.
Proof.
  intros Hk Hkern. unfold apply_binary_operator.
  eapply (fr_bind _ _ _ _ any).
  { unfold apply_no_grad_binary_op. rd. intros lr _. rd. intros rr _. rd. intros rg _.
    eapply fr_bind; [by apply fr_create'|]. intros t h1 Hk1 Ho.
    rd. intros d Hd. pose proof (owned_get _ _ _ _ Ho Hd).
    eapply (fr_bind _ _ _ _ any); [|intros; by apply fr_ret].
    eapply fr_weak. repeat case_match; by apply Hkern. }
  intros t h1 Hk1 _. rd. intros lr _. rd. intros rr _. case_match; [by apply fr_ret|].
  eapply fr_bind; [by apply fr_track|]. intros. by apply fr_ret.
Qed.
Lemma fr_op_sub l r h : kp h -> fr (op_sub l r) any h.
Proof. intros. apply fr_binop; [done|]. intros. by apply fr_sub. Qed.
Lemma fr_neg t h : kp h -> fr (op_neg t) any h.
Proof. intros. eapply fr_bind; [by apply fr_create_scalar|]. intros. by apply fr_op_sub. Qed.
Lemma fr_op_cmp c l r h : kp h -> fr (op_cmp c l r) any h.
Proof.
  intros Hk. unfold op_cmp. rd. intros lr _. rd. intros rr _. rd. intros rg _.
  eapply fr_bind; [by apply fr_create'|]. intros t h1 Hk1 Ho.
  rd. intros d Hd. pose proof (owned_get _ _ _ _ Ho Hd).
  eapply fr_bind; [by apply fr_cmp|]. intros. by apply fr_ret.
Qed.
Lemma fr_addeq l r h : kp h -> (forall x, h_ten h !! l = Some x -> wr (t_sto x)) ->
  fr (op_addeq l r) (fun _ h' => h_ten h' = h_ten h) h.
Proof.
  intros Hk Hw. unfold op_addeq. rd. intros lr [Hl _]%get_ten_inv. rd. intros rr _. rd. intros _ _.
  apply fr_add; auto.
Qed.
Lemma fr_to_dtype t dt h : kp h -> fr (to_dtype t dt) any h.
Proof.
  intros Hk. unfold to_dtype. rd. intros r _. case_match; [by apply fr_throw|]. case_match; [by apply fr_ret|].
  eapply fr_bind; [by apply fr_create'|]. intros x h1 Hk1 Ho. rd. intros d Hd. pose proof (owned_get _ _ _ _ Ho Hd).
  eapply fr_bind; [by apply fr_to_type|]. intros ? h2 Hk2 E. case_match; [by apply fr_ret|].
  eapply fr_bind; [by apply fr_track|]. intros. by apply fr_ret.
Qed.
Lemma fr_reduce (kernel : dtype -> dtype -> tensor -> tensor -> E unit) k t h : kp h ->
  (forall T U dst a h, kp h -> wr (t_sto dst) -> fr (kernel T U dst a) (fun _ h' => h_ten h' = h_ten h) h) ->
  fr (let! r := get_ten t in
      let! tf := zeros [] (reduce_ty (t_dt r)) in
      let! d := get_ten tf in
      kernel (reduce_ty (t_dt r)) (t_dt r) d r ;;;
      (if t_rg r then track tf k [t] else mret tt) ;;;
      mret tf) any h.
Proof.
  intros Hk Hkern. rd. intros r _. eapply fr_bind; [by apply fr_zeros|]. intros x h1 Hk1 Ho.
  rd. intros d Hd. pose proof (owned_get _ _ _ _ Ho Hd).
  eapply fr_bind; [by apply Hkern|]. intros ? h2 Hk2 E.
  eapply (fr_bind _ _ _ _ any); [|intros; by apply fr_ret].
  case_match; [eapply fr_weak; by apply fr_track|by apply fr_ret].
Qed.
Lemma fr_op_sum t h : kp h -> fr (op_sum t) any h.
Proof. intros. apply (fr_reduce tensor_sum); [done|]. intros. by apply fr_sum. Qed.
Lemma fr_op_mean t h : kp h -> fr (op_mean t) any h.
Proof. intros. apply (fr_reduce tensor_mean); [done|]. intros. by apply fr_mean. Qed.
Lemma fr_op_abs t h : kp h -> fr (op_abs t) any h.
Proof.
  intros Hk. unfold op_abs. rd. intros r _. eapply fr_bind; [by apply fr_create'|]. intros x h1 Hk1 Ho.
  rd. intros d Hd. pose proof (owned_get _ _ _ _ Ho Hd). case_match.
  - eapply fr_bind; [apply fr_abs; [done|done|done]|]. intros. by apply fr_ret.
  - eapply fr_bind; [by apply fr_create'|]. intros g h2 Hk2 Hg.
    rd. intros gr Hgr. pose proof (owned_get _ _ _ _ Hg Hgr).
    eapply fr_bind; [apply fr_abs; [done|done|]; by intros ? [= <-]|]. intros.
    eapply fr_bind; [by apply fr_track|]. intros. by apply fr_ret.
Qed.
Lemma fr_op_extremum c t h : kp h -> fr (op_extremum c t) any h.
Proof.
  intros Hk. unfold op_extremum. rd. intros r _. eapply fr_bind; [by apply fr_zeros|]. intros x h1 Hk1 Ho.
  rd. intros d Hd. pose proof (owned_get _ _ _ _ Ho Hd). case_match.
  - eapply fr_bind; [apply fr_extremum; [done|done|done]|]. intros. by apply fr_ret.
  - eapply fr_bind; [by apply fr_zeros_like|]. intros g h2 Hk2 Hg.
    rd. intros gr Hgr. pose proof (owned_get _ _ _ _ Hg Hgr).
    eapply fr_bind; [apply fr_extremum; [done|done|]; by intros ? [= <-]|]. intros.
    eapply fr_bind; [by apply fr_track|]. intros. by apply fr_ret.
Qed.
Lemma fr_set_grad t r g h : kp h -> h_ten h !! t = Some r -> fr (set_ten t (with_grad r g)) any h.
Proof. intros. eapply fr_weak. by eapply fr_set_ten. Qed.
Lemma fr_share to from h : kp h -> fr (share_grad_storage to from) any h.
Proof.
  intros Hk. unfold share_grad_storage. rd. intros f [Hf _]%get_ten_inv.
  eapply (fr_bind _ _ _ _ any).
  { case_match; [by apply fr_ret|]. eapply fr_bind; [by apply fr_create|].
    intros g h1 Hk1 (-> & s & Hw & E). eapply fr_weak, fr_set_ten; [done| |].
    - rewrite E. by apply lookup_app_l_Some.
    - done. }
  intros ? h1 Hk1 _. rd. intros f' _. case_match; [|by apply fr_ub].
  rd. intros fgr _. rd. intros t _. eapply fr_bind; [by apply fr_create_view|].
  intros g h2 Hk2 _. rd. intros t' [Ht' _]%get_ten_inv. by apply fr_set_grad.
Qed.
Lemma fr_finish_view ret i h : kp h -> fr (finish_view ret i) any h.
Proof.
  intros Hk. unfold finish_view. rd. intros r _. case_match; [by apply fr_ret|].
  eapply fr_bind; [by apply fr_track|]. intros ? h1 Hk1 _. eapply fr_bind; [by apply fr_share|]. intros. by apply fr_ret.
Qed.
Lemma fr_slice t s h : kp h -> fr (op_slice t s) any h.
Proof.
  intros Hk. unfold op_slice. rd. intros r _. rd. intros lay _. eapply fr_bind; [by apply fr_create_view|].
  intros. by apply fr_finish_view.
Qed.
Lemma fr_transpose t i j h : kp h -> fr (op_transpose t i j) any h.
Proof.
  intros Hk. unfold op_transpose. rd. intros r _. rd. intros _ _. rd. intros _ _.
  eapply fr_bind; [by apply fr_create_view|]. intros. by apply fr_finish_view.
Qed.
Lemma fr_op_clone t h : kp h -> fr (op_clone t) any h.
Proof.
  intros Hk. unfold op_clone. rd. intros r _. eapply fr_bind; [by apply fr_create'|]. intros x h1 Hk1 Ho.
  rd. intros d Hd. pose proof (owned_get _ _ _ _ Ho Hd).
  eapply fr_bind; [by apply fr_clone|]. intros ? h2 Hk2 E. case_match; [by apply fr_ret|].
  eapply fr_bind; [by apply fr_track|]. intros. by apply fr_ret.
Qed.
Lemma fr_reshape_sv t ss h : kp h -> fr (op_reshape_sv t ss) any h.
Proof.
  intros Hk. unfold op_reshape_sv. rd. intros r _. rd. intros _ _. cbv zeta.
  eapply (fr_bind _ _ _ _ any).
  { case_match; [|by apply fr_ret]. eapply fr_bind; [by apply fr_create_view|]. intros tf h1 Hk1 _.
    case_match; [by apply fr_ret|]. eapply fr_bind; [by apply fr_track|]. intros ? h2 Hk2 _.
    eapply fr_bind; [by apply fr_share|]. intros. by apply fr_ret. }
  intros early h1 Hk1 _. destruct early; [by apply fr_ret|].
  eapply fr_read; [by case_match|done|]. intros _ _. rd. intros iso _.
  eapply (fr_bind _ _ _ _ any).
  { destruct iso.
    - eapply fr_read; [by repeat case_match|done|]. intros sts _.
      eapply fr_bind; [by apply fr_create_view|]. intros. by apply fr_ret.
    - eapply fr_bind; [by apply fr_op_clone|]. intros m h2 Hk2 _. rd. intros mr _.
      eapply fr_bind; [by apply fr_create_view|]. intros. by apply fr_ret. }
  intros [tf ln] h2 Hk2 _. rd. intros i _. case_match; [by apply fr_ret|].
  eapply fr_bind; [by apply fr_track|]. intros ? h3 Hk3 _.
  eapply fr_bind; [by apply fr_share|]. intros. by apply fr_ret.
Qed.
Lemma fr_reshape t ss h : kp h -> fr (op_reshape t ss) any h.
Proof. intros. unfold op_reshape. rd. intros r _. rd. intros ss' _. by apply fr_reshape_sv. Qed.
Lemma fr_reshape_as t o h : kp h -> fr (op_reshape_as t o) any h.
Proof. intros. unfold op_reshape_as. rd. intros r _. by apply fr_reshape_sv. Qed.
Lemma fr_detach t h : kp h -> fr (op_detach t) any h.
Proof. intros. unfold op_detach. rd. intros r _. eapply fr_weak. by apply fr_create_view. Qed.

Lemma fr_randn ss dt xs h : kp h -> fr (op_randn ss dt xs) any h.
Proof.
  intros Hk. unfold op_randn. rd. intros _ _. eapply fr_bind; [by apply fr_create'|]. intros t h1 Hk1 Ho.
  rd. intros d Hd. pose proof (owned_get _ _ _ _ Ho Hd).
  eapply fr_bind; [apply fr_mapM; [done|]|intros; by apply fr_ret].
  intros i h2 Hk2. unfold randn_write. case_match; [by apply fr_store|].
  rd. intros r _. case_match; [|by apply fr_ub]. case_match; [by apply fr_set_sto|by apply fr_ub].
Qed.
Lemma reads_get_all ts : reads (get_all ts).
Proof. induction ts as [|t ts IH]; [done|]. cbn [get_all]. apply reads_bind; [apply reads_get_ten|]. intros. by apply reads_bind. Qed.
Lemma fr_cat_copy dt d dst rs off h : kp h -> wr (t_sto dst) -> fr (cat_copy dt d dst rs off) any h.
Proof.
  revert off h. induction rs as [|r rs IH]; intros off h Hk Hw; [by apply fr_ret|]. cbn [cat_copy].
  eapply fr_bind; [by apply fr_cat|]. intros. by apply IH.
Qed.
Lemma fr_op_cat ts dim h : kp h -> fr (op_cat ts dim) any h.
Proof.
  intros Hk. unfold op_cat. eapply fr_read; [apply reads_get_all|done|]. intros rs _.
  destruct rs as [|r0 rest]; [by apply fr_ub|]. rd. intros _ _. rd. intros _ _.
  eapply fr_bind; [by apply fr_create'|]. intros t h1 Hk1 Ho.
  rd. intros d Hd. pose proof (owned_get _ _ _ _ Ho Hd).
  eapply fr_bind; [by apply fr_cat_copy|]. intros ? h2 Hk2 _. case_match; [|by apply fr_ret].
  eapply fr_bind; [by apply fr_track|]. intros. by apply fr_ret.
Qed.
Lemma fr_zero_grad t h : kp h -> (forall r g gr, h_ten h !! t = Some r -> t_grad r = Some g -> h_ten h !! g = Some gr -> wr (t_sto gr)) ->
  fr (zero_grad t) (fun _ h' => h_ten h' = h_ten h) h.
Proof.
  intros Hk Hg. unfold zero_grad. rd. intros r [Hr _]%get_ten_inv. case_match; [|by apply fr_ret].
  rd. intros gr [Hgr _]%get_ten_inv. apply fr_sto_zero; eauto.
Qed.
Lemma fr_create_impl s h : kp h -> fr (create_impl s) any h.
Proof.
  intros Hk. unfold create_impl. case_match; [by apply fr_ret|]. rd. intros dt _.
  eapply fr_bind; [by apply fr_create'|]. intros t h1 Hk1 Ho.
  rd. intros d Hd. pose proof (owned_get _ _ _ _ Ho Hd). rd. intros st _.
  eapply fr_bind; [by apply fr_set_sto|]. intros. by apply fr_ret.
Qed.

(** ** queries *)
Lemma reads_load_bool s p : reads (load_bool_byte s p).
Proof. unfold load_bool_byte. apply reads_bind; [apply reads_get_sto|]. intros r. by repeat case_match. Qed.
Lemma reads_collect {A} l (f : Z -> E A) : (forall i, reads (f i)) -> reads (collect l f).
Proof.
  intros Hf. induction l as [|i l IH]; [done|]. cbn [collect]. apply reads_bind; [done|]. intros.
  by apply reads_bind.
Qed.
Lemma reads_to_string dt s ss sts off : reads (to_string_helper dt s ss sts off).
Proof.
  revert sts off. induction ss as [|n ss IH]; intros sts off; cbn [to_string_helper].
  - apply reads_bind; [|done]. unfold load_byte_off. case_match; [apply reads_load|done].
  - destruct sts as [|st sts]; [by case_match|]. apply reads_bind; [|done]. apply reads_collect. auto.
Qed.
Lemma reads_before_null xs dim : reads (before_null xs dim).
Proof.
  apply reads_bind; [apply reads_get_all|]. intros [|r0 rest]; [done|]. apply reads_bind; [apply reads_expect|]. intros. apply reads_expect.
Qed.
Lemma reads_deref_all xs ts dim : reads (deref_all xs ts dim).
Proof.
  revert xs. induction ts as [|[t|] ts IH]; intros xs; cbn [deref_all]; [done|apply IH|]. apply reads_bind; [apply reads_before_null|done].
Qed.
Lemma fr_op_all t h : kp h -> fr (op_all t) any h.
Proof.
  intros Hk. unfold op_all. rd. intros r _. case_match; [by apply fr_ret|]. case_match.
  - eapply fr_reads; [|done|done]. apply reads_bind; [done|]. intros. apply reads_load_bool.
  - eapply fr_bind; [apply fr_odometer; [done|]|intros; by apply fr_ret].
    intros sv h' Hk'. eapply fr_reads; [|done|done]. apply reads_bind; [done|]. intros.
    apply reads_bind; [apply reads_load_bool|]. done.
Qed.
End with_fops.

Section with_fops.
Context {fo : FOps}.

Lemma fr_un K h0 a (f : nat -> E nat) h : kept K h0 h ->
  (forall t, fr K h0 (f t) (fun _ _ => True) h) -> fr K h0 (un a f) (fun _ _ => True) h.
Proof. intros Hk Hf. unfold un. rd. intros t _. eapply fr_new_handle. apply Hf. Qed.
Lemma fr_bin K h0 a b (f : nat -> nat -> E nat) h : kept K h0 h ->
  (forall t u, fr K h0 (f t u) (fun _ _ => True) h) -> fr K h0 (bin a b f) (fun _ _ => True) h.
Proof. intros Hk Hf. unfold bin. rd. intros t _. rd. intros u _. eapply fr_new_handle. apply Hf. Qed.
Lemma fr_query K h0 a f h : kept K h0 h -> fr K h0 (query a f) (fun _ _ => True) h.
Proof. intros Hk. unfold query. rd. intros t _. rd. intros r _. by apply fr_ret. Qed.

Ltac fr_op :=
  lazymatch goal with
  | |- fr _ _ (query _ _) _ _ => by apply fr_query
  | |- fr _ _ (new_handle (create_scalar _ _)) _ _ => eapply fr_new_handle; by apply fr_create_scalar
  | |- fr _ _ (new_handle (create _ _ _)) _ _ => eapply fr_new_handle; by apply fr_create'
  | |- fr _ _ (new_handle (zeros _ _)) _ _ => eapply fr_new_handle; by apply fr_zeros
  | |- fr _ _ (new_handle (ones _ _)) _ _ => eapply fr_new_handle; by apply fr_ones
  | |- fr _ _ (new_handle (full_int _ _ _)) _ _ => eapply fr_new_handle; by apply fr_full_int
  | |- fr _ _ (new_handle (full_double _ _ _)) _ _ => eapply fr_new_handle; by apply fr_full_double
  | |- fr _ _ (new_handle (eye _ _ _)) _ _ => eapply fr_new_handle; by apply fr_eye_op
  | |- fr _ _ (new_handle (from_blob _ _ _)) _ _ => eapply fr_new_handle; by apply fr_from_blob
  | |- fr _ _ (new_handle (op_randn _ _ _)) _ _ => eapply fr_new_handle; by apply fr_randn
  | |- fr _ _ (un _ _) _ _ => apply fr_un; [done|]; intros ?; fr_op
  | |- fr _ _ (bin _ _ _) _ _ => apply fr_bin; [done|]; intros ? ?; fr_op
  | |- fr _ _ (zeros_like _) _ _ => eapply fr_weak; by apply fr_zeros_like
  | |- fr _ _ (ones_like _) _ _ => eapply fr_weak; by apply fr_ones_like
  | |- fr _ _ (op_pos _) _ _ => by apply fr_ret
  | |- fr _ _ (op_neg _) _ _ => by apply fr_neg
  | |- fr _ _ (to_dtype _ _) _ _ => by apply fr_to_dtype
  | |- fr _ _ (op_slice _ _) _ _ => by apply fr_slice
  | |- fr _ _ (op_transpose _ _ _) _ _ => by apply fr_transpose
  | |- fr _ _ (op_reshape _ _) _ _ => by apply fr_reshape
  | |- fr _ _ (op_reshape_as _ _) _ _ => by apply fr_reshape_as
  | |- fr _ _ (op_sum _) _ _ => by apply fr_op_sum
  | |- fr _ _ (op_mean _) _ _ => by apply fr_op_mean
  | |- fr _ _ (op_abs _) _ _ => by apply fr_op_abs
  | |- fr _ _ (op_max _) _ _ => by apply fr_op_extremum
  | |- fr _ _ (op_min _) _ _ => by apply fr_op_extremum
  | |- fr _ _ (op_contiguous _) _ _ => by apply fr_op_clone
  | |- fr _ _ (op_clone _) _ _ => by apply fr_op_clone
  | |- fr _ _ (op_detach _) _ _ => by apply fr_detach
  | |- fr _ _ (op_cmp _ _ _) _ _ => by apply fr_op_cmp
  | |- fr _ _ (op_add _ _) _ _ => apply fr_binop; [done|]; intros; by apply fr_add
  | |- fr _ _ (op_sub _ _) _ _ => apply fr_binop; [done|]; intros; by apply fr_sub
  | |- fr _ _ (op_mul _ _) _ _ => apply fr_binop; [done|]; intros; by apply fr_mul
  | |- fr _ _ (op_div _ _) _ _ => apply fr_binop; [done|]; intros; by apply fr_div
  | |- _ => idtac
  end.

Lemma fr_exec K h0 o h : kept K h0 h -> mutates o = false -> fr K h0 (exec o) (fun _ _ => True) h.
Proof.
  intros Hk Hm.
  destruct o; try discriminate Hm; cbn [exec]; fr_op.
  - rd. intros s _. eapply fr_bind; [by apply fr_create_impl|]. intros. by apply fr_ret.
  - rd. intros r _. by apply fr_randn.
  - eapply fr_read; [apply reads_deref_all|done|]. intros xs _. eapply fr_new_handle. by apply fr_op_cat.
  - rd. intros x _. eapply (fr_bind _ _ _ _ (fun _ _ => True)); [|intros; by apply fr_ret].
    unfold set_requires_grad. rd. intros r [Hr _]%get_ten_inv. eapply fr_read; [by case_match; reads_tac|done|].
    intros _ _. eapply fr_weak. by eapply fr_set_ten.
  - rd. intros x _. rd. intros r [Hr _]%get_ten_inv.
    eapply (fr_bind _ _ _ _ (fun _ _ => True)); [eapply fr_weak; by eapply fr_set_ten|]. intros. by apply fr_ret.
  - rd. intros x _. eapply fr_bind; [by apply fr_op_all|]. intros. by apply fr_ret.
  - case_match; [|by apply fr_ret]. eapply (fr_bind _ _ _ _ (fun _ _ => True)); [|intros; by apply fr_ret].
    apply fr_reads; [|done|done].
    unfold impl_to_string. apply reads_bind; [apply reads_get_ten|]. intros. apply reads_to_string.
  - rd. intros x _. unfold op_stride. eapply (fr_bind _ _ _ _ (fun _ _ => True)); [|intros; by apply fr_ret].
    rd. intros r _. by apply fr_throw.
Qed.

Lemma fr_out {A} K h0 (m : E A) P : fr K h0 m P h0 -> kept K h0 (m h0).2.
Proof. unfold fr, wp. destruct (m h0) as [[?|?|?|] ?]; simpl; tauto. Qed.

Lemma kept_data h h' : kept (fun _ => True) h h' -> data_kept h h'.
Proof. intros (A&_&_&D). split; [|done]. intros s x. by apply A. Qed.
Lemma kept_kept_outside W h h' : kept (fun s => ~ W s) h h' -> kept_outside W h h'.
Proof. intros (A&_&_&D). split; [|done]. intros s x. by apply A. Qed.

(** C38 *)
Lemma op_keeps_data h o : mutates o = false -> data_kept h (exec o h).2.
Proof. intros Hm. eapply kept_data, fr_out. by apply fr_exec. Qed.
(** += *)
Lemma addeq_keeps_rest h a b r : h_ten h !! a = Some r ->
  kept_outside (fun s => s = t_sto r) h (exec (OAddEq (Some a) b) h).2.
Proof.
  intros Hr. eapply kept_kept_outside, fr_out with (P := fun _ _ => True).
  cbn [exec]. eapply fr_read; [reads_tac|done|]. intros x [= <-].
  eapply fr_read; [reads_tac|done|]. intros y _.
  eapply fr_bind; [apply fr_addeq; [done|]|intros; by apply fr_ret].
  intros x Hx. left. assert (x = r) as -> by congruence. auto.
Qed.
Lemma release_keeps_rest h a r : h_ten h !! a = Some r ->
  kept_outside (fun s => s = t_sto r) h (exec (ORelease (Some a)) h).2.
Proof.
  intros Hr. eapply kept_kept_outside, fr_out with (P := fun _ _ => True).
  cbn [exec]. eapply fr_read; [reads_tac|done|]. intros x [= <-].
  eapply fr_read; [reads_tac|done|]. intros y [Hy _]%get_ten_inv.
  eapply (fr_bind _ _ _ _ (fun _ _ => True)); [|intros; by apply fr_ret].
  unfold sto_release. eapply fr_read; [reads_tac|done|]. intros s _. eapply fr_weak, fr_set_sto; [done|].
  left. assert (y = r) as -> by congruence. auto.
Qed.
Lemma zero_grad_keeps_rest h a :
  kept_outside (is_grad_buffer h) h (exec (OZeroGrad a) h).2.
Proof.
  eapply kept_kept_outside, fr_out with (P := fun _ _ => True).
  cbn [exec]. eapply fr_read; [reads_tac|done|]. intros x _.
  eapply (fr_bind _ _ _ _ (fun _ _ => True)); [|intros; by apply fr_ret].
  eapply fr_weak, fr_zero_grad; [done|]. intros r g gr Hr Hg Hgr. left. intros Hn. apply Hn. by exists x, r, g, gr.
Qed.
End with_fops.
