(** Versions stored in graph nodes never exceed the global one. *)
From Verif.Proofs Require Export Terminate4.
From Verif.Spec Require Export Graph.
From Verif.Model Require Export Api.

Section with_fops.
Context {fo : FOps}.
Notation any := (fun _ _ => True).
Definition vinv (h : heap) : Prop :=
  0 <= h_ver h /\ forall t r f, h_ten h !! t = Some r -> t_fn r = Some f -> gf_ver f <= h_ver h.
Definition iv {A} (m : E A) (P : A -> heap -> Prop) (h : heap) : Prop :=
  wp m (fun a h' => vinv h' /\ P a h') (fun _ h' => vinv h') h.
Lemma iv_bind {A B} (m : E A) (k : A -> E B) P P' h :
  iv m P h -> (forall a h', vinv h' -> P a h' -> iv (k a) P' h') -> iv (bind m k) P' h.
Proof. intros Hm Hk. apply wp_bind. eapply wp_mono; [exact Hm| |done]. intros a h' [? ?]. by apply Hk. Qed.
Lemma iv_mono {A} (m : E A) (P P' : A -> heap -> Prop) h : iv m P h -> (forall a h', P a h' -> P' a h') -> iv m P' h.
Proof. intros Hm H. eapply wp_mono; [exact Hm| |done]. intros a h' [? ?]. auto. Qed.
Lemma iv_ret {A} (a : A) (P : A -> heap -> Prop) h : vinv h -> P a h -> iv (mret a) P h. Proof. done. Qed.
Lemma fnk_vinv h h' : vinv h -> fnk h h' -> vinv h'.
Proof.
  intros [H0 H] [V K]. split; [by rewrite V|]. intros t r f Hr Hf. rewrite V.
  destruct (K t r f Hr Hf) as [[(_ & _ & ->) _]|(r0 & Hr0 & Hf0 & _)]; [done|]. by eapply H.
Qed.
Lemma iv_fk {A} (m : E A) P h : vinv h -> fk m P h -> iv m P h.
Proof.
  intros Hi H. eapply wp_mono; [exact H| |].
  - intros a h' [? ?]. split; [by eapply fnk_vinv|done].
  - intros ? h' ?. by eapply fnk_vinv.
Qed.
Lemma iv_st {A} (m : E A) h : vinv h -> st m -> iv m any h.
Proof. intros. apply iv_fk; [done|]. by apply fk_sta. Qed.
Lemma iv_read {A B} (m : E A) (k : A -> E B) P h : reads m -> vinv h ->
  (forall a, m h = (Ok a, h) -> iv (k a) P h) -> iv (bind m k) P h.
Proof.
  intros Hm Hi Hk. unfold iv, wp, bind. rewrite (reads_run m h Hm) in *.
  destruct (m h).1 as [a|?|?|]; try done. by apply Hk.
Qed.
Lemma iv_get {B} t (k : tensor -> E B) P h : vinv h ->
  (forall r, h_ten h !! t = Some r -> iv (k r) P h) -> iv (bind (get_ten t) k) P h.
Proof. intros Hi Hk. apply iv_read; [apply reads_get_ten|done|]. intros r [Hr _]%get_ten_inv. by apply Hk. Qed.
Lemma iv_set t r h : vinv h -> (forall f, t_fn r = Some f -> gf_ver f <= h_ver h) -> iv (set_ten t r) any h.
Proof.
  intros [H0 H] Hr. split; [|done]. split; [done|]. intros u x f. simpl.
  intros [(<- & <- & _)|(_ & Hx)]%list_lookup_insert_Some Hf; [by apply Hr|]. by eapply H.
Qed.
Lemma iv_set_grad t r g h : vinv h -> h_ten h !! t = Some r -> iv (set_ten t (with_grad r g)) any h.
Proof. intros Hi Hr. apply iv_set; [done|]. intros f Hf. destruct Hi as [_ Hi]. by eapply Hi. Qed.
Lemma iv_upd_fn t g h : vinv h -> (forall f, gf_ver f <= h_ver h -> gf_ver (g f) <= h_ver h) -> iv (upd_fn t g) any h.
Proof.
  intros Hi Hg. apply iv_get; [done|]. intros r Hr. destruct (t_fn r) as [f|] eqn:Ef; [|done].
  apply iv_set; [done|]. intros f' [= <-]. apply Hg. destruct Hi as [_ Hi]. by eapply Hi.
Qed.
Lemma iv_update p h : vinv h -> iv (try_accumulate_update p) any h.
Proof.
  intros Hi. apply iv_get; [done|]. intros r Hr. destruct (t_rg r); [|done]. simpl.
  eapply (iv_bind _ _ any). { case_match; [|done]. by apply iv_upd_fn. }
  intros _ h1 Hi1 _. case_match.
  - apply iv_get; [done|]. intros gr _. apply iv_st; [done|]. apply st_bind; [apply st_sto_is_alloc|]. intros [|]; [done|].
    apply st_bind; [apply st_sto_alloc|]. intros. apply st_sto_zero.
  - eapply (iv_bind _ _ any); [apply iv_fk; [done|apply fk_new]|]. intros g h2 Hi2 _. apply iv_get; [done|]. intros p' Hp'.
    eapply iv_bind; [by apply iv_set_grad|]. intros _ h3 Hi3 _. apply iv_get; [done|]. intros. apply iv_st; [done|apply st_sto_zero].
Qed.
Lemma iv_deref {A B} (o : option A) (k : A -> E B) P h : vinv h ->
  (forall a, o = Some a -> iv (k a) P h) -> iv (bind (deref o) k) P h.
Proof. intros Hi Hk. destruct o; [by apply Hk|done]. Qed.
Lemma st_mul_add d l r : st (tensor_mul_add_f d l r).
Proof.
  unfold tensor_mul_add_f. do 3 (apply st_bind; [apply st_get_ten|]; intros ?).
  apply st_bind; [apply st_reads, reads_dispatch_ffi|]. intros. apply st_mul_acc.
Qed.
Lemma iv_acc p w o h : vinv h -> iv (try_accumulate_grad p w o) any h.
Proof.
  intros Hi. apply iv_get; [done|]. intros r _. destruct (t_rg r); [|done]. simpl.
  eapply iv_bind; [by apply iv_update|]. intros _ h1 Hi1 _. destruct o as [o|].
  - apply iv_deref; [done|]. intros w' _. apply iv_get; [done|]. intros wr _. apply iv_get; [done|]. intros p' _.
    apply iv_deref; [done|]. intros g _. case_match; apply iv_st; auto using st_mul_add.
  - destruct w as [w|]; [|done]. apply iv_get; [done|]. intros p' _. apply iv_deref; [done|]. intros g _. apply iv_st; [done|apply st_addeq].
Qed.
Lemma iv_out_grad {B} t (k : nat -> E B) P h : vinv h -> (forall x, iv (k x) P h) -> iv (bind (out_grad t) k) P h.
Proof. intros Hs Hk. apply iv_read; [apply reads_out_grad|done|]. intros x _. apply Hk. Qed.
Lemma iv_cat_back this dim ins : forall s h, vinv h -> iv (cat_back this dim ins s) any h.
Proof.
  induction ins as [|t ins IH]; intros s h Hs; [done|]. cbn [cat_back].
  apply iv_get; [done|]. intros me _. apply iv_get; [done|]. intros x _. cbv zeta.
  apply iv_deref; [done|]. intros g _. apply iv_get; [done|]. intros gr _.
  eapply iv_bind; [apply iv_fk; [done|apply fk_new_view]|]. intros v h1 Hs1 _.
  eapply iv_bind; [by apply iv_acc|]. intros _ h2 Hs2 _. by apply IH.
Qed.
Lemma fk_ones_like t h : fk (ones_like t) any h.
Proof. apply fk_get. intros. apply fk_ones. Qed.
Lemma iv_step this k ins h : vinv h -> iv (step_back this k ins) any h.
Proof.
  intros Hi. destruct k; cbn [step_back]; try (apply iv_deref; [done|]; intros a _); try (apply iv_deref; [done|]; intros b _).
  - apply iv_out_grad; [done|]. intros g. eapply iv_bind; [by apply iv_acc|]. intros _ h1 Hi1 _.
    apply iv_out_grad; [done|]. intros g'. by apply iv_acc.
  - apply iv_out_grad; [done|]. intros g. eapply iv_bind; [by apply iv_acc|]. intros _ h1 Hi1 _.
    apply iv_out_grad; [done|]. intros g'. eapply iv_bind; [apply iv_fk; [done|apply fk_create_scalar]|]. intros. by apply iv_acc.
  - apply iv_out_grad; [done|]. intros g. eapply iv_bind; [by apply iv_acc|]. intros _ h1 Hi1 _.
    apply iv_out_grad; [done|]. intros g'. by apply iv_acc.
  - eapply iv_bind; [by apply iv_update|]. intros _ h1 Hi1 _.
    apply iv_get; [done|]. intros ar _. apply iv_deref; [done|]. intros ga _. apply iv_out_grad; [done|]. intros g.
    eapply (iv_bind _ _ any).
    { apply iv_get; [done|]. intros dr _. apply iv_get; [done|]. intros lr _. apply iv_get; [done|]. intros rr _.
      apply iv_read; [apply reads_dispatch_ffi|done|]. intros _ _. apply iv_st; [done|apply st_div_num]. }
    intros _ h2 Hi2 _. eapply iv_bind; [by apply iv_update|]. intros _ h3 Hi3 _.
    apply iv_get; [done|]. intros br _. apply iv_get; [done|]. intros me _.
    apply iv_read; [apply reads_dispatch_ff|done|]. intros _ _.
    apply iv_deref; [done|]. intros gb _. apply iv_out_grad; [done|]. intros g'.
    apply iv_get; [done|]. intros gbr _. apply iv_get; [done|]. intros gr _. apply iv_st; [done|apply st_div_den].
  - eapply iv_bind; [apply iv_fk; [done|apply fk_ones_like]|]. intros o h1 Hi1 _. apply iv_out_grad; [done|]. intros g. by apply iv_acc.
  - apply iv_get; [done|]. intros ar _. eapply iv_bind; [apply iv_fk; [done|apply fk_full_double]|]. intros f h1 Hi1 _. by apply iv_acc.
  - by apply iv_acc.
  - apply iv_out_grad; [done|]. intros g. by apply iv_acc.
  - by apply iv_cat_back.
  - apply iv_out_grad; [done|]. intros g. by apply iv_acc.
Qed.
Lemma iv_gv c a b ins : (forall v g, gf_ver g <= v -> gf_ver (a v g) <= v) -> (forall v g, gf_ver g <= v -> gf_ver (b v g) <= v) ->
  forall h, vinv h -> iv (gv c a b ins) any h.
Proof.
  intros Ha Hb. induction ins as [|i ins IH]; intros h Hi; [done|]. cbn [gv]. apply iv_get; [done|]. intros r Hr.
  apply iv_read; [done|done|]. intros v [= <-]. destruct (t_fn r) as [g|] eqn:Eg; [|by apply IH].
  assert (gf_ver g <= h_ver h) as Hg by (destruct Hi as [_ Hi]; by eapply Hi).
  case_match; (eapply iv_bind; [apply iv_set; [done|]; intros f [= <-]; auto|]); intros _ h1 Hi1 _.
  - eapply iv_bind; [by apply IH|]. intros. by apply iv_ret.
  - by apply IH.
Qed.
Lemma iv_eq {A} (m m' : E A) P h : m h = m' h -> iv m' P h -> iv m P h.
Proof. unfold iv, wp. by intros ->. Qed.
Lemma iv_get_fn {B} t (k : gradfn -> E B) P h : vinv h -> (forall g, iv (k g) P h) -> iv (bind (get_fn t) k) P h.
Proof. intros Hi Hk. apply iv_read; [unfold get_fn; reads_tac|done|]. intros g _. apply Hk. Qed.
Lemma iv_bfs fuel body q h : (forall t h, vinv h -> iv (body t) any h) -> vinv h -> iv (bfs fuel body q) any h.
Proof.
  intros Hb. revert q h. induction fuel as [|n IH]; intros q h Hi; destruct q as [|t q]; cbn [bfs]; try done.
  eapply iv_bind; [by apply Hb|]. intros. by apply IH.
Qed.
Lemma iv_process t h : vinv h -> iv (process t) any h.
Proof.
  intros Hi. unfold process. apply iv_get_fn; [done|]. intros g. eapply iv_bind; [by apply iv_step|].
  intros _ h1 Hi1 _. apply iv_get; [done|]. intros r Hr. eapply (iv_bind _ _ any).
  { case_match; [done|]. by apply iv_set_grad. }
  intros _ h2 Hi2 _. apply iv_get_fn; [done|]. intros g2. eapply iv_eq; [apply visit_ready_gv|]. apply iv_gv; done.
Qed.
Lemma iv_bump h : vinv h -> iv bump (fun v h' => h_ver h' = v) h.
Proof.
  intros [H0 H]. split; [|done]. split; simpl; [lia|]. intros t r f Hr Hf. specialize (H t r f Hr Hf). lia.
Qed.
Lemma iv_backward t h : vinv h -> iv (backward t) any h.
Proof.
  intros Hi. unfold backward. apply iv_get; [done|]. intros r Hr.
  do 3 (apply iv_read; [reads_tac|done|]; intros _ _). apply iv_read; [done|done|]. intros n _.
  eapply (iv_bind _ _ any).
  { unfold refresh_n_outway. apply iv_read; [done|done|]. intros m _.
    eapply iv_bind; [by apply iv_bump|]. intros v h1 Hi1 V1.
    eapply iv_bind; [apply iv_upd_fn; [done|]; intros; simpl; by rewrite V1|]. intros _ h2 Hi2 _.
    eapply iv_bind; [apply iv_bfs; [|done]|].
    { intros x h3 Hi3. apply iv_get_fn; [done|]. intros g. eapply iv_eq; [apply visit_reset_gv|]. apply iv_gv; done. }
    intros _ h3 Hi3 _. eapply iv_bind; [by apply iv_bump|]. intros v' h4 Hi4 V4.
    eapply iv_bind; [apply iv_upd_fn; [done|]; intros; simpl; by rewrite V4|]. intros _ h5 Hi5 _. apply iv_bfs; [|done].
    intros x h6 Hi6. apply iv_get_fn; [done|]. intros g. eapply iv_eq; [apply visit_count_gv|]. apply iv_gv; done. }
  intros _ h1 Hi1 _.
  eapply iv_bind; [apply iv_fk; [done|apply fk_ones_like]|]. intros o h2 Hi2 _. apply iv_get; [done|]. intros r2 Hr2.
  eapply iv_bind; [by apply iv_set_grad|].
  intros _ h3 Hi3 _. eapply iv_bind; [by apply iv_bump|]. intros v h4 Hi4 V4.
  eapply iv_bind; [apply iv_upd_fn; [done|]; intros; simpl; by rewrite V4|]. intros _ h5 Hi5 _. apply iv_bfs; [|done]. intros. by apply iv_process.
Qed.
Lemma iv_exec o h : vinv h -> iv (exec o) any h.
Proof.
  intros Hi. assert ((exists t, o = OBackward t) \/ forall t, o <> OBackward t) as [[t ->]|Hn].
  { destruct o; try (by right); left; by eexists. }
  { cbn [exec]. apply iv_deref; [done|]. intros x _. eapply iv_bind; [by apply iv_backward|]. done. }
  assert ((exists t, o = ORequires t false) \/ forall t, o <> ORequires t false) as [[t ->]|Hq].
  { destruct o; try (by right). destruct b; [by right|]. left; by eexists. }
  - cbn [exec]. apply iv_deref; [done|]. intros x _. eapply (iv_bind _ _ any); [|done]. apply iv_get; [done|]. intros r Hr.
    apply iv_set; [done|]. intros f Hf. destruct Hi as [_ Hi]. by eapply Hi.
  - apply iv_fk; [done|]. by apply fk_exec.
Qed.
Lemma iv_out {A} (m : E A) P h : iv m P h -> vinv (m h).2.
Proof. unfold iv, wp. destruct (m h) as [[?|?|?|] ?]; simpl; tauto. Qed.
Lemma vinv_run ops : forall h, vinv h -> vinv (run h ops).2.
Proof.
  induction ops as [|o ops IH]; intros h Hi; [done|]. cbn [run]. pose proof (iv_out _ _ _ (iv_exec o h Hi)) as H.
  destruct (exec o h) as [[a|e|u|] h'] eqn:E; simpl in *; try done; specialize (IH h' H); by destruct (run h' ops) as [[?|?|?|] h''].
Qed.
Lemma vinv_empty : vinv empty_heap.
Proof. split; [done|]. intros t r f Hr. cbn in Hr. by rewrite lookup_nil in Hr. Qed.
Lemma reachable_vinv h : reachable h -> vinv h.
Proof. intros (ops & rs & E). pose proof (vinv_run ops _ vinv_empty) as H. by rewrite E in H. Qed.

(** a history without backward and requires_grad(false) leaves every counter 0 *)
Lemma fk_out {A} (m : E A) P h : fk m P h -> fnk h (m h).2.
Proof. unfold fk, wp. destruct (m h) as [[?|?|?|] ?]; simpl; tauto. Qed.
Lemma fnk_run ops : forall h, Forall building ops -> fnk h (run h ops).2.
Proof.
  induction ops as [|o ops IH]; intros h Ho; [apply fnk_refl|]. apply Forall_cons in Ho as [[Ho Hq] Hos]. cbn [run].
  pose proof (fk_out _ _ _ (fk_exec o h Ho Hq)) as H. 
  destruct (exec o h) as [[a|e|u|] h'] eqn:E; simpl in *; try done; specialize (IH h' Hos);
    destruct (run h' ops) as [[?|?|?|] h'']; simpl in *; by eapply fnk_trans.
Qed.
Lemma counters_zero ops rs h t r f : Forall building ops -> run empty_heap ops = (Ok rs, h) ->
  h_ten h !! t = Some r -> t_fn r = Some f -> zero_counters f /\ t_rg r = true.
Proof.
  intros Ho E Hr Hf. pose proof (fnk_run ops empty_heap Ho) as [_ H]. rewrite E in H. simpl in H.
  destruct (H t r f Hr Hf) as [?|(r0 & Hr0 & _)]; [done|]. cbn in Hr0. by rewrite lookup_nil in Hr0.
Qed.
Lemma building_untraversed ops rs h t : Forall building ops -> run empty_heap ops = (Ok rs, h) -> untraversed h t.
Proof. intros Ho E x r f _ Hr Hf. destruct (counters_zero ops rs h x r f Ho E Hr Hf) as [(_ & H & _) ?]. done. Qed.
End with_fops.
