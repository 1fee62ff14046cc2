(** Frame of backward: only gradient buffers change. *)
From Verif.Spec Require Export Grad.
From Verif.Proofs Require Export Frame2.

Section with_fops.
Context {fo : FOps}.

(** tensors are not removed and keep their data *)
Definition mono (h h' : heap) : Prop :=
  forall t r, h_ten h !! t = Some r -> exists r', h_ten h' !! t = Some r' /\ same_data r r'.
Lemma mono_refl h : mono h h.
Proof. intros t r H. exists r. done. Qed.
Lemma mono_eq h h' : h_ten h' = h_ten h -> mono h h'.
Proof. intros E t r H. exists r. by rewrite E. Qed.
Lemma mono_trans h1 h2 h3 : mono h1 h2 -> mono h2 h3 -> mono h1 h3.
Proof.
  intros H1 H2 t r Hr. destruct (H1 t r Hr) as (x & Hx & Sx). destruct (H2 t x Hx) as (y & Hy & Sy).
  exists y. split; [done|]. by eapply same_data_trans.
Qed.
Lemma mono_app h h' r : h_ten h' = h_ten h ++ [r] -> mono h h'.
Proof. intros E t x Hx. exists x. rewrite E. split; [by apply lookup_app_l_Some|done]. Qed.
Lemma mono_set h t r r' : h_ten h !! t = Some r -> same_data r r' ->
  mono h (Hp (h_sto h) (<[t := r']> (h_ten h)) (h_ver h)).
Proof.
  intros Ht Hsd u x Hx. simpl. destruct (decide (t = u)) as [<-|Hne].
  - exists r'. rewrite list_lookup_insert by (by eapply lookup_lt_Some). split; [done|congruence].
  - exists x. by rewrite list_lookup_insert_ne.
Qed.

Section frame.
Context (K : nat -> Prop) (h0 : heap).
Notation kp := (kept K h0).
Notation wr := (wr K h0).
Notation owned := (owned K h0).
(** all gradients are on writable buffers *)
Definition gr (h : heap) : Prop :=
  kp h /\ forall t r g, h_ten h !! t = Some r -> t_grad r = Some g -> owned g h.
Definition bk {A} (m : E A) (P : A -> heap -> Prop) (h : heap) : Prop :=
  wp m (fun a h' => gr h' /\ mono h h' /\ P a h') (fun _ => kp) h.
Notation any := (fun _ _ => True).

Lemma owned_mono t h h' : owned t h -> mono h h' -> owned t h'.
Proof.
  intros (r & Hr & Hw) Hm. destruct (Hm t r Hr) as (r' & Hr' & _ & _ & E). exists r'. split; [done|]. by rewrite <- E.
Qed.
Lemma bk_bind {A B} (m : E A) (k : A -> E B) P P' h :
  bk m P h -> (forall a h', gr h' -> mono h h' -> P a h' -> bk (k a) P' h') -> bk (bind m k) P' h.
Proof.
  intros Hm Hk. apply wp_bind. eapply wp_mono; [exact Hm| |done]. intros a h' (H1 & H2 & H3).
  eapply wp_mono; [by apply Hk| |done]. intros b h'' (H4 & H5 & H6). split; [done|]. split; [|done].
  by eapply mono_trans.
Qed.
Lemma bk_mono {A} (m : E A) (P P' : A -> heap -> Prop) h :
  bk m P h -> (forall a h', gr h' -> P a h' -> P' a h') -> bk m P' h.
Proof. intros Hm H. eapply wp_mono; [exact Hm| |done]. intros a h' (H1 & H2 & H3). auto. Qed.
Lemma bk_ret {A} (a : A) (P : A -> heap -> Prop) h : gr h -> P a h -> bk (mret a) P h.
Proof. intros. split; [done|]. split; [apply mono_refl|done]. Qed.
Lemma gr_kp h : gr h -> kp h. Proof. by intros []. Qed.
Lemma bk_ub {A} u (P : A -> heap -> Prop) h : gr h -> bk (mub u) P h.
Proof. intros. by apply gr_kp. Qed.
Lemma bk_read {A B} (m : E A) (k : A -> E B) P h :
  reads m -> gr h -> (forall a, m h = (Ok a, h) -> bk (k a) P h) -> bk (bind m k) P h.
Proof.
  intros Hm Hh Hk. unfold bk, wp, bind. rewrite (reads_run m h Hm).
  destruct (m h).1 eqn:E; try (by apply gr_kp). apply Hk. rewrite (reads_run m h Hm). by rewrite E.
Qed.
Lemma gr_same h h' : gr h -> kp h' -> h_ten h' = h_ten h -> gr h'.
Proof.
  intros [Hk Hg] Hk' E. split; [done|]. intros t r g. rewrite E. intros Ht Hgr.
  eapply owned_same; [by eapply Hg|done].
Qed.
(** a kernel *)
Lemma bk_kernel {A} (m : E A) h : gr h -> fr K h0 m (fun _ h' => h_ten h' = h_ten h) h -> bk m any h.
Proof.
  intros Hg Hf. eapply wp_mono; [exact Hf| |done]. intros a h' [H1 H2]. split; [by eapply gr_same|].
  split; [by apply mono_eq|done].
Qed.
Lemma gr_new h h' r : gr h -> kp h' -> h_ten h' = h_ten h ++ [r] -> t_grad r = None -> gr h'.
Proof.
  intros [Hk Hg] Hk' E Hn. split; [done|]. intros t x g. rewrite E. intros [H|[Hl H]]%lookup_app_Some Hx.
  - eapply owned_mono; [by eapply Hg|by eapply mono_app].
  - destruct (t - length (h_ten h))%nat; [|done]. simpl in H. congruence.
Qed.
Lemma owned_snoc h h' r t : h_ten h' = h_ten h ++ [r] -> t = length (h_ten h) -> wr (t_sto r) -> owned t h'.
Proof. intros E -> Hw. exists r. rewrite E. split; [apply lookup_snoc|done]. Qed.
Lemma bk_create dt lay b h : gr h -> bk (create dt lay b) owned h.
Proof.
  intros Hg. eapply wp_mono; [apply (fr_create K h0); by apply gr_kp| |done].
  intros t h' [Hk (Ht & s & Hw & E)]. split; [by eapply gr_new|]. split; [by eapply mono_app|].
  by eapply owned_snoc.
Qed.
Lemma bk_create_view dt lay s h : gr h -> bk (create_view dt lay s) any h.
Proof.
  intros Hg. eapply wp_mono; [apply (fr_create_view K h0); by apply gr_kp| |done].
  intros t h' [Hk (Ht & ->)]. split; [by eapply gr_new|]. split; [by eapply mono_app|done].
Qed.
Lemma bk_create_scalar dt v h : gr h -> bk (create_scalar dt v) owned h.
Proof.
  intros Hg. unfold create_scalar. eapply bk_bind; [by apply bk_create|]. intros t h1 Hg1 _ Ho.
  apply bk_read; [apply reads_get_ten|done|]. intros r Hr. pose proof (owned_get _ _ _ _ _ _ Ho Hr).
  eapply bk_bind; [apply bk_kernel; [done|]; apply fr_store; [by apply gr_kp|done]|].
  intros ? h2 Hg2 M _. apply bk_ret; [done|]. by eapply owned_mono.
Qed.
Lemma bk_fill_new ss dt tmp nt h : gr h -> bk (fill_new ss dt tmp nt) owned h.
Proof.
  intros Hg. unfold fill_new. eapply bk_bind; [by apply bk_create|]. intros t h1 Hg1 _ Ho.
  apply bk_read; [apply reads_get_ten|done|]. intros r Hr. pose proof (owned_get _ _ _ _ _ _ Ho Hr).
  apply bk_read; [apply reads_get_ten|done|]. intros n _.
  eapply bk_bind; [apply bk_kernel; [done|]; apply fr_fill; [by apply gr_kp|done]|].
  intros ? h2 Hg2 M _. apply bk_ret; [done|]. by eapply owned_mono.
Qed.
Lemma bk_ones_like t h : gr h -> bk (ones_like t) owned h.
Proof.
  intros. unfold ones_like. apply bk_read; [apply reads_get_ten|done|]. intros r _.
  eapply bk_bind; [by apply bk_create_scalar|]. intros. by apply bk_fill_new.
Qed.
Lemma bk_full_double ss x dt h : gr h -> bk (full_double ss x dt) owned h.
Proof. intros. eapply bk_bind; [by apply bk_create_scalar|]. intros. by apply bk_fill_new. Qed.

(** changes of a record *)
Lemma bk_set t r r' h : gr h -> h_ten h !! t = Some r -> same_data r r' ->
  (forall g, t_grad r' = Some g -> owned g h) -> bk (set_ten t r') any h.
Proof.
  intros [Hk Hg] Ht Hsd Hr'. apply wp_set_ten. pose proof (mono_set h t r r' Ht Hsd) as M.
  split; [|done]. split; [by eapply kept_set|].
  intros t' x g. simpl. destruct (decide (t' = t)) as [->|Hne].
  - rewrite list_lookup_insert by (by eapply lookup_lt_Some). intros [= <-] Hx.
    eapply owned_mono; [by apply Hr'|done].
  - rewrite list_lookup_insert_ne by done. intros Hx1 Hx2. eapply owned_mono; [by eapply Hg|done].
Qed.
Lemma bk_set_fn t r f h : gr h -> h_ten h !! t = Some r -> bk (set_ten t (with_fn r f)) any h.
Proof. intros Hg Ht. eapply bk_set; [done|done|done|]. intros g Hg'. by eapply Hg. Qed.
Lemma bk_upd_fn t f h : gr h -> bk (upd_fn t f) any h.
Proof.
  intros Hg. unfold upd_fn. apply bk_read; [apply reads_get_ten|done|]. intros r [Hr _]%get_ten_inv.
  case_match; [|by apply bk_ub]. by apply bk_set_fn.
Qed.
Lemma bk_update p h : gr h -> bk (try_accumulate_update p) any h.
Proof.
  intros Hg. unfold try_accumulate_update. apply bk_read; [apply reads_get_ten|done|]. intros r [Hr _]%get_ten_inv.
  case_match; [by apply bk_ret|].
  eapply (bk_bind _ _ any); [case_match; [by apply bk_upd_fn|by apply bk_ret]|].
  intros ? h1 Hg1 M1 _. destruct (t_grad r) as [g|] eqn:Eg.
  - assert (owned g h1) as Ho by (eapply owned_mono; [by eapply Hg|done]).
    apply bk_read; [apply reads_get_ten|done|]. intros gr0 Hgr. pose proof (owned_get _ _ _ _ _ _ Ho Hgr).
    apply bk_read; [unfold sto_is_alloc; reads_tac|done|]. intros al _. destruct al; [by apply bk_ret|].
    eapply bk_bind; [apply bk_kernel; [done|]; apply fr_sto_alloc; [by apply gr_kp|done]|].
    intros ? h2 Hg2 M2 _. apply bk_kernel; [done|]. apply fr_sto_zero; [by apply gr_kp|done].
  - eapply bk_bind; [by apply bk_create|]. intros g h2 Hg2 M2 Ho.
    apply bk_read; [apply reads_get_ten|done|]. intros p' [Hp' _]%get_ten_inv.
    eapply bk_bind; [eapply bk_set; [done|done|done|]; by intros ? [= <-]|].
    intros ? h3 Hg3 M3 _. assert (owned g h3) as Ho3 by (by eapply owned_mono).
    apply bk_read; [apply reads_get_ten|done|]. intros gr0 Hgr. pose proof (owned_get _ _ _ _ _ _ Ho3 Hgr).
    apply bk_kernel; [done|]. apply fr_sto_zero; [by apply gr_kp|done].
Qed.
Lemma reads_dispatch_ffi a b : reads (dispatch_ffi a b).
Proof. unfold dispatch_ffi. by case_match. Qed.
Lemma reads_dispatch_ff a b : reads (dispatch_ff a b).
Proof. unfold dispatch_ff. by case_match. Qed.
Lemma bk_mul_add d l r h : gr h -> owned d h -> bk (tensor_mul_add_f d l r) any h.
Proof.
  intros Hg Ho. unfold tensor_mul_add_f. apply bk_read; [apply reads_get_ten|done|]. intros dr Hd.
  pose proof (owned_get _ _ _ _ _ _ Ho Hd).
  apply bk_read; [apply reads_get_ten|done|]. intros lr _. apply bk_read; [apply reads_get_ten|done|]. intros rr _.
  apply bk_read; [apply reads_dispatch_ffi|done|]. intros _ _.
  apply bk_kernel; [done|]. apply fr_mul_acc; [by apply gr_kp|done].
Qed.
Lemma bk_addeq l r h : gr h -> owned l h -> bk (op_addeq l r) any h.
Proof.
  intros Hg Ho. apply bk_kernel; [done|]. apply fr_addeq; [by apply gr_kp|].
  intros x Hx. destruct Ho as (y & Hy & Hw). congruence.
Qed.
Lemma grad_owned t r g h : gr h -> h_ten h !! t = Some r -> deref (t_grad r) h = (Ok g, h) -> owned g h.
Proof. intros Hg Hr. destruct (t_grad r) eqn:E; [|done]. simpl. intros [= <-]. by eapply Hg. Qed.
Lemma bk_accumulate p w o h : gr h -> bk (try_accumulate_grad p w o) any h.
Proof.
  intros Hg. unfold try_accumulate_grad. apply bk_read; [apply reads_get_ten|done|]. intros pr _.
  case_match; [by apply bk_ret|]. eapply bk_bind; [by apply bk_update|]. intros ? h1 Hg1 M1 _.
  destruct o as [o|].
  - apply bk_read; [apply reads_deref|done|]. intros w' _. apply bk_read; [apply reads_get_ten|done|]. intros wr' _.
    apply bk_read; [apply reads_get_ten|done|]. intros p' [Hp' _]%get_ten_inv.
    apply bk_read; [apply reads_deref|done|]. intros g Hgd. pose proof (grad_owned _ _ _ _ Hg1 Hp' Hgd).
    case_match; by apply bk_mul_add.
  - destruct w as [w|]; [|by apply bk_ret].
    apply bk_read; [apply reads_get_ten|done|]. intros p' [Hp' _]%get_ten_inv.
    apply bk_read; [apply reads_deref|done|]. intros g Hgd. pose proof (grad_owned _ _ _ _ Hg1 Hp' Hgd).
    by apply bk_addeq.
Qed.
Lemma reads_out_grad t : reads (out_grad t).
Proof. unfold out_grad. apply reads_bind; [apply reads_get_ten|]. intros. apply reads_deref. Qed.
Lemma bk_cat_back this dim ins s h : gr h -> bk (cat_back this dim ins s) any h.
Proof.
  revert s h. induction ins as [|t ins IH]; intros s h Hg; [by apply bk_ret|]. cbn [cat_back].
  apply bk_read; [apply reads_get_ten|done|]. intros me _. apply bk_read; [apply reads_get_ten|done|]. intros x _.
  apply bk_read; [apply reads_deref|done|]. intros g _. apply bk_read; [apply reads_get_ten|done|]. intros gr' _.
  eapply bk_bind; [by apply bk_create_view|]. intros v h1 Hg1 _ _.
  eapply bk_bind; [by apply bk_accumulate|]. intros ? h2 Hg2 _ _. by apply IH.
Qed.
Lemma bk_step this k ins h : gr h -> bk (step_back this k ins) any h.
Proof.
  intros Hg. assert (forall i, reads (input ins i)) as Hin by (intros; apply reads_deref).
  destruct k; cbn [step_back].
  - apply bk_read; [done|done|]. intros a _. apply bk_read; [done|done|]. intros b _.
    apply bk_read; [apply reads_out_grad|done|]. intros g _.
    eapply bk_bind; [by apply bk_accumulate|]. intros ? h1 Hg1 _ _.
    apply bk_read; [apply reads_out_grad|done|]. intros g' _. by apply bk_accumulate.
  - apply bk_read; [done|done|]. intros a _. apply bk_read; [done|done|]. intros b _.
    apply bk_read; [apply reads_out_grad|done|]. intros g _.
    eapply bk_bind; [by apply bk_accumulate|]. intros ? h1 Hg1 _ _.
    apply bk_read; [apply reads_out_grad|done|]. intros g' _.
    eapply bk_bind; [by apply bk_create_scalar|]. intros m h2 Hg2 _ _. by apply bk_accumulate.
  - apply bk_read; [done|done|]. intros a _. apply bk_read; [done|done|]. intros b _.
    apply bk_read; [apply reads_out_grad|done|]. intros g _.
    eapply bk_bind; [by apply bk_accumulate|]. intros ? h1 Hg1 _ _.
    apply bk_read; [apply reads_out_grad|done|]. intros g' _. by apply bk_accumulate.
  - apply bk_read; [done|done|]. intros a _. apply bk_read; [done|done|]. intros b _.
    eapply bk_bind; [by apply bk_update|]. intros ? h1 Hg1 _ _.
    apply bk_read; [apply reads_get_ten|done|]. intros ar [Har _]%get_ten_inv.
    apply bk_read; [apply reads_deref|done|]. intros ga Hga. pose proof (grad_owned _ _ _ _ Hg1 Har Hga) as Ho.
    apply bk_read; [apply reads_out_grad|done|]. intros g _.
    eapply (bk_bind _ _ any).
    { unfold tensor_div_back_numerator_f. apply bk_read; [apply reads_get_ten|done|]. intros dr Hd.
      pose proof (owned_get _ _ _ _ _ _ Ho Hd).
      apply bk_read; [apply reads_get_ten|done|]. intros lr _. apply bk_read; [apply reads_get_ten|done|]. intros rr _.
      apply bk_read; [apply reads_dispatch_ffi|done|]. intros _ _.
      apply bk_kernel; [done|]. apply fr_div_num; [by apply gr_kp|done]. }
    intros ? h2 Hg2 _ _. eapply bk_bind; [by apply bk_update|]. intros ? h3 Hg3 _ _.
    apply bk_read; [apply reads_get_ten|done|]. intros br [Hbr _]%get_ten_inv.
    apply bk_read; [apply reads_get_ten|done|]. intros me _.
    apply bk_read; [apply reads_dispatch_ff|done|]. intros _ _.
    apply bk_read; [apply reads_deref|done|]. intros gb Hgb. pose proof (grad_owned _ _ _ _ Hg3 Hbr Hgb) as Hob.
    apply bk_read; [apply reads_out_grad|done|]. intros g' _.
    apply bk_read; [apply reads_get_ten|done|]. intros gbr Hgbr. pose proof (owned_get _ _ _ _ _ _ Hob Hgbr).
    apply bk_read; [apply reads_get_ten|done|]. intros gr' _.
    apply bk_kernel; [done|]. apply fr_div_den; [by apply gr_kp|done].
  - apply bk_read; [done|done|]. intros a _. eapply bk_bind; [by apply bk_ones_like|]. intros o h1 Hg1 _ _.
    apply bk_read; [apply reads_out_grad|done|]. intros g _. by apply bk_accumulate.
  - apply bk_read; [done|done|]. intros a _. apply bk_read; [apply reads_get_ten|done|]. intros ar _.
    eapply bk_bind; [by apply bk_full_double|]. intros f h1 Hg1 _ _. by apply bk_accumulate.
  - apply bk_read; [done|done|]. intros a _. by apply bk_accumulate.
  - apply bk_read; [done|done|]. intros a _. apply bk_read; [apply reads_out_grad|done|]. intros g _. by apply bk_accumulate.
  - by apply bk_cat_back.
  - apply bk_read; [done|done|]. intros a _. apply bk_read; [apply reads_out_grad|done|]. intros g _. by apply bk_accumulate.
Qed.

(** ** traversal *)
Lemma reads_global : reads global_version. Proof. done. Qed.
Lemma bk_bump h : gr h -> bk bump any h.
Proof. intros [Hk Hg]. split; [|split; [by apply mono_eq|done]]. split; [done|]. exact Hg. Qed.
Lemma bk_visit_reset ins h : gr h -> bk (visit_reset ins) any h.
Proof.
  revert h. induction ins as [|i ins IH]; intros h Hg; [by apply bk_ret|]. cbn [visit_reset].
  apply bk_read; [apply reads_get_ten|done|]. intros r [Hr _]%get_ten_inv.
  apply bk_read; [apply reads_global|done|]. intros v _. destruct (t_fn r) as [f|]; [|by apply IH].
  case_match; [|by apply IH]. eapply bk_bind; [by apply bk_set_fn|]. intros ? h1 Hg1 _ _.
  eapply bk_bind; [by apply IH|]. intros. by apply bk_ret.
Qed.
Lemma bk_visit_count ins h : gr h -> bk (visit_count ins) any h.
Proof.
  revert h. induction ins as [|i ins IH]; intros h Hg; [by apply bk_ret|]. cbn [visit_count].
  apply bk_read; [apply reads_get_ten|done|]. intros r [Hr _]%get_ten_inv.
  apply bk_read; [apply reads_global|done|]. intros v _. destruct (t_fn r) as [f|]; [|by apply IH].
  case_match; (eapply bk_bind; [by apply bk_set_fn|]); intros ? h1 Hg1 _ _; [|by apply IH].
  eapply bk_bind; [by apply IH|]. intros. by apply bk_ret.
Qed.
Lemma bk_visit_ready ins h : gr h -> bk (visit_ready ins) any h.
Proof.
  revert h. induction ins as [|i ins IH]; intros h Hg; [by apply bk_ret|]. cbn [visit_ready].
  apply bk_read; [apply reads_get_ten|done|]. intros r [Hr _]%get_ten_inv.
  apply bk_read; [apply reads_global|done|]. intros v _. destruct (t_fn r) as [f|]; [|by apply IH].
  case_match; [|by apply IH]. eapply bk_bind; [by apply bk_set_fn|]. intros ? h1 Hg1 _ _.
  eapply bk_bind; [by apply IH|]. intros. by apply bk_ret.
Qed.
Lemma bk_bfs fuel body q h : gr h -> (forall t h, gr h -> bk (body t) any h) -> bk (bfs fuel body q) any h.
Proof.
  intros Hg Hb. revert q h Hg. induction fuel as [|n IH]; intros [|t q] h Hg; cbn [bfs].
  - by apply bk_ret. - by apply gr_kp. - by apply bk_ret.
  - eapply bk_bind; [by apply Hb|]. intros new h1 Hg1 _ _. by apply IH.
Qed.
Lemma reads_get_fn t : reads (get_fn t).
Proof. unfold get_fn. apply reads_bind; [apply reads_get_ten|]. intros. apply reads_deref. Qed.
Lemma bk_refresh t h : gr h -> bk (refresh_n_outway t) any h.
Proof.
  intros Hg. unfold refresh_n_outway. apply bk_read; [done|done|]. intros n _.
  eapply bk_bind; [by apply bk_bump|]. intros v h1 Hg1 _ _.
  eapply bk_bind; [by apply bk_upd_fn|]. intros ? h2 Hg2 _ _.
  eapply bk_bind; [apply bk_bfs; [done|]|].
  { intros x h3 Hg3. apply bk_read; [apply reads_get_fn|done|]. intros. by apply bk_visit_reset. }
  intros ? h3 Hg3 _ _. eapply bk_bind; [by apply bk_bump|]. intros v' h4 Hg4 _ _.
  eapply bk_bind; [by apply bk_upd_fn|]. intros ? h5 Hg5 _ _.
  apply bk_bfs; [done|]. intros x h6 Hg6. apply bk_read; [apply reads_get_fn|done|]. intros. by apply bk_visit_count.
Qed.
Lemma bk_process t h : gr h -> bk (process t) any h.
Proof.
  intros Hg. unfold process. apply bk_read; [apply reads_get_fn|done|]. intros f _.
  eapply bk_bind; [by apply bk_step|]. intros ? h1 Hg1 _ _.
  apply bk_read; [apply reads_get_ten|done|]. intros r [Hr _]%get_ten_inv.
  eapply (bk_bind _ _ any).
  { case_match; [by apply bk_ret|]. by eapply bk_set. }
  intros ? h2 Hg2 _ _. apply bk_read; [apply reads_get_fn|done|]. intros. by apply bk_visit_ready.
Qed.
Lemma bk_backward t h : gr h -> bk (backward t) any h.
Proof.
  intros Hg. unfold backward. apply bk_read; [apply reads_get_ten|done|]. intros r _.
  do 3 (apply bk_read; [apply reads_expect|done|]; intros _ _). apply bk_read; [done|done|]. intros n _.
  eapply bk_bind; [by apply bk_refresh|]. intros ? h1 Hg1 _ _.
  eapply bk_bind; [by apply bk_ones_like|]. intros o h2 Hg2 _ Ho.
  apply bk_read; [apply reads_get_ten|done|]. intros r' [Hr' _]%get_ten_inv.
  eapply bk_bind; [eapply bk_set; [done|done|done|]; by intros ? [= <-]|]. intros ? h3 Hg3 _ _.
  eapply bk_bind; [by apply bk_bump|]. intros v h4 Hg4 _ _.
  eapply bk_bind; [by apply bk_upd_fn|]. intros ? h5 Hg5 _ _.
  apply bk_bfs; [done|]. intros. by apply bk_process.
Qed.
End frame.

(** C58, for states in which gradients exist *)
Lemma backward_keeps_data h t : grads_exist h ->
  kept_outside (is_grad_buffer h) h (exec (OBackward t) h).2.
Proof.
  intros He. apply kept_kept_outside. cbn [exec].
  destruct t as [t|]; [|by apply kept_refl].
  assert (gr (fun s => ~ is_grad_buffer h s) h h) as Hg.
  { split; [done|]. intros t' r g Ht Hg. destruct (He t' r g Ht Hg) as [gr Hgr]. exists gr. split; [done|].
    left. intros Hn. apply Hn. by exists t', r, g, gr. }
  pose proof (bk_backward _ _ t h Hg) as Hb. unfold no_result, bk, wp, bind in *. simpl.
  destruct (backward t h) as [[?|?|?|] h']; simpl; try done. by destruct Hb as [[? _] _].
Qed.
End with_fops.
