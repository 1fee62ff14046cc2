(** Frame of one step of backward: only the gradient buffers of its operands change.  This is
    Frame3 with the invariant on gradients restricted to a set of tensors. *)
From Verif.Spec Require Export Graph.
From Verif.Proofs Require Export Frame3.

Section with_fops.
Context {fo : FOps}.

Section frame.
Context (K : nat -> Prop) (h0 : heap) (W : nat -> Prop).
Notation kp := (kept K h0).
Notation wr := (wr K h0).
Notation owned := (owned K h0).
(** the gradients of the tensors in [W] are on writable buffers *)
Definition ng (h : heap) : Prop :=
  kp h /\ forall t r g, W t -> h_ten h !! t = Some r -> t_grad r = Some g -> owned g h.
Definition nk {A} (m : E A) (P : A -> heap -> Prop) (h : heap) : Prop :=
  wp m (fun a h' => ng h' /\ mono h h' /\ P a h') (fun _ => kp) h.
Notation any := (fun _ _ => True).

Lemma nk_bind {A B} (m : E A) (k : A -> E B) P P' h :
  nk m P h -> (forall a h', ng h' -> mono h h' -> P a h' -> nk (k a) P' h') -> nk (bind m k) P' h.
Proof.
  intros Hm Hk. apply wp_bind. eapply wp_mono; [exact Hm| |done]. intros a h' (H1 & H2 & H3).
  eapply wp_mono; [by apply Hk| |done]. intros b h'' (H4 & H5 & H6). split; [done|]. split; [|done].
  by eapply mono_trans.
Qed.
Lemma nk_mono {A} (m : E A) (P P' : A -> heap -> Prop) h :
  nk m P h -> (forall a h', ng h' -> P a h' -> P' a h') -> nk m P' h.
Proof. intros Hm H. eapply wp_mono; [exact Hm| |done]. intros a h' (H1 & H2 & H3). auto. Qed.
Lemma nk_ret {A} (a : A) (P : A -> heap -> Prop) h : ng h -> P a h -> nk (mret a) P h.
Proof. intros. split; [done|]. split; [apply mono_refl|done]. Qed.
Lemma ng_kp h : ng h -> kp h. Proof. by intros []. Qed.
Lemma nk_ub {A} u (P : A -> heap -> Prop) h : ng h -> nk (mub u) P h.
Proof. intros. by apply ng_kp. Qed.
Lemma nk_read {A B} (m : E A) (k : A -> E B) P h :
  reads m -> ng h -> (forall a, m h = (Ok a, h) -> nk (k a) P h) -> nk (bind m k) P h.
Proof.
  intros Hm Hh Hk. unfold nk, wp, bind. rewrite (reads_run m h Hm).
  destruct (m h).1 eqn:E; try (by apply ng_kp). apply Hk. rewrite (reads_run m h Hm). by rewrite E.
Qed.
Lemma ng_same h h' : ng h -> kp h' -> h_ten h' = h_ten h -> ng h'.
Proof.
  intros [Hk Hg] Hk' E. split; [done|]. intros t r g HW. rewrite E. intros Ht Hgr.
  eapply owned_same; [by eapply (Hg t)|done].
Qed.
(** a kernel *)
Lemma nk_kernel {A} (m : E A) h : ng h -> fr K h0 m (fun _ h' => h_ten h' = h_ten h) h -> nk m any h.
Proof.
  intros Hg Hf. eapply wp_mono; [exact Hf| |done]. intros a h' [H1 H2]. split; [by eapply ng_same|].
  split; [by apply mono_eq|done].
Qed.
Lemma ng_new h h' r : ng h -> kp h' -> h_ten h' = h_ten h ++ [r] -> t_grad r = None -> ng h'.
Proof.
  intros [Hk Hg] Hk' E Hn. split; [done|]. intros t x g HW. rewrite E. intros [H|[Hl H]]%lookup_app_Some Hx.
  - eapply owned_mono; [by eapply (Hg t)|by eapply mono_app].
  - destruct (t - length (h_ten h))%nat; [|done]. simpl in H. congruence.
Qed.
Lemma nk_create dt lay b h : ng h -> nk (create dt lay b) owned h.
Proof.
  intros Hg. eapply wp_mono; [apply (fr_create K h0); by apply ng_kp| |done].
  intros t h' [Hk (Ht & s & Hw & E)]. split; [by eapply ng_new|]. split; [by eapply mono_app|].
  by eapply owned_snoc.
Qed.
Lemma nk_create_view dt lay s h : ng h -> nk (create_view dt lay s) any h.
Proof.
  intros Hg. eapply wp_mono; [apply (fr_create_view K h0); by apply ng_kp| |done].
  intros t h' [Hk (Ht & ->)]. split; [by eapply ng_new|]. split; [by eapply mono_app|done].
Qed.
Lemma nk_create_scalar dt v h : ng h -> nk (create_scalar dt v) owned h.
Proof.
  intros Hg. unfold create_scalar. eapply nk_bind; [by apply nk_create|]. intros t h1 Hg1 _ Ho.
  apply nk_read; [apply reads_get_ten|done|]. intros r Hr. pose proof (owned_get _ _ _ _ _ _ Ho Hr).
  eapply nk_bind; [apply nk_kernel; [done|]; apply fr_store; [by apply ng_kp|done]|].
  intros ? h2 Hg2 M _. apply nk_ret; [done|]. by eapply owned_mono.
Qed.
Lemma nk_fill_new ss dt tmp nt h : ng h -> nk (fill_new ss dt tmp nt) owned h.
Proof.
  intros Hg. unfold fill_new. eapply nk_bind; [by apply nk_create|]. intros t h1 Hg1 _ Ho.
  apply nk_read; [apply reads_get_ten|done|]. intros r Hr. pose proof (owned_get _ _ _ _ _ _ Ho Hr).
  apply nk_read; [apply reads_get_ten|done|]. intros n _.
  eapply nk_bind; [apply nk_kernel; [done|]; apply fr_fill; [by apply ng_kp|done]|].
  intros ? h2 Hg2 M _. apply nk_ret; [done|]. by eapply owned_mono.
Qed.
Lemma nk_ones_like t h : ng h -> nk (ones_like t) owned h.
Proof.
  intros. unfold ones_like. apply nk_read; [apply reads_get_ten|done|]. intros r _.
  eapply nk_bind; [by apply nk_create_scalar|]. intros. by apply nk_fill_new.
Qed.
Lemma nk_full_double ss x dt h : ng h -> nk (full_double ss x dt) owned h.
Proof. intros. eapply nk_bind; [by apply nk_create_scalar|]. intros. by apply nk_fill_new. Qed.

(** changes of a record *)
Lemma nk_set t r r' h : ng h -> h_ten h !! t = Some r -> same_data r r' ->
  (forall g, W t -> t_grad r' = Some g -> owned g h) -> nk (set_ten t r') any h.
Proof.
  intros [Hk Hg] Ht Hsd Hr'. apply wp_set_ten. pose proof (mono_set h t r r' Ht Hsd) as M.
  split; [|done]. split; [by eapply kept_set|].
  intros t' x g HW. simpl. destruct (decide (t' = t)) as [->|Hne].
  - rewrite list_lookup_insert by (by eapply lookup_lt_Some). intros [= <-] Hx.
    eapply owned_mono; [by apply Hr'|done].
  - rewrite list_lookup_insert_ne by done. intros Hx1 Hx2. eapply owned_mono; [by eapply (Hg t')|done].
Qed.
Lemma nk_set_fn t r f h : ng h -> h_ten h !! t = Some r -> nk (set_ten t (with_fn r f)) any h.
Proof. intros Hg Ht. eapply nk_set; [done|done|done|]. intros g HW Hg'. by eapply (proj2 Hg t). Qed.
Lemma nk_upd_fn t f h : ng h -> nk (upd_fn t f) any h.
Proof.
  intros Hg. unfold upd_fn. apply nk_read; [apply reads_get_ten|done|]. intros r [Hr _]%get_ten_inv.
  case_match; [|by apply nk_ub]. by apply nk_set_fn.
Qed.
Lemma nk_update p h : W p -> ng h -> nk (try_accumulate_update p) any h.
Proof.
  intros HW Hg. unfold try_accumulate_update. apply nk_read; [apply reads_get_ten|done|]. intros r [Hr _]%get_ten_inv.
  case_match; [by apply nk_ret|].
  eapply (nk_bind _ _ any); [case_match; [by apply nk_upd_fn|by apply nk_ret]|].
  intros ? h1 Hg1 M1 _. destruct (t_grad r) as [g|] eqn:Eg.
  - assert (owned g h1) as Ho by (eapply owned_mono; [by eapply (proj2 Hg p)|done]).
    apply nk_read; [apply reads_get_ten|done|]. intros gr0 Hgr. pose proof (owned_get _ _ _ _ _ _ Ho Hgr).
    apply nk_read; [unfold sto_is_alloc; reads_tac|done|]. intros al _. destruct al; [by apply nk_ret|].
    eapply nk_bind; [apply nk_kernel; [done|]; apply fr_sto_alloc; [by apply ng_kp|done]|].
    intros ? h2 Hg2 M2 _. apply nk_kernel; [done|]. apply fr_sto_zero; [by apply ng_kp|done].
  - eapply nk_bind; [by apply nk_create|]. intros g h2 Hg2 M2 Ho.
    apply nk_read; [apply reads_get_ten|done|]. intros p' [Hp' _]%get_ten_inv.
    eapply nk_bind; [eapply nk_set; [done|done|done|]; by intros ? _ [= <-]|].
    intros ? h3 Hg3 M3 _. assert (owned g h3) as Ho3 by (by eapply owned_mono).
    apply nk_read; [apply reads_get_ten|done|]. intros gr0 Hgr. pose proof (owned_get _ _ _ _ _ _ Ho3 Hgr).
    apply nk_kernel; [done|]. apply fr_sto_zero; [by apply ng_kp|done].
Qed.
Lemma nk_mul_add d l r h : ng h -> owned d h -> nk (tensor_mul_add_f d l r) any h.
Proof.
  intros Hg Ho. unfold tensor_mul_add_f. apply nk_read; [apply reads_get_ten|done|]. intros dr Hd.
  pose proof (owned_get _ _ _ _ _ _ Ho Hd).
  apply nk_read; [apply reads_get_ten|done|]. intros lr _. apply nk_read; [apply reads_get_ten|done|]. intros rr _.
  apply nk_read; [apply reads_dispatch_ffi|done|]. intros _ _.
  apply nk_kernel; [done|]. apply fr_mul_acc; [by apply ng_kp|done].
Qed.
Lemma nk_addeq l r h : ng h -> owned l h -> nk (op_addeq l r) any h.
Proof.
  intros Hg Ho. apply nk_kernel; [done|]. apply fr_addeq; [by apply ng_kp|].
  intros x Hx. destruct Ho as (y & Hy & Hw). congruence.
Qed.
Lemma ng_owned t r g h : W t -> ng h -> h_ten h !! t = Some r -> deref (t_grad r) h = (Ok g, h) -> owned g h.
Proof. intros HW Hg Hr. destruct (t_grad r) eqn:E; [|done]. simpl. intros [= <-]. by eapply (proj2 Hg t). Qed.
Lemma nk_accumulate p w o h : W p -> ng h -> nk (try_accumulate_grad p w o) any h.
Proof.
  intros HW Hg. unfold try_accumulate_grad. apply nk_read; [apply reads_get_ten|done|]. intros pr _.
  case_match; [by apply nk_ret|]. eapply nk_bind; [by apply nk_update|]. intros ? h1 Hg1 M1 _.
  destruct o as [o|].
  - apply nk_read; [apply reads_deref|done|]. intros w' _. apply nk_read; [apply reads_get_ten|done|]. intros wr' _.
    apply nk_read; [apply reads_get_ten|done|]. intros p' [Hp' _]%get_ten_inv.
    apply nk_read; [apply reads_deref|done|]. intros g Hgd. pose proof (ng_owned _ _ _ _ HW Hg1 Hp' Hgd).
    case_match; by apply nk_mul_add.
  - destruct w as [w|]; [|by apply nk_ret].
    apply nk_read; [apply reads_get_ten|done|]. intros p' [Hp' _]%get_ten_inv.
    apply nk_read; [apply reads_deref|done|]. intros g Hgd. pose proof (ng_owned _ _ _ _ HW Hg1 Hp' Hgd).
    by apply nk_addeq.
Qed.
Lemma nk_cat_back this dim ins s h : Forall W ins -> ng h -> nk (cat_back this dim ins s) any h.
Proof.
  revert s h. induction ins as [|t ins IH]; intros s h HW Hg; [by apply nk_ret|]. apply Forall_cons in HW as [HW HWs]. cbn [cat_back].
  apply nk_read; [apply reads_get_ten|done|]. intros me _. apply nk_read; [apply reads_get_ten|done|]. intros x _.
  apply nk_read; [apply reads_deref|done|]. intros g _. apply nk_read; [apply reads_get_ten|done|]. intros gr' _.
  eapply nk_bind; [by apply nk_create_view|]. intros v h1 Hg1 _ _.
  eapply nk_bind; [by apply nk_accumulate|]. intros ? h2 Hg2 _ _. by apply IH.
Qed.
Lemma nk_step this k ins h : Forall W ins -> ng h -> nk (step_back this k ins) any h.
Proof.
  intros HW Hg. assert (forall i, reads (input ins i)) as Hin by (intros; apply reads_deref).
  assert (forall i a, input ins i h = (Ok a, h) -> W a) as HI.
  { intros i a. unfold input. destruct (ins !! i) as [x|] eqn:Ei; [|done]. intros [= <-]. by eapply Forall_lookup_1. }
  destruct k; cbn [step_back].
  - apply nk_read; [done|done|]. intros a Wa%HI. apply nk_read; [done|done|]. intros b Wb%HI.
    apply nk_read; [apply reads_out_grad|done|]. intros g _.
    eapply nk_bind; [by apply nk_accumulate|]. intros ? h1 Hg1 _ _.
    apply nk_read; [apply reads_out_grad|done|]. intros g' _. by apply nk_accumulate.
  - apply nk_read; [done|done|]. intros a Wa%HI. apply nk_read; [done|done|]. intros b Wb%HI.
    apply nk_read; [apply reads_out_grad|done|]. intros g _.
    eapply nk_bind; [by apply nk_accumulate|]. intros ? h1 Hg1 _ _.
    apply nk_read; [apply reads_out_grad|done|]. intros g' _.
    eapply nk_bind; [by apply nk_create_scalar|]. intros m h2 Hg2 _ _. by apply nk_accumulate.
  - apply nk_read; [done|done|]. intros a Wa%HI. apply nk_read; [done|done|]. intros b Wb%HI.
    apply nk_read; [apply reads_out_grad|done|]. intros g _.
    eapply nk_bind; [by apply nk_accumulate|]. intros ? h1 Hg1 _ _.
    apply nk_read; [apply reads_out_grad|done|]. intros g' _. by apply nk_accumulate.
  - apply nk_read; [done|done|]. intros a Wa%HI. apply nk_read; [done|done|]. intros b Wb%HI.
    eapply nk_bind; [by apply nk_update|]. intros ? h1 Hg1 _ _.
    apply nk_read; [apply reads_get_ten|done|]. intros ar [Har _]%get_ten_inv.
    apply nk_read; [apply reads_deref|done|]. intros ga Hga. pose proof (ng_owned _ _ _ _ Wa Hg1 Har Hga) as Ho.
    apply nk_read; [apply reads_out_grad|done|]. intros g _.
    eapply (nk_bind _ _ any).
    { unfold tensor_div_back_numerator_f. apply nk_read; [apply reads_get_ten|done|]. intros dr Hd.
      pose proof (owned_get _ _ _ _ _ _ Ho Hd).
      apply nk_read; [apply reads_get_ten|done|]. intros lr _. apply nk_read; [apply reads_get_ten|done|]. intros rr _.
      apply nk_read; [apply reads_dispatch_ffi|done|]. intros _ _.
      apply nk_kernel; [done|]. apply fr_div_num; [by apply ng_kp|done]. }
    intros ? h2 Hg2 _ _. eapply nk_bind; [by apply nk_update|]. intros ? h3 Hg3 _ _.
    apply nk_read; [apply reads_get_ten|done|]. intros br [Hbr _]%get_ten_inv.
    apply nk_read; [apply reads_get_ten|done|]. intros me _.
    apply nk_read; [apply reads_dispatch_ff|done|]. intros _ _.
    apply nk_read; [apply reads_deref|done|]. intros gb Hgb. pose proof (ng_owned _ _ _ _ Wb Hg3 Hbr Hgb) as Hob.
    apply nk_read; [apply reads_out_grad|done|]. intros g' _.
    apply nk_read; [apply reads_get_ten|done|]. intros gbr Hgbr. pose proof (owned_get _ _ _ _ _ _ Hob Hgbr).
    apply nk_read; [apply reads_get_ten|done|]. intros gr' _.
    apply nk_kernel; [done|]. apply fr_div_den; [by apply ng_kp|done].
  - apply nk_read; [done|done|]. intros a Wa%HI. eapply nk_bind; [by apply nk_ones_like|]. intros o h1 Hg1 _ _.
    apply nk_read; [apply reads_out_grad|done|]. intros g _. by apply nk_accumulate.
  - apply nk_read; [done|done|]. intros a Wa%HI. apply nk_read; [apply reads_get_ten|done|]. intros ar _.
    eapply nk_bind; [by apply nk_full_double|]. intros f h1 Hg1 _ _. by apply nk_accumulate.
  - apply nk_read; [done|done|]. intros a Wa%HI. by apply nk_accumulate.
  - apply nk_read; [done|done|]. intros a Wa%HI. apply nk_read; [apply reads_out_grad|done|]. intros g _. by apply nk_accumulate.
  - by apply nk_cat_back.
  - apply nk_read; [done|done|]. intros a Wa%HI. apply nk_read; [apply reads_out_grad|done|]. intros g _. by apply nk_accumulate.
Qed.

Lemma nk_bump h : ng h -> nk bump any h.
Proof. intros [Hk Hg]. split; [|split; [by apply mono_eq|done]]. split; [done|]. exact Hg. Qed.
Lemma nk_visit_reset ins h : ng h -> nk (visit_reset ins) any h.
Proof.
  revert h. induction ins as [|i ins IH]; intros h Hg; [by apply nk_ret|]. cbn [visit_reset].
  apply nk_read; [apply reads_get_ten|done|]. intros r [Hr _]%get_ten_inv.
  apply nk_read; [apply reads_global|done|]. intros v _. destruct (t_fn r) as [f|]; [|by apply IH].
  case_match; [|by apply IH]. eapply nk_bind; [by apply nk_set_fn|]. intros ? h1 Hg1 _ _.
  eapply nk_bind; [by apply IH|]. intros. by apply nk_ret.
Qed.
Lemma nk_visit_count ins h : ng h -> nk (visit_count ins) any h.
Proof.
  revert h. induction ins as [|i ins IH]; intros h Hg; [by apply nk_ret|]. cbn [visit_count].
  apply nk_read; [apply reads_get_ten|done|]. intros r [Hr _]%get_ten_inv.
  apply nk_read; [apply reads_global|done|]. intros v _. destruct (t_fn r) as [f|]; [|by apply IH].
  case_match; (eapply nk_bind; [by apply nk_set_fn|]); intros ? h1 Hg1 _ _; [|by apply IH].
  eapply nk_bind; [by apply IH|]. intros. by apply nk_ret.
Qed.
Lemma nk_bfs fuel body q h : ng h -> (forall t h, ng h -> nk (body t) any h) -> nk (bfs fuel body q) any h.
Proof.
  intros Hg Hb. revert q h Hg. induction fuel as [|n IH]; intros [|t q] h Hg; cbn [bfs].
  - by apply nk_ret. - by apply ng_kp. - by apply nk_ret.
  - eapply nk_bind; [by apply Hb|]. intros new h1 Hg1 _ _. by apply IH.
Qed.
Lemma nk_refresh t h : ng h -> nk (refresh_n_outway t) any h.
Proof.
  intros Hg. unfold refresh_n_outway. apply nk_read; [done|done|]. intros n _.
  eapply nk_bind; [by apply nk_bump|]. intros v h1 Hg1 _ _.
  eapply nk_bind; [by apply nk_upd_fn|]. intros ? h2 Hg2 _ _.
  eapply nk_bind; [apply nk_bfs; [done|]|].
  { intros x h3 Hg3. apply nk_read; [apply reads_get_fn|done|]. intros. by apply nk_visit_reset. }
  intros ? h3 Hg3 _ _. eapply nk_bind; [by apply nk_bump|]. intros v' h4 Hg4 _ _.
  eapply nk_bind; [by apply nk_upd_fn|]. intros ? h5 Hg5 _ _.
  apply nk_bfs; [done|]. intros x h6 Hg6. apply nk_read; [apply reads_get_fn|done|]. intros. by apply nk_visit_count.
Qed.
Lemma nk_visit_ready ins h : ng h -> nk (visit_ready ins) any h.
Proof.
  revert h. induction ins as [|i ins IH]; intros h Hg; [by apply nk_ret|]. cbn [visit_ready].
  apply nk_read; [apply reads_get_ten|done|]. intros r [Hr _]%get_ten_inv.
  apply nk_read; [apply reads_global|done|]. intros v _. destruct (t_fn r) as [f|]; [|by apply IH].
  case_match; [|by apply IH]. eapply nk_bind; [by apply nk_set_fn|]. intros ? h1 Hg1 _ _.
  eapply nk_bind; [by apply IH|]. intros. by apply nk_ret.
Qed.
Lemma nk_process t h : Forall W (inputs h t) -> ng h -> nk (process t) any h.
Proof.
  intros HW Hg. unfold process. apply nk_read; [apply reads_get_fn|done|]. intros f Hf.
  assert (Forall W (gf_in f)) as HWf.
  { unfold inputs, fn_of in HW. unfold get_fn, get_ten, bind in Hf. destruct (h_ten h !! t) as [r|]; [|done]. simpl in Hf.
    destruct (t_fn r) as [f'|]; [|done]. simpl in Hf. by injection Hf as <-. }
  eapply nk_bind; [by apply nk_step|]. intros ? h1 Hg1 _ _.
  apply nk_read; [apply reads_get_ten|done|]. intros r [Hr _]%get_ten_inv.
  eapply (nk_bind _ _ any).
  { case_match; [by apply nk_ret|]. by eapply nk_set. }
  intros ? h2 Hg2 _ _. apply nk_read; [apply reads_get_fn|done|]. intros. by apply nk_visit_ready.
Qed.
Lemma nk_prepare t h : ng h -> nk (prepare t) any h.
Proof.
  intros Hg. unfold prepare. apply nk_read; [apply reads_get_ten|done|]. intros r _.
  do 3 (apply nk_read; [apply reads_expect|done|]; intros _ _).
  eapply nk_bind; [by apply nk_refresh|]. intros ? h1 Hg1 _ _.
  eapply nk_bind; [by apply nk_ones_like|]. intros o h2 Hg2 _ Ho.
  apply nk_read; [apply reads_get_ten|done|]. intros r' [Hr' _]%get_ten_inv.
  eapply nk_bind; [eapply nk_set; [done|done|done|]; by intros ? _ [= <-]|]. intros ? h3 Hg3 _ _.
  eapply nk_bind; [by apply nk_bump|]. intros v h4 Hg4 _ _. by apply nk_upd_fn.
Qed.
End frame.
End with_fops.
