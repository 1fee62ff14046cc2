(** Two instances of the floating-point operations: all calls. *)
From Verif.Proofs Require Export Rel2.
From Verif.Spec Require Export Watch.
From Verif.Model Require Import Api.

Section rel.
Context {fa fb : FOps} {R : fty -> @F fa -> @F fb -> Prop} {clean : @F fa -> Prop} (HR : related fa fb R clean).
Notation frel := (fty -> @F fa -> @F fb -> Prop).

Section heap.
Variables (Qs : nat -> frel) (n0 : nat).
Hypothesis Q0 : forall s u, Qs s u f_zero f_zero.
Notation I := (hrel Qs n0).
Lemma p_zeros ss dt : pr I eq (@zeros fa ss dt) (@zeros fb ss dt).
Proof.
  unfold zeros. apply pr_bind_eq; [apply p_create|]. intros t. apply pr_bind_eq; [apply p_get_ten|]. intros d.
  apply pr_bind_eq; [apply p_zero; apply Q0|]. intros _. by apply pr_ret.
Qed.
Lemma p_zeros_like t : pr I eq (@zeros_like fa t) (@zeros_like fb t).
Proof. unfold zeros_like. apply pr_bind_eq; [apply p_get_ten|]. intros r. apply p_zeros. Qed.
Lemma p_share a b : pr I eq (@share_grad_storage fa a b) (@share_grad_storage fb a b).
Proof.
  unfold share_grad_storage. apply pr_bind_eq; [apply p_get_ten|]. intros f. apply pr_bind_eq.
  { destruct (t_grad f); [by apply pr_ret|]. apply pr_bind_eq; [apply p_create|]. intros g. apply p_set_ten. }
  intros _. apply pr_bind_eq; [apply p_get_ten|]. intros f'. destruct (t_grad f'); [|apply pr_ub].
  apply pr_bind_eq; [apply p_get_ten|]. intros g. apply pr_bind_eq; [apply p_get_ten|]. intros t. apply pr_bind_eq; [apply p_view|]. intros v.
  apply pr_bind_eq; [apply p_get_ten|]. intros t'. apply p_set_ten.
Qed.
Lemma p_finish a b : pr I eq (@finish_view fa a b) (@finish_view fb a b).
Proof.
  unfold finish_view. apply pr_bind_eq; [apply p_get_ten|]. intros i. destruct (negb _); [by apply pr_ret|].
  apply pr_bind_eq; [apply p_track|]. intros _. apply pr_bind_eq; [apply p_share|]. intros _. by apply pr_ret.
Qed.
Lemma p_get_all l : pr I eq (@get_all fa l) (@get_all fb l).
Proof.
  induction l as [|t l IH]; cbn [get_all]; [by apply pr_ret|]. apply pr_bind_eq; [apply p_get_ten|]. intros r. apply pr_bind_eq; [done|]. intros rs. by apply pr_ret.
Qed.
Lemma p_reset l : pr I eq (@visit_reset fa l) (@visit_reset fb l).
Proof.
  induction l as [|t l IH]; cbn [visit_reset]; [by apply pr_ret|]. apply pr_bind_eq; [apply p_get_ten|]. intros r. apply pr_bind_eq; [apply p_version|]. intros v.
  destruct (t_fn r) as [g|]; [|done]. destruct (_ <? _); [|done]. apply pr_bind_eq; [apply p_set_ten|]. intros _. apply pr_bind_eq; [done|]. intros q. by apply pr_ret.
Qed.
Lemma p_count l : pr I eq (@visit_count fa l) (@visit_count fb l).
Proof.
  induction l as [|t l IH]; cbn [visit_count]; [by apply pr_ret|]. apply pr_bind_eq; [apply p_get_ten|]. intros r. apply pr_bind_eq; [apply p_version|]. intros v.
  destruct (t_fn r) as [g|]; [|done]. cbv zeta. destruct (_ <? _); (apply pr_bind_eq; [apply p_set_ten|]); intros _; [|done]. apply pr_bind_eq; [done|]. intros q. by apply pr_ret.
Qed.
Lemma p_ready l : pr I eq (@visit_ready fa l) (@visit_ready fb l).
Proof.
  induction l as [|t l IH]; cbn [visit_ready]; [by apply pr_ret|]. apply pr_bind_eq; [apply p_get_ten|]. intros r. apply pr_bind_eq; [apply p_version|]. intros v.
  destruct (t_fn r) as [g|]; [|done]. destruct (_ && _); [|done]. apply pr_bind_eq; [apply p_set_ten|]. intros _. apply pr_bind_eq; [done|]. intros q. by apply pr_ret.
Qed.
Lemma p_bfs n body body' q : (forall t, pr I eq (body t) (body' t)) -> pr I eq (@bfs fa n body q) (@bfs fb n body' q).
Proof.
  intros Hb. revert q. induction n as [|n IH]; intros [|t q]; cbn [bfs]; try (by apply pr_ret); [apply pr_diverge|]. apply pr_bind_eq; [apply Hb|]. intros l. apply IH.
Qed.
Lemma p_refresh t : pr I eq (@refresh_n_outway fa t) (@refresh_n_outway fb t).
Proof.
  unfold refresh_n_outway. apply pr_bind_eq; [apply p_size|]. intros n. apply pr_bind_eq; [apply p_bump|]. intros v.
  apply pr_bind_eq; [apply p_upd_fn|]. intros _. apply pr_bind_eq.
  { apply p_bfs. intros x. apply pr_bind_eq; [apply p_get_fn|]. intros g. apply p_reset. }
  intros _. apply pr_bind_eq; [apply p_bump|]. intros w. apply pr_bind_eq; [apply p_upd_fn|]. intros _.
  apply p_bfs. intros x. apply pr_bind_eq; [apply p_get_fn|]. intros g. apply p_count.
Qed.
End heap.

Notation K := (fun _ : nat => R).
Notation I := (hrel K 0).
Ltac gt := apply pr_bind_eq; [apply p_get_ten|intros ?].
Tactic Notation "bk" uconstr(L) := apply pr_bind_eq; [apply L|intros ?].
Ltac rt := by apply pr_ret.
Lemma p_scalar dt v v' : vrel R dt v v' -> pr I eq (@create_scalar fa dt v) (@create_scalar fb dt v').
Proof. intros H. unfold create_scalar. bk p_create. gt. apply pr_bind_eq; [by apply p_store|]. intros _. rt. Qed.
Lemma p_fill_new ss dt t nt : pr I eq (@fill_new fa ss dt t nt) (@fill_new fb ss dt t nt).
Proof. unfold fill_new. bk p_create. gt. gt. apply pr_bind_eq; [apply (p_fill HR)|]. intros _. rt. Qed.
Lemma p_ones ss dt : pr I eq (@ones fa ss dt) (@ones fb ss dt).
Proof. unfold ones. apply pr_bind_eq; [by apply p_scalar|]. intros t. apply p_fill_new. Qed.
Lemma p_ones_like t : pr I eq (@ones_like fa t) (@ones_like fb t).
Proof. unfold ones_like. gt. apply p_ones. Qed.
Lemma p_full_int ss n dt : pr I eq (@full_int fa ss n dt) (@full_int fb ss n dt).
Proof. unfold full_int. apply pr_bind_eq; [by apply p_scalar|]. intros t. apply p_fill_new. Qed.
Lemma p_full_double ss x x' dt : R FT64 x x' -> pr I eq (@full_double fa ss x dt) (@full_double fb ss x' dt).
Proof. intros H. unfold full_double. apply pr_bind_eq; [by apply p_scalar|]. intros t. apply p_fill_new. Qed.
Lemma p_eye_op n m dt : pr I eq (@eye fa n m dt) (@eye fb n m dt).
Proof. unfold eye. bk p_create. gt. apply pr_bind_eq; [apply p_zero; intros; apply HR|]. intros _. apply pr_bind_eq; [apply (p_eye HR)|]. intros _. rt. Qed.
Lemma p_from_blob d d' ss dt : Forall2 (vrel R dt) d d' -> pr I eq (@from_blob fa d ss dt) (@from_blob fb d' ss dt).
Proof.
  intros Hd. unfold from_blob. intros h h' H. unfold bind. 
  destruct (p_create K 0 dt (contig ss) true h h' H) as [E|[E H1]]; destruct (create dt (contig ss) true h) as [o h1] eqn:C1, (create dt (contig ss) true h') as [o' h1'] eqn:C2; cbn [fst snd] in *.
  { subst. by left. }
  destruct o as [t|?|?|], o' as [t'|?|?|]; try done; try (right; by split). cbn in E. subst t'.
  destruct (p_get_ten K 0 t h1 h1' H1) as [E|[E H2]]; destruct (get_ten t h1) as [o h2] eqn:C3, (get_ten t h1') as [o' h2'] eqn:C4; cbn [fst snd] in *.
  { subst. by left. }
  destruct o as [r|?|?|], o' as [r'|?|?|]; try done; try (right; by split). cbn in E. subst r'.
  assert (forall s, get_sto (t_sto r) h2 = (Ok s, h2) -> sto_ty s = dt) as Hty.
  { unfold create in C1. unfold bind, new_sto, create_view, new_ten in C1. destruct (lift _ _) as [[b|?|?|] hx] eqn:L; try done. unfold lift in L. injection L as L <-.
    injection C1 as <- <-. unfold get_ten in C3. cbn [h_ten] in C3. rewrite lookup_app_r, Nat.sub_diag in C3 by done. injection C3 as <- <-.
    unfold get_sto. cbn [h_sto t_sto]. rewrite lookup_app_r, Nat.sub_diag by done. cbn. intros s E. by injection E as <-. }
  destruct (p_get_sto K 0 (t_sto r) h2 h2' H2) as [E|[E H3]]; destruct (get_sto (t_sto r) h2) as [o h3] eqn:C5, (get_sto (t_sto r) h2') as [o' h3'] eqn:C6; cbn [fst snd] in *.
  { subst. by left. }
  destruct o as [s|?|?|], o' as [s'|?|?|]; try done; try (right; by split). cbn in E. destruct E as (E1 & E2 & B).
  assert (sto_ty s = dt) as Ety. { apply Hty. f_equal. unfold get_sto in C5. destruct (h_sto h2 !! t_sto r); congruence. }
  destruct B as [cs cs' B|]; [|right; by split]. rewrite <- (Forall2_length _ _ _ Hd), <- (Forall2_length _ _ _ B). destruct (_ <? _); [right; by split|].
  rewrite <- E1, <- E2. 
  destruct (p_set_sto K 0 (t_sto r) (Sto (sto_ty s) (sto_bytes s) (Some (map Some (firstn (length cs) d)))) (Sto (sto_ty s) (sto_bytes s) (Some (map Some (firstn (length cs) d')))) ltac:(
    split; [done|]; split; [done|]; constructor; cbn [sto_ty]; rewrite Ety; apply Forall2_fmap_2; apply Forall2_take; eapply Forall2_impl; [exact Hd|]; intros; by constructor) h3 h3' H3) as [E|[E H4]]; [by left|].
  right. by split.
Qed.
Lemma p_apply kernel kernel' l r o : (forall L T d a b, pr I eq (kernel L T d a b) (kernel' L T d a b)) ->
  pr I eq (@apply_no_grad_binary_op fa kernel l r o) (@apply_no_grad_binary_op fb kernel' l r o).
Proof.
  intros Hk. unfold apply_no_grad_binary_op. gt. gt. cbv zeta. apply pr_bind_eq; [apply pr_same|intros rg]. bk p_create. gt. apply pr_bind_eq; [|intros _; rt].
  destruct o; [apply Hk|]. case_bool_decide; apply Hk.
Qed.
Lemma p_apply_op kernel kernel' k l r o : (forall L T d a b, pr I eq (kernel L T d a b) (kernel' L T d a b)) ->
  pr I eq (@apply_binary_operator fa kernel k l r o) (@apply_binary_operator fb kernel' k l r o).
Proof.
  intros Hk. unfold apply_binary_operator. apply pr_bind_eq; [by apply p_apply|intros x]. gt. gt. destruct (_ && _); [rt|]. bk p_track. rt.
Qed.
Lemma p_op_sub l r : pr I eq (@op_sub fa l r) (@op_sub fb l r).
Proof. apply p_apply_op. intros. apply (p_sub HR). Qed.
Lemma p_op_add l r : pr I eq (@op_add fa l r) (@op_add fb l r).
Proof. apply p_apply_op. intros. apply (p_add HR). Qed.
Lemma p_op_mul l r : pr I eq (@op_mul fa l r) (@op_mul fb l r).
Proof. apply p_apply_op. intros. apply (p_mul HR). Qed.
Lemma p_op_div l r : pr I eq (@op_div fa l r) (@op_div fb l r).
Proof. apply p_apply_op. intros. apply (p_div HR). Qed.
Lemma p_op_neg t : pr I eq (@op_neg fa t) (@op_neg fb t).
Proof. unfold op_neg. apply pr_bind_eq; [by apply p_scalar|]. intros z. apply p_op_sub. Qed.
Lemma p_addeq l r : pr I eq (@op_addeq fa l r) (@op_addeq fb l r).
Proof. unfold op_addeq. gt. gt. bk pr_expect. apply (p_add HR). Qed.
Lemma p_to_dtype t dt : pr I eq (@to_dtype fa t dt) (@to_dtype fb t dt).
Proof.
  unfold to_dtype. gt. destruct (_ && _); [apply pr_throw|]. case_bool_decide; [rt|]. bk p_create. gt. apply pr_bind_eq; [apply (p_to_type HR)|intros _].
  destruct (negb _); [rt|]. bk p_track. rt.
Qed.
Lemma p_op_sum t : pr I eq (@op_sum fa t) (@op_sum fb t).
Proof.
  unfold op_sum. gt. apply pr_bind_eq; [apply p_zeros; intros; apply HR|intros ?]. gt. apply pr_bind_eq; [apply (p_sum HR)|intros _]. apply pr_bind_eq; [|intros _; rt].
  destruct (t_rg _); [apply p_track|rt].
Qed.
Lemma p_op_mean t : pr I eq (@op_mean fa t) (@op_mean fb t).
Proof.
  unfold op_mean. gt. apply pr_bind_eq; [apply p_zeros; intros; apply HR|intros ?]. gt. apply pr_bind_eq; [apply (p_mean HR)|intros _]. apply pr_bind_eq; [|intros _; rt].
  destruct (t_rg _); [apply p_track|rt].
Qed.
Lemma p_zero_grad t : pr I eq (@zero_grad fa t) (@zero_grad fb t).
Proof. unfold zero_grad. gt. destruct (t_grad _); [|rt]. gt. apply p_zero; intros; apply HR. Qed.
Lemma p_slice t s : pr I eq (@op_slice fa t s) (@op_slice fb t s).
Proof. unfold op_slice. gt. apply pr_bind_eq; [apply pr_same|intros ?]. bk p_view. apply p_finish. Qed.
Lemma p_transpose t i j : pr I eq (@op_transpose fa t i j) (@op_transpose fb t i j).
Proof. unfold op_transpose. gt. cbv zeta. bk pr_expect. bk pr_expect. bk p_view. apply p_finish. Qed.
Lemma p_op_clone t : pr I eq (@op_clone fa t) (@op_clone fb t).
Proof.
  unfold op_clone. gt. bk p_create. gt. apply pr_bind_eq; [apply (p_clone HR)|intros _]. destruct (negb _); [rt|]. bk p_track. rt.
Qed.
Lemma p_reshape_sv t ss : pr I eq (@op_reshape_sv fa t ss) (@op_reshape_sv fb t ss).
Proof.
  unfold op_reshape_sv. gt. cbv zeta. bk pr_expect. apply pr_bind_eq.
  { destruct (_ =? 1); [|rt]. bk p_view. destruct (negb _); [rt|]. bk p_track. bk p_share. rt. }
  intros [tf|]; [rt|]. apply pr_bind_eq; [destruct (Nat.ltb _ _); [apply pr_ub|rt]|intros _]. apply pr_bind_eq; [apply pr_same|intros iso]. apply pr_bind_eq.
  { destruct iso.
    - apply pr_bind_eq; [destruct ss; [rt|]; destruct (last _); [rt|apply pr_ub]|intros sts]. bk p_view. rt.
    - bk p_op_clone. gt. bk p_view. rt. }
  intros [tf ln]. gt. destruct (negb _); [rt|]. bk p_track. bk p_share. rt.
Qed.
Lemma p_reshape t ss : pr I eq (@op_reshape fa t ss) (@op_reshape fb t ss).
Proof. unfold op_reshape. gt. apply pr_bind_eq; [apply pr_same|intros ?]. apply p_reshape_sv. Qed.
Lemma p_reshape_as t o : pr I eq (@op_reshape_as fa t o) (@op_reshape_as fb t o).
Proof. unfold op_reshape_as. gt. apply p_reshape_sv. Qed.
Lemma p_detach t : pr I eq (@op_detach fa t) (@op_detach fb t).
Proof. unfold op_detach. gt. apply p_view. Qed.
Lemma p_randn_write dt s i x x' : R FT32 x x' -> pr I eq (@randn_write fa dt s i x) (@randn_write fb dt s i x').
Proof.
  intros H. unfold randn_write. case_bool_decide; [by apply p_store|]. eapply pr_bind; [apply p_get_sto|]. intros r r' (E1 & E2 & B).
  destruct B as [cs cs' B|]; [|apply pr_ub]. rewrite <- (Forall2_length _ _ _ B), <- E1, <- E2. destruct (_ <=? _); [|apply pr_ub].
  apply p_set_sto. split; [done|]. split; [done|]. constructor. cbn [sto_ty]. apply Forall2_insert; [|constructor]. apply Forall2_insert; [done|constructor].
Qed.
Lemma p_randn ss dt xs xs' : Forall2 (R FT32) xs xs' -> pr I eq (@op_randn fa ss dt xs) (@op_randn fb ss dt xs').
Proof.
  intros H. unfold op_randn. bk pr_expect. bk p_create. gt. apply pr_bind_eq; [|intros _; rt]. apply pr_mapM. intros i. apply p_randn_write.
  generalize (Z.to_nat i). clear -H HR. induction H as [|x x' xs xs' Hx H IH]; intros [|n]; cbn; try apply HR; done.
Qed.
Lemma p_cat_copy dt d dst ts o : pr I eq (@cat_copy fa dt d dst ts o) (@cat_copy fb dt d dst ts o).
Proof. revert o. induction ts as [|t ts IH]; intros o; cbn [cat_copy]; [rt|]. apply pr_bind_eq; [apply (p_cat HR)|intros _]. apply IH. Qed.
Lemma p_op_cat ts d : pr I eq (@op_cat fa ts d) (@op_cat fb ts d).
Proof.
  unfold op_cat. bk p_get_all. destruct a as [|r0 rest]; [apply pr_ub|]. cbv zeta. bk pr_expect. bk pr_expect. bk p_create. gt.
  apply pr_bind_eq; [apply p_cat_copy|intros _]. destruct (existsb _ _); [|rt]. bk p_track. rt.
Qed.

(** ** backward *)
Lemma p_update t : pr I eq (@try_accumulate_update fa t) (@try_accumulate_update fb t).
Proof.
  unfold try_accumulate_update. gt. destruct (negb _); [rt|]. apply pr_bind_eq; [destruct (t_fn _); [apply p_upd_fn|rt]|intros _].
  destruct (t_grad _).
  - gt. bk p_is_alloc. destruct a1; [rt|]. bk p_alloc. apply p_zero; intros; apply HR.
  - bk p_create. gt. bk p_set_ten. gt. apply p_zero; intros; apply HR.
Qed.
Lemma p_mul_add d l r : pr I eq (@tensor_mul_add_f fa d l r) (@tensor_mul_add_f fb d l r).
Proof. unfold tensor_mul_add_f. gt. gt. gt. bk p_ffi. apply (p_mul_acc HR). Qed.
Lemma p_acc t w o : pr I eq (@try_accumulate_grad fa t w o) (@try_accumulate_grad fb t w o).
Proof.
  unfold try_accumulate_grad. gt. destruct (negb _); [rt|]. bk p_update. destruct o as [o|].
  - apply pr_bind_eq; [apply p_deref|intros w']. gt. gt. apply pr_bind_eq; [apply p_deref|intros g]. destruct (is_float _); apply p_mul_add.
  - destruct w; [|rt]. gt. apply pr_bind_eq; [apply p_deref|intros g]. apply p_addeq.
Qed.
Lemma p_cat_back t d l s : pr I eq (@cat_back fa t d l s) (@cat_back fb t d l s).
Proof.
  revert s. induction l as [|x l IH]; intros s; cbn [cat_back]; [rt|]. gt. gt. cbv zeta. apply pr_bind_eq; [apply p_deref|intros g]. gt. bk p_view. bk p_acc. apply IH.
Qed.
Lemma p_step t k l : pr I eq (@step_back fa t k l) (@step_back fb t k l).
Proof.
  destruct k; cbn [step_back].
  - bk p_input. bk p_input. bk p_out_grad. bk p_acc. bk p_out_grad. apply p_acc.
  - bk p_input. bk p_input. bk p_out_grad. bk p_acc. bk p_out_grad. apply pr_bind_eq; [by apply p_scalar|intros ?]. apply p_acc.
  - bk p_input. bk p_input. bk p_out_grad. bk p_acc. bk p_out_grad. apply p_acc.
  - bk p_input. bk p_input. bk p_update. gt. apply pr_bind_eq; [apply p_deref|intros ga]. bk p_out_grad. apply pr_bind_eq.
    { unfold tensor_div_back_numerator_f. gt. gt. gt. bk p_ffi. apply (p_div_num HR). }
    intros _. bk p_update. gt. gt. bk p_ff. apply pr_bind_eq; [apply p_deref|intros gb]. bk p_out_grad. gt. gt. apply (p_div_den HR).
  - bk p_input. bk p_ones_like. bk p_out_grad. apply p_acc.
  - bk p_input. gt. apply pr_bind_eq; [apply p_full_double; apply (R_div HR); apply (R_of HR)|intros ?]. apply p_acc.
  - bk p_input. apply p_acc.
  - bk p_input. bk p_out_grad. apply p_acc.
  - apply p_cat_back.
  - bk p_input. bk p_out_grad. apply p_acc.
Qed.
Lemma p_process t : pr I eq (@process fa t) (@process fb t).
Proof.
  unfold process. bk p_get_fn. bk p_step. gt. apply pr_bind_eq; [destruct (t_ret _); [rt|apply p_set_ten]|intros _]. bk p_get_fn. apply p_ready.
Qed.
Lemma p_backward t : pr I eq (@backward fa t) (@backward fb t).
Proof.
  unfold backward. gt. bk pr_expect. bk pr_expect. bk pr_expect. bk p_size. bk p_refresh. bk p_ones_like. gt.
  bk p_set_ten. bk p_bump. bk p_upd_fn. apply p_bfs. intros x. apply p_process.
Qed.
End rel.
