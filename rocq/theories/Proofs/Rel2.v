(** Two instances of the floating-point operations: buffers, elements and kernels. *)
From Verif.Proofs Require Export Rel1.

(** How values of the two instances are related, and which values of the first can be compared. *)
Record related (fa fb : FOps) (R : fty -> @F fa -> @F fb -> Prop) (clean : @F fa -> Prop) : Prop := Related {
  R_zero : forall t, R t f_zero f_zero;
  C_zero : clean f_zero;
  R_of : forall t z, R t (f_of_Z t z) (f_of_Z t z);
  C_of : forall t z, -1 <= z <= 1 -> clean (f_of_Z t z);
  R_cvt : forall t u x y, R t x y -> R u (f_cvt u x) (f_cvt u y);
  R_add : forall t x y a b, R t x y -> R t a b -> R t (f_add t x a) (f_add t y b);
  R_sub : forall t x y a b, R t x y -> R t a b -> R t (f_sub t x a) (f_sub t y b);
  R_mul : forall t x y a b, R t x y -> R t a b -> R t (f_mul t x a) (f_mul t y b);
  R_div : forall t x y a b, R t x y -> R t a b -> R t (f_div t x a) (f_div t y b);
  R_neg : forall t x y, R t x y -> R t (f_neg x) (f_neg y);
  C_neg : forall x, clean x -> clean (f_neg x);
  R_lt : forall t x y a b, R t x y -> R t a b -> clean x -> clean a -> f_lt x a = f_lt y b;
  R_le : forall t x y a b, R t x y -> R t a b -> clean x -> clean a -> f_le x a = f_le y b;
  R_eq : forall t x y a b, R t x y -> R t a b -> clean x -> clean a -> f_eq x a = f_eq y b;
  R_trunc : forall t x y, R t x y -> f_trunc x = None \/ f_trunc x = f_trunc y
}.
Arguments R_zero {_ _ _ _}. Arguments C_zero {_ _ _ _}. Arguments R_of {_ _ _ _}. Arguments C_of {_ _ _ _}. Arguments R_cvt {_ _ _ _}.
Arguments R_add {_ _ _ _}. Arguments R_sub {_ _ _ _}. Arguments R_mul {_ _ _ _}. Arguments R_div {_ _ _ _}. Arguments R_neg {_ _ _ _}.
Arguments C_neg {_ _ _ _}. Arguments R_lt {_ _ _ _}. Arguments R_le {_ _ _ _}. Arguments R_eq {_ _ _ _}. Arguments R_trunc {_ _ _ _}.

Section rel.
Context {fa fb : FOps} {R : fty -> @F fa -> @F fb -> Prop} {clean : @F fa -> Prop} (HR : related fa fb R clean).
Notation frel := (fty -> @F fa -> @F fb -> Prop).

(** values of type [t] *)
Definition vrel (Q : frel) (t : dtype) (v : @val fa) (v' : @val fb) : Prop :=
  match v, v' with
  | VI z, VI z' => is_int t = true /\ z = z'
  | VF x, VF x' => is_int t = false /\ Q (fty_of t) x x'
  | _, _ => False
  end.
Definition crel (Q : frel) (t : dtype) : option (@val fa) -> option (@val fb) -> Prop := option_Forall2 (vrel Q t).
Definition brel (Q : frel) (t : dtype) : option (list (option (@val fa))) -> option (list (option (@val fb))) -> Prop := option_Forall2 (Forall2 (crel Q t)).
Definition strel (Q : frel) (s : @storage fa) (s' : @storage fb) : Prop :=
  sto_ty s = sto_ty s' /\ sto_bytes s = sto_bytes s' /\ brel Q (sto_ty s) (sto_blob s) (sto_blob s').
(** heaps: buffer [s] is related by [Qs s] *)
Record hrel (Qs : nat -> frel) (n : nat) (h : @heap fa) (h' : @heap fb) : Prop := Hrel {
  hr_len : length (h_sto h) = length (h_sto h');
  hr_new : (n <= length (h_sto h))%nat;
  hr_sto : forall s x, h_sto h !! s = Some x -> exists x', h_sto h' !! s = Some x' /\ strel (Qs s) x x';
  hr_ten : h_ten h = h_ten h';
  hr_ver : h_ver h = h_ver h'
}.

Section heap.
Variables (Qs : nat -> frel) (n0 : nat).
Notation I := (hrel Qs n0).
Lemma p_get_ten t : pr I eq (@get_ten fa t) (@get_ten fb t).
Proof. intros h h' H. right. unfold get_ten. rewrite <- (hr_ten _ _ _ _ H). by destruct (h_ten h !! t). Qed.
Lemma p_set_ten t r : pr I eq (@set_ten fa t r) (@set_ten fb t r).
Proof. intros h h' [H1 H2 H3 H4 H5]. right. split; [done|]. split; cbn; [done|done|done|by rewrite H4|done]. Qed.
Lemma p_new_ten r : pr I eq (@new_ten fa r) (@new_ten fb r).
Proof. intros h h' [H1 H2 H3 H4 H5]. right. unfold new_ten. cbn. rewrite <- H4. split; [done|]. split; cbn; done. Qed.
Lemma p_get_sto s : pr I (strel (Qs s)) (@get_sto fa s) (@get_sto fb s).
Proof.
  intros h h' H. right. unfold get_sto. destruct (h_sto h !! s) as [x|] eqn:E.
  - destruct (hr_sto _ _ _ _ H _ _ E) as (x' & -> & K). done.
  - apply lookup_ge_None in E. rewrite (hr_len _ _ _ _ H) in E. apply lookup_ge_None in E as ->. done.
Qed.
Lemma p_set_sto s x x' : strel (Qs s) x x' -> pr I eq (@set_sto fa s x) (@set_sto fb s x').
Proof.
  intros K h h' [H1 H2 H3 H4 H5]. right. split; [done|]. split; cbn; rewrite ?insert_length; try done.
  intros s1 y [(<- & <- & L)|[N E]]%list_lookup_insert_Some.
  - exists x'. split; [|done]. apply list_lookup_insert. by rewrite <- H1.
  - rewrite list_lookup_insert_ne by done. by apply H3.
Qed.
Lemma p_new_sto x x' : (forall s, (n0 <= s)%nat -> strel (Qs s) x x') -> pr I (fun s s' => s = s' /\ (n0 <= s)%nat) (@new_sto fa x) (@new_sto fb x').
Proof.
  intros K h h' [H1 H2 H3 H4 H5]. right. split; [by split|]. split; cbn; rewrite ?app_length; cbn; [lia|lia| |done|done].
  intros s1 y [E|[L E]]%lookup_app_Some.
  - destruct (H3 _ _ E) as (y' & E' & ?). exists y'. split; [by apply lookup_app_l_Some|done].
  - apply list_lookup_singleton_Some in E as [Z <-]. exists x'. split; [|apply K; lia]. rewrite lookup_app_r by lia. by rewrite <- H1, Z.
Qed.

Lemma fresh_rel Q t b : Forall2 (crel Q t) (fresh_cells (fo:=fa) t b) (fresh_cells (fo:=fb) t b).
Proof. unfold fresh_cells. apply Forall2_replicate. constructor. Qed.
Lemma p_blob Q t b : ore (Forall2 (crel Q t)) (new_blob (fo:=fa) t b) (new_blob (fo:=fb) t b).
Proof. unfold new_blob. destruct (b <=? alloc_max); [|by right]. apply ore_ok, fresh_rel. Qed.
Lemma p_alloc s : pr I eq (@sto_alloc fa s) (@sto_alloc fb s).
Proof.
  unfold sto_alloc. eapply pr_bind; [apply p_get_sto|]. intros x x' (E1 & E2 & _). rewrite <- E1, <- E2.
  eapply pr_bind; [apply pr_lift, p_blob|]. intros cs cs' Hcs. apply p_set_sto. split; [done|]. split; [done|]. by constructor.
Qed.
Lemma p_release s : pr I eq (@sto_release fa s) (@sto_release fb s).
Proof.
  unfold sto_release. eapply pr_bind; [apply p_get_sto|]. intros x x' (E1 & E2 & _). rewrite <- E1, <- E2.
  apply p_set_sto. split; [done|]. split; [done|]. by constructor.
Qed.
Lemma p_is_alloc s : pr I eq (@sto_is_alloc fa s) (@sto_is_alloc fb s).
Proof.
  unfold sto_is_alloc. eapply pr_bind; [apply p_get_sto|]. intros x x' (E1 & E2 & B). apply pr_ret. by destruct B.
Qed.
Lemma zero_rel (Q : frel) t : (forall u, Q u f_zero f_zero) -> vrel Q t (zero_val (fo:=fa) t) (zero_val (fo:=fb) t).
Proof. intros H. unfold zero_val. destruct (is_int t) eqn:E; cbn; by rewrite E. Qed.
Lemma p_zero s : (forall u, Qs s u f_zero f_zero) -> pr I eq (@sto_zero fa s) (@sto_zero fb s).
Proof.
  intros H0. unfold sto_zero. eapply pr_bind; [apply p_get_sto|]. intros x x' (E1 & E2 & B). destruct B as [cs cs' B|]; [|by apply pr_ret].
  rewrite <- E1, <- E2. apply p_set_sto. split; [done|]. split; [done|]. constructor. apply Forall2_fmap_2. eapply Forall2_impl; [exact B|].
  intros ? ? _. constructor. by apply zero_rel.
Qed.
Lemma p_load t s p : pr I (vrel (Qs s) t) (@load fa t s p) (@load fb t s p).
Proof.
  unfold load. eapply pr_bind; [apply p_get_sto|]. intros x x' (E1 & E2 & B). destruct B as [cs cs' B|]; [|by apply pr_ub].
  rewrite <- E1, <- (Forall2_length _ _ _ B). case_bool_decide as Et; [|apply pr_ub]. destruct (_ && _); [|apply pr_ub].
  rewrite Et in B. destruct (cs !! Z.to_nat p) as [c|] eqn:Ec.
  - destruct (Forall2_lookup_l _ _ _ _ _ B Ec) as (c' & -> & K). destruct K; [by apply pr_ret|apply pr_ub].
  - apply lookup_ge_None in Ec. rewrite (Forall2_length _ _ _ B) in Ec. apply lookup_ge_None in Ec as ->. apply pr_ub.
Qed.
Lemma p_store t s p v v' : vrel (Qs s) t v v' -> pr I eq (@store fa t s p v) (@store fb t s p v').
Proof.
  intros Hv. unfold store. eapply pr_bind; [apply p_get_sto|]. intros x x' (E1 & E2 & B). destruct B as [cs cs' B|]; [|by apply pr_ub].
  rewrite <- E1, <- E2, <- (Forall2_length _ _ _ B). case_bool_decide as Et; [|apply pr_ub]. destruct (_ && _); [|apply pr_ub].
  apply p_set_sto. split; [done|]. split; [done|]. constructor. cbn [sto_ty]. rewrite Et in *. apply Forall2_insert; [done|by constructor].
Qed.
Lemma p_bump : pr I eq (@bump fa) (@bump fb).
Proof. intros h h' [H1 H2 H3 H4 H5]. right. unfold bump. cbn. rewrite <- H5. split; [done|]. by split. Qed.
Lemma p_version : pr I eq (@global_version fa) (@global_version fb).
Proof. intros h h' H. right. unfold global_version. cbn. by rewrite <- (hr_ver _ _ _ _ H). Qed.
Lemma p_size : pr I eq (@heap_size fa) (@heap_size fb).
Proof. intros h h' H. right. unfold heap_size. cbn. by rewrite <- (hr_ten _ _ _ _ H). Qed.
Lemma p_aug t sv : pr I eq (@idx_aug fa t sv) (@idx_aug fb t sv). Proof. apply pr_same. Qed.
Lemma p_exact t sv : pr I eq (@idx_exact fa t sv) (@idx_exact fb t sv). Proof. apply pr_same. Qed.
Lemma p_load_aug T t sv : pr I (vrel (Qs (t_sto t)) T) (@load_aug fa T t sv) (@load_aug fb T t sv).
Proof. unfold load_aug. eapply pr_bind_eq; [apply p_aug|]. intros p. apply p_load. Qed.
Lemma p_load_exact T t sv : pr I (vrel (Qs (t_sto t)) T) (@load_exact fa T t sv) (@load_exact fb T t sv).
Proof. unfold load_exact. eapply pr_bind_eq; [apply p_exact|]. intros p. apply p_load. Qed.
Lemma p_deref {A} (o : option A) : pr I eq (@deref fa _ o) (@deref fb _ o).
Proof. destruct o; [by apply pr_ret|apply pr_ub]. Qed.
Lemma p_out_grad t : pr I eq (@out_grad fa t) (@out_grad fb t).
Proof. unfold out_grad. apply pr_bind_eq; [apply p_get_ten|]. intros r. apply p_deref. Qed.
Lemma p_input l i : pr I eq (@input fa l i) (@input fb l i). Proof. apply p_deref. Qed.
Lemma p_ffi a b : pr I eq (@dispatch_ffi fa a b) (@dispatch_ffi fb a b).
Proof. unfold dispatch_ffi. destruct (_ && _); [by apply pr_ret|apply pr_ub]. Qed.
Lemma p_ff a b : pr I eq (@dispatch_ff fa a b) (@dispatch_ff fb a b).
Proof. unfold dispatch_ff. destruct (_ && _); [by apply pr_ret|apply pr_ub]. Qed.
Lemma p_upd_fn t f : pr I eq (@upd_fn fa t f) (@upd_fn fb t f).
Proof. unfold upd_fn. apply pr_bind_eq; [apply p_get_ten|]. intros r. destruct (t_fn r); [apply p_set_ten|apply pr_ub]. Qed.
Lemma p_get_fn t : pr I eq (@get_fn fa t) (@get_fn fb t).
Proof. unfold get_fn. apply pr_bind_eq; [apply p_get_ten|]. intros r. apply p_deref. Qed.
Lemma p_track t k l : pr I eq (@track fa t k l) (@track fb t k l).
Proof. unfold track. apply pr_bind_eq; [apply p_get_ten|]. intros r. apply p_set_ten. Qed.
Lemma p_view dt lay s : pr I eq (@create_view fa dt lay s) (@create_view fb dt lay s).
Proof. apply p_new_ten. Qed.
Lemma p_create dt lay b : pr I eq (@create fa dt lay b) (@create fb dt lay b).
Proof.
  unfold create. apply (pr_bind _ (fun x x' => forall Q, brel Q dt x x')).
  - destruct b; [|apply pr_ret; constructor]. unfold new_blob. destruct (_ <=? _); [|intros h h' H; by right].
    intros h h' H. right. split; [|done]. cbn. intros Q. constructor. apply fresh_rel.
  - intros x x' Hx. eapply pr_bind; [apply p_new_sto; intros s _; split; [done|]; split; [done|]; apply Hx|]. intros s ? [<- _]. apply p_view.
Qed.
End heap.

(** ** elements *)
Lemma int_or_float t : is_int t = negb (is_float t). Proof. by destruct t. Qed.
Lemma prom_self t : is_int t = false -> prom t t = t. Proof. by destruct t. Qed.
Lemma v_cvt T D v v' : vrel R T v v' -> ore (vrel R D) (cvt (fo:=fa) T D v) (cvt (fo:=fb) T D v').
Proof.
  destruct v as [z|x], v' as [z'|x']; try done; cbn [vrel cvt].
  - intros [Hi <-]. destruct (is_int D) eqn:E; apply ore_ok; cbn; rewrite E; (split; [done|]); [done|apply HR].
  - intros [Hi Hx]. destruct (is_int D) eqn:E.
    + destruct (R_trunc HR _ _ _ Hx) as [->| ->]; [by left|]. destruct (f_trunc x') as [z|]; [|by left]. destruct (fits_int D z); [|by left]. apply ore_ok. by cbn.
    + case_bool_decide as Et; apply ore_ok; cbn; rewrite E; (split; [done|]); [by subst|]. by eapply (R_cvt HR).
Qed.
Lemma v_int_chk p z : is_int p = true -> ore (vrel R p) (int_chk (fo:=fa) p z) (int_chk (fo:=fb) p z).
Proof. intros Hp. unfold int_chk. destruct (fits_int p z); [|by right]. apply ore_ok. by cbn. Qed.
Lemma v_arith o p a a' b b' : vrel R p a a' -> vrel R p b b' -> ore (vrel R p) (arith (fo:=fa) o p a b) (arith (fo:=fb) o p a' b').
Proof.
  destruct a as [x|x], a' as [x'|x']; try done; destruct b as [y|y], b' as [y'|y']; try done; cbn [vrel arith].
  - intros [Hi <-] [_ <-]. destruct o; try by apply v_int_chk. destruct (y =? 0); [by right|by apply v_int_chk].
  - intros [Hi _] [Hf _]. congruence.
  - intros [Hi _] [Hf _]. congruence.
  - intros [Hi Hx] [_ Hy]. apply ore_ok. cbn. split; [done|]. destruct o; [apply (R_add HR)|apply (R_sub HR)|apply (R_mul HR)|apply (R_div HR)]; done.
Qed.
Lemma v_binop o L T a a' b b' : vrel R L a a' -> vrel R T b b' -> ore (vrel R (prom L T)) (binop (fo:=fa) o L T a b) (binop (fo:=fb) o L T a' b').
Proof.
  intros Ha Hb. unfold binop. eapply ore_bind; [by apply v_cvt|]. intros ? ? Ha'. eapply ore_bind; [by apply v_cvt|]. intros ? ? Hb'. by apply v_arith.
Qed.

(** ** the kernels that do not compare *)
Notation K := (fun _ : nat => R).
Notation I := (hrel K 0).
Lemma p_store_cvt T D s p v v' : vrel R T v v' -> pr I eq (@store_cvt fa T D s p v) (@store_cvt fb T D s p v').
Proof. intros Hv. unfold store_cvt. eapply pr_bind; [apply pr_lift; by apply v_cvt|]. intros w w' Hw. by apply p_store. Qed.
Ltac la := eapply pr_bind; [apply p_load_aug|intros ? ? ?].
Ltac le := eapply pr_bind; [apply p_load_exact|intros ? ? ?].
Ltac ld := eapply pr_bind; [apply p_load|intros ? ? ?].
Ltac bo := eapply pr_bind; [apply pr_lift; by apply v_binop|intros ? ? ?].
Ltac ia := apply pr_bind_eq; [apply p_aug|intros ?].
Ltac ie := apply pr_bind_eq; [apply p_exact|intros ?].
Ltac sc := by apply p_store_cvt.
Ltac li := apply pr_bind_eq; [apply pr_same|intros ?].
Lemma p_binary o D L T d l r sv : pr I eq (@binary_body fa o D L T d l r sv) (@binary_body fb o D L T d l r sv).
Proof. unfold binary_body. la. la. bo. ia. sc. Qed.
Lemma p_add L T d l r : pr I eq (@tensor_add fa L T d l r) (@tensor_add fb L T d l r).
Proof. unfold tensor_add. li. apply pr_for_each. intros sv. apply p_binary. Qed.
Lemma p_sub L T d l r : pr I eq (@tensor_sub fa L T d l r) (@tensor_sub fb L T d l r).
Proof. unfold tensor_sub. li. apply pr_for_each. intros sv. apply p_binary. Qed.
Lemma p_mul L T d l r : pr I eq (@tensor_mul fa L T d l r) (@tensor_mul fb L T d l r).
Proof. apply pr_for_each. intros sv. apply p_binary. Qed.
Lemma p_div L T d l r : pr I eq (@tensor_div fa L T d l r) (@tensor_div fb L T d l r).
Proof. apply pr_for_each. intros sv. apply p_binary. Qed.
Lemma v_int t z : is_int t = true -> vrel R t (VI z) (VI z). Proof. done. Qed.
Lemma p_fill T N t n : pr I eq (@tensor_fill fa T N t n) (@tensor_fill fb T N t n).
Proof.
  unfold tensor_fill. ld. eapply pr_bind; [apply pr_lift; by apply v_cvt|intros ? ? ?]. destruct (sizes (t_lay t)); [by apply p_store|].
  apply pr_for_each. intros sv. ie. by apply p_store.
Qed.
Lemma p_eye T t : pr I eq (@tensor_eye fa T t) (@tensor_eye fb T t).
Proof. unfold tensor_eye. apply pr_mapM. intros i. ie. sc. Qed.
Lemma p_copy D T d s sv : pr I eq (@copy_body fa D T d s sv) (@copy_body fb D T d s sv).
Proof. unfold copy_body. le. ie. sc. Qed.
Lemma p_to_type D T d s : pr I eq (@tensor_to_type fa D T d s) (@tensor_to_type fb D T d s).
Proof. apply pr_for_each. intros sv. apply p_copy. Qed.
Lemma p_clone D T d s : pr I eq (@tensor_clone fa D T d s) (@tensor_clone fb D T d s).
Proof. apply pr_for_each. intros sv. apply p_copy. Qed.
Lemma p_sum_body D T d s sv : pr I eq (@sum_body fa D T d s sv) (@sum_body fb D T d s sv).
Proof. unfold sum_body. le. ld. bo. sc. Qed.
Lemma p_sum D T d s : pr I eq (@tensor_sum fa D T d s) (@tensor_sum fb D T d s).
Proof.
  unfold tensor_sum. destruct (_ =? _); [by apply pr_ret|]. destruct (sizes (t_lay s)); [ld; sc|].
  apply pr_bind_eq; [apply pr_odometer; intros sv; apply pr_plain, p_sum_body|]. intros ?. by apply pr_ret.
Qed.
Lemma p_mean_div T d n n' : vrel R T n n' -> pr I eq (@mean_div fa T d n) (@mean_div fb T d n').
Proof. intros H. unfold mean_div. ld. bo. sc. Qed.
Lemma p_mean D T d s : pr I eq (@tensor_mean fa D T d s) (@tensor_mean fb D T d s).
Proof.
  unfold tensor_mean. destruct (_ =? _); [by apply pr_ret|]. eapply pr_bind; [apply pr_lift, v_cvt; by apply (v_int I64)|]. intros n n' Hn.
  destruct (sizes (t_lay s)).
  - ld. apply pr_bind_eq; [sc|]. intros _. by apply p_mean_div.
  - apply pr_bind_eq; [apply pr_odometer; intros sv; apply pr_plain, p_sum_body|]. intros ?. by apply p_mean_div.
Qed.
Lemma p_mul_acc D L T d l r : pr I eq (@tensor_mul_acc_f fa D L T d l r) (@tensor_mul_acc_f fb D L T d l r).
Proof. unfold tensor_mul_acc_f. li. li. apply pr_for_each. intros sv. unfold mul_acc_body. la. la. bo. ia. ld. bo. sc. Qed.
Lemma p_div_num D L T d l r : pr I eq (@tensor_div_back_numerator fa D L T d l r) (@tensor_div_back_numerator fb D L T d l r).
Proof. apply pr_for_each. intros sv. la. la. bo. ia. ld. bo. sc. Qed.
Lemma p_div_den D Q d g q r : pr I eq (@tensor_div_back_denominator fa D Q d g q r) (@tensor_div_back_denominator fb D Q d g q r).
Proof. apply pr_for_each. intros sv. la. la. bo. la. bo. ie. ld. bo. sc. Qed.
Lemma p_cat D T d s o : pr I eq (@tensor_cat fa D T d s o) (@tensor_cat fb D T d s o).
Proof. apply pr_for_each. intros sv. le. ie. sc. Qed.
End rel.
