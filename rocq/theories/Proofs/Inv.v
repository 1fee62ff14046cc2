(** What holds of the tensor records after any history of calls. *)
From Verif.Proofs Require Export Kernels.

Section with_fops.
Context {fo : FOps}.

(** the result [r] of an operation recorded as [k] on the inputs [ins] *)
Definition fn_fits (h : heap) (r : tensor) (k : bkind) (ins : list nat) : Prop :=
  match k, ins with
  | (AddBack | SubBack | MulBack | DivBack), [a; b] =>
      exists ra rb, h_ten h !! a = Some ra /\ h_ten h !! b = Some rb /\
        broadcast_range (shape ra) (shape rb) = Ok (shape r) /\ t_lay r = contig (shape r) /\
        t_dt r = larger_type (t_dt ra) (t_dt rb)
  | (SumBack | MeanBack), [a] =>
      exists ra, h_ten h !! a = Some ra /\ t_lay r = contig [] /\ t_dt r = reduce_ty (t_dt ra)
  | NoBack, [a] =>
      exists ra, h_ten h !! a = Some ra /\ t_dt r = t_dt ra /\ t_sto r = t_sto ra
  | CloneBack, [a] =>
      exists ra, h_ten h !! a = Some ra /\ t_lay r = contig (shape ra)
  | CatBack dim, _ =>
      exists rs r0, Forall2 (fun i x => h_ten h !! i = Some x) ins rs /\ rs !! 0%nat = Some r0 /\
        0 <= dim < Z.of_nat (length (shape r0)) /\
        Forall (fun x => cat_compatible (Z.to_nat dim) (shape r0) (shape x) = true) (tail rs) /\
        t_lay r = contig (<[Z.to_nat dim := fold_left (fun n x => u64 (n + nth (Z.to_nat dim) (shape x) 0)) rs 0]> (shape r0)) /\
        t_dt r = fold_left (fun t x => larger_type t (t_dt x)) rs (t_dt r0)
  | KnownGradBack kg, [a] =>
      exists ra rk, h_ten h !! a = Some ra /\ h_ten h !! kg = Some rk /\ t_dt r = t_dt ra /\
        t_dt rk = t_dt ra /\
        (t_lay r = t_lay ra /\ t_lay rk = t_lay ra \/ t_lay r = contig [] /\ t_lay rk = contig (shape ra))
  | _, _ => False
  end.

Record ten_ok (h : heap) (t : nat) (r : tensor) : Prop := TenOk {
  ok_rg : t_rg r = true -> is_float (t_dt r) = true;
  ok_grad : forall g, t_grad r = Some g ->
    exists gr, h_ten h !! g = Some gr /\ t_dt gr = t_dt r /\ shape gr = shape r;
  ok_fn : forall f, t_fn r = Some f ->
    Forall (fun i => i < t)%nat (gf_in f) /\ is_float (t_dt r) = true /\ fn_fits h r (gf_kind f) (gf_in f)
}.
Definition tinv (h : heap) : Prop := forall t r, h_ten h !! t = Some r -> ten_ok h t r.

Lemma mono_get h h' t r : mono h h' -> h_ten h !! t = Some r ->
  exists r', h_ten h' !! t = Some r' /\ t_dt r' = t_dt r /\ t_lay r' = t_lay r /\ t_sto r' = t_sto r.
Proof. intros M Hr. destruct (M t r Hr) as (r' & Hr' & E1 & E2 & E3). exists r'. done. Qed.

Lemma fn_fits_mono h h' r r' k ins : mono h h' -> same_data r r' -> fn_fits h r k ins -> fn_fits h' r' k ins.
Proof.
  intros M (D1 & D2 & D3) H. unfold shape in *.
  destruct k; simpl in *; unfold shape in *;
    try (destruct ins as [|a [|b [|]]]; try done;
         destruct H as (ra & rb & Ha & Hb & E1 & E2 & E3);
         destruct (mono_get _ _ _ _ M Ha) as (ra' & Ha' & A1 & A2 & A3);
         destruct (mono_get _ _ _ _ M Hb) as (rb' & Hb' & B1 & B2 & B3);
         exists ra', rb'; rewrite <- D1, <- D2, A1, A2, B1, B2; done).
  - destruct ins as [|a [|]]; try done. destruct H as (ra & Ha & E1 & E2).
    destruct (mono_get _ _ _ _ M Ha) as (ra' & Ha' & A1 & A2 & A3). exists ra'. rewrite <- D1, <- D2, A1. done.
  - destruct ins as [|a [|]]; try done. destruct H as (ra & Ha & E1 & E2).
    destruct (mono_get _ _ _ _ M Ha) as (ra' & Ha' & A1 & A2 & A3). exists ra'. rewrite <- D1, <- D2, A1. done.
  - destruct ins as [|a [|]]; try done. destruct H as (ra & Ha & E1 & E2).
    destruct (mono_get _ _ _ _ M Ha) as (ra' & Ha' & A1 & A2 & A3). exists ra'. rewrite <- D1, <- D3, A1, A3. done.
  - destruct ins as [|a [|]]; try done. destruct H as (ra & Ha & E1).
    destruct (mono_get _ _ _ _ M Ha) as (ra' & Ha' & A1 & A2 & A3). exists ra'. rewrite <- D2, A2. done.
  - destruct H as (rs & r0 & Hins & H0 & Hd & Hc & E1 & E2).
    assert (exists rs', Forall2 (fun i x => h_ten h' !! i = Some x) ins rs' /\ map t_lay rs' = map t_lay rs /\
      map t_dt rs' = map t_dt rs) as (rs' & Hins' & L & T).
    { clear -Hins M. induction Hins as [|i x ins rs Hi Hins (rs' & H1 & H2 & H3)]; [by exists []|].
      destruct (mono_get _ _ _ _ M Hi) as (x' & Hx' & A1 & A2 & A3). exists (x' :: rs'). simpl. rewrite H2, H3, A1, A2.
      split; [by apply Forall2_cons_2|done]. }
    destruct rs as [|x0 rs]; [done|]. simpl in H0. injection H0 as ->.
    destruct rs' as [|x0' rs']; [done|]. simpl in L, T. injection L as L0 L. injection T as T0 T.
    exists (x0' :: rs'), x0'. split; [done|]. split; [done|]. rewrite <- D1, <- D2, L0, T0. split; [done|].
    simpl in Hc |- *. split; [|rewrite E1, E2, L0, T0; split].
    + clear -Hc L. revert rs' L. induction Hc as [|x rs Hx Hc IH]; intros [|x' rs'] L; try done.
      simpl in L. injection L as L1 L. constructor; [by rewrite L1|by apply IH].
    + simpl. do 2 f_equal. generalize (u64 (0 + nth (Z.to_nat dim) (sizes (t_lay r0)) 0)). clear -L.
      revert rs' L. induction rs as [|x rs IH]; intros [|x' rs'] L z; try done. simpl in L |- *. injection L as L1 L.
      rewrite L1. by apply IH.
    + simpl. generalize (larger_type (t_dt r0) (t_dt r0)). clear -T.
      revert rs' T. induction rs as [|x rs IH]; intros [|x' rs'] T z; try done. simpl in T |- *. injection T as T1 T.
      rewrite T1. by apply IH.
Qed.

(** ** steps *)
Lemma ten_ok_mono h h' t r : mono h h' -> ten_ok h t r -> ten_ok h' t r.
Proof.
  intros M [H1 H2 H3]. split; [done| |].
  - intros g Hg. destruct (H2 g Hg) as (gr & Hgr & E1 & E2).
    destruct (mono_get _ _ _ _ M Hgr) as (gr' & Hgr' & A1 & A2 & A3). exists gr'. unfold shape in *.
    rewrite A1, A2. done.
  - intros f Hf. destruct (H3 f Hf) as (F1 & F2 & F3). split; [done|]. split; [done|]. by eapply fn_fits_mono.
Qed.
Lemma tinv_same h h' : tinv h -> h_ten h' = h_ten h -> tinv h'.
Proof.
  intros H E t r. rewrite E. intros Hr. eapply ten_ok_mono; [by apply mono_eq|]. by apply H.
Qed.
Lemma tinv_new h h' r : tinv h -> h_ten h' = h_ten h ++ [r] -> t_grad r = None -> t_rg r = false -> t_fn r = None -> tinv h'.
Proof.
  intros H E Hg Hr Hf t x. rewrite E. intros [Hx|[Hl Hx]]%lookup_app_Some.
  - eapply ten_ok_mono; [by eapply mono_app|]. by apply H.
  - destruct (t - length (h_ten h))%nat; [|done]. simpl in Hx. injection Hx as <-. split; congruence.
Qed.
Lemma tinv_set h t r r' : tinv h -> h_ten h !! t = Some r -> same_data r r' -> ten_ok h t r' ->
  tinv (Hp (h_sto h) (<[t := r']> (h_ten h)) (h_ver h)).
Proof.
  intros H Hr Hsd Hok u x Hx. simpl in Hx. pose proof (mono_set h t r r' Hr Hsd) as M.
  destruct (decide (u = t)) as [->|Hne].
  - rewrite list_lookup_insert in Hx by (by eapply lookup_lt_Some). injection Hx as <-. by eapply ten_ok_mono.
  - rewrite list_lookup_insert_ne in Hx by done. eapply ten_ok_mono; [exact M|]. by apply H.
Qed.

Definition tv {A} (m : E A) (P : A -> heap -> Prop) (h : heap) : Prop :=
  wp m (fun a h' => tinv h' /\ mono h h' /\ P a h') (fun _ => tinv) h.
Notation any := (fun _ _ => True).

Lemma tv_bind {A B} (m : E A) (k : A -> E B) P P' h :
  tv m P h -> (forall a h', tinv h' -> mono h h' -> P a h' -> tv (k a) P' h') -> tv (bind m k) P' h.
Proof.
  intros Hm Hk. apply wp_bind. eapply wp_mono; [exact Hm| |done]. intros a h' (H1 & H2 & H3).
  eapply wp_mono; [by apply Hk| |done]. intros b h'' (H4 & H5 & H6). split; [done|]. split; [|done].
  by eapply mono_trans.
Qed.
Lemma tv_mono {A} (m : E A) (P P' : A -> heap -> Prop) h :
  tv m P h -> (forall a h', tinv h' -> mono h h' -> P a h' -> P' a h') -> tv m P' h.
Proof. intros Hm H. eapply wp_mono; [exact Hm| |done]. intros a h' (H1 & H2 & H3). auto. Qed.
Lemma tv_weak {A} (m : E A) (P : A -> heap -> Prop) h : tv m P h -> tv m any h.
Proof. intros H. by eapply tv_mono. Qed.
Lemma tv_ret {A} (a : A) (P : A -> heap -> Prop) h : tinv h -> P a h -> tv (mret a) P h.
Proof. intros. split; [done|]. split; [apply mono_refl|done]. Qed.
Lemma tv_ub {A} u (P : A -> heap -> Prop) h : tinv h -> tv (mub u) P h.
Proof. done. Qed.
Lemma tv_throw {A} u (P : A -> heap -> Prop) h : tinv h -> tv (mthrow u) P h.
Proof. done. Qed.
Lemma tv_read {A B} (m : E A) (k : A -> E B) P h :
  reads m -> tinv h -> (forall a, m h = (Ok a, h) -> tv (k a) P h) -> tv (bind m k) P h.
Proof.
  intros Hm Hh Hk. unfold tv, wp, bind. rewrite (reads_run m h Hm).
  destruct (m h).1 eqn:E; try done. apply Hk. rewrite (reads_run m h Hm). by rewrite E.
Qed.
Lemma tv_get {B} t (k : tensor -> E B) P h : tinv h ->
  (forall r, h_ten h !! t = Some r -> tv (k r) P h) -> tv (bind (get_ten t) k) P h.
Proof. intros Hi Hk. apply tv_read; [apply reads_get_ten|done|]. intros r [Hr _]%get_ten_inv. by apply Hk. Qed.
Lemma tv_st {A} (m : E A) h : st m -> tinv h -> tv m (fun _ h' => h_ten h' = h_ten h /\ h_ver h' = h_ver h) h.
Proof.
  intros Hm Hi. unfold tv, wp. destruct (Hm h) as [H1 H2]. destruct (m h) as [[?|?|?|] h']; simpl in *;
    try (by eapply tinv_same). split; [by eapply tinv_same|]. split; [by apply mono_eq|done].
Qed.
(** a kernel followed by the rest *)
Lemma tv_kernel {A B} (m : E A) (k : A -> E B) P h : st m -> tinv h ->
  (forall a h', tinv h' -> h_ten h' = h_ten h -> tv (k a) P h') -> tv (bind m k) P h.
Proof. intros Hm Hi Hk. eapply tv_bind; [by apply tv_st|]. intros a h' Hi' _ [E _]. by apply Hk. Qed.
Lemma tv_set t r r' h : tinv h -> h_ten h !! t = Some r -> same_data r r' -> ten_ok h t r' ->
  tv (set_ten t r') (fun _ h' => h' = Hp (h_sto h) (<[t := r']> (h_ten h)) (h_ver h)) h.
Proof. intros. apply wp_set_ten. split; [by eapply tinv_set|]. split; [by eapply mono_set|done]. Qed.

(** the record of [t] *)
Definition is (P : tensor -> Prop) (t : nat) (h : heap) : Prop := exists r, h_ten h !! t = Some r /\ P r.
(** a new tensor, not tracked so far *)
Definition fresh (h0 : heap) (dt : dtype) (lay : layout) (t : nat) (h : heap) : Prop :=
  h_ten h0 !! t = None /\ (t < length (h_ten h))%nat /\
  exists s, h_ten h !! t = Some (Ten dt lay s None false false None).
Lemma fresh_same h0 dt lay t h h' : fresh h0 dt lay t h -> h_ten h' = h_ten h -> fresh h0 dt lay t h'.
Proof. unfold fresh. by intros ? ->. Qed.

Lemma tv_create_view dt lay s h : tinv h ->
  tv (create_view dt lay s) (fun t h' => t = length (h_ten h) /\
    h' = Hp (h_sto h) (h_ten h ++ [Ten dt lay s None false false None]) (h_ver h)) h.
Proof.
  intros Hi. apply wp_new_ten. split; [by eapply tinv_new|]. split; [by eapply mono_app|done].
Qed.
Lemma tv_create dt lay b h : tinv h ->
  tv (create dt lay b) (fun t h' => t = length (h_ten h) /\ exists s,
    h_ten h' = h_ten h ++ [Ten dt lay s None false false None]) h.
Proof.
  intros Hi. unfold create. cbv zeta. eapply tv_bind.
  { apply tv_st; [|done]. destruct b; [|done]. apply st_bind; [apply st_lift|]. done. }
  intros blob h1 Hi1 _ [E1 _].
  eapply tv_kernel with (h := h1); [done|done|].
  intros s h2 Hi2 E2. eapply tv_mono; [by apply tv_create_view|].
  intros t h3 _ _ [-> ->]. simpl. rewrite E2, E1. eauto.
Qed.
Lemma lookup_fresh h dt lay s t (h' : heap) : t = length (h_ten h) ->
  h_ten h' = h_ten h ++ [Ten dt lay s None false false None] -> fresh h dt lay t h'.
Proof.
  intros -> E. split; [apply lookup_ge_None_2; lia|]. rewrite E, app_length. simpl. split; [lia|].
  exists s. apply lookup_snoc.
Qed.
Lemma tv_create' dt lay b h : tinv h -> tv (create dt lay b) (fresh h dt lay) h.
Proof.
  intros. eapply tv_mono; [by apply tv_create|]. intros t h' _ _ [Ht [s E]]. by eapply lookup_fresh.
Qed.
Lemma tv_create_scalar_eq dt v h : tinv h ->
  tv (create_scalar dt v) (fun t h' => t = length (h_ten h) /\ exists s,
    h_ten h' = h_ten h ++ [Ten dt (contig []) s None false false None]) h.
Proof.
  intros Hi. unfold create_scalar. eapply tv_bind; [by apply tv_create|]. intros t h1 Hi1 _ [-> [s E1]].
  apply tv_get; [done|]. intros r _. apply tv_kernel; [apply st_store|done|]. intros _ h2 Hi2 E.
  apply tv_ret; [done|]. split; [done|]. exists s. by rewrite E.
Qed.
Lemma tv_create_scalar dt v h : tinv h -> tv (create_scalar dt v) (fresh h dt (contig [])) h.
Proof.
  intros. eapply tv_mono; [by apply tv_create_scalar_eq|]. intros t h' _ _ [Ht [s E]]. by eapply lookup_fresh.
Qed.
Lemma fresh_mono h0 h h1 dt lay t : mono h0 h -> fresh h dt lay t h1 -> fresh h0 dt lay t h1.
Proof.
  intros M (H1 & H2 & H3). split; [|done]. destruct (h_ten h0 !! t) as [r|] eqn:E; [|done].
  destruct (M t r E) as (r' & Hr' & _). congruence.
Qed.
Lemma fresh_mono_r h0 h h1 dt lay t : fresh h0 dt lay t h -> mono h h1 -> is (fun r => t_dt r = dt /\ t_lay r = lay) t h1.
Proof. intros (_ & _ & s & H) M. destruct (mono_get _ _ _ _ M H) as (r' & H' & E1 & E2 & E3). exists r'. done. Qed.
Lemma tv_fill_new ss dt tmp nt h : tinv h -> tv (fill_new ss dt tmp nt) (fresh h dt (contig ss)) h.
Proof.
  intros Hi. unfold fill_new. eapply tv_bind; [by apply tv_create'|]. intros t h1 Hi1 _ Hf.
  apply tv_get; [done|]. intros r _. apply tv_get; [done|]. intros n _.
  apply tv_kernel; [apply st_tensor_fill|done|]. intros _ h2 Hi2 E. apply tv_ret; [done|]. by eapply fresh_same.
Qed.
Lemma tv_ones ss dt h : tinv h -> tv (ones ss dt) (fresh h dt (contig ss)) h.
Proof.
  intros. eapply tv_bind; [by apply tv_create_scalar|]. intros x h1 Hi1 M _.
  eapply tv_mono; [by apply tv_fill_new|]. intros t h2 _ _. by apply fresh_mono.
Qed.
Lemma tv_full_int ss n dt h : tinv h -> tv (full_int ss n dt) (fresh h dt (contig ss)) h.
Proof.
  intros. eapply tv_bind; [by apply tv_create_scalar|]. intros x h1 Hi1 M _.
  eapply tv_mono; [by apply tv_fill_new|]. intros t h2 _ _. by apply fresh_mono.
Qed.
Lemma tv_full_double ss n dt h : tinv h -> tv (full_double ss n dt) (fresh h dt (contig ss)) h.
Proof.
  intros. eapply tv_bind; [by apply tv_create_scalar|]. intros x h1 Hi1 M _.
  eapply tv_mono; [by apply tv_fill_new|]. intros t h2 _ _. by apply fresh_mono.
Qed.
Lemma tv_zeros ss dt h : tinv h -> tv (zeros ss dt) (fresh h dt (contig ss)) h.
Proof.
  intros Hi. unfold zeros. eapply tv_bind; [by apply tv_create'|]. intros t h1 Hi1 _ Hf.
  apply tv_get; [done|]. intros r _. apply tv_kernel; [apply st_sto_zero|done|]. intros _ h2 Hi2 E.
  apply tv_ret; [done|]. by eapply fresh_same.
Qed.
Lemma tv_eye n m dt h : tinv h -> tv (eye n m dt) (fresh h dt (contig [n; m])) h.
Proof.
  intros Hi. unfold eye. eapply tv_bind; [by apply tv_create'|]. intros t h1 Hi1 _ Hf.
  apply tv_get; [done|]. intros r _. apply tv_kernel; [apply st_sto_zero|done|]. intros _ h2 Hi2 E.
  apply tv_kernel; [apply st_tensor_eye|done|]. intros _ h3 Hi3 E3.
  apply tv_ret; [done|]. eapply fresh_same; [done|congruence].
Qed.
Lemma tv_from_blob d ss dt h : tinv h -> tv (from_blob d ss dt) (fresh h dt (contig ss)) h.
Proof.
  intros Hi. unfold from_blob. eapply tv_bind; [by apply tv_create'|]. intros t h1 Hi1 _ Hf.
  apply tv_get; [done|]. intros r _. apply tv_read; [reads_tac|done|]. intros s _.
  apply tv_kernel; [by st_tac|done|]. intros _ h2 Hi2 E. apply tv_ret; [done|]. by eapply fresh_same.
Qed.
Lemma tv_randn ss dt xs h : tinv h -> tv (op_randn ss dt xs) (fresh h F32 (contig ss)) h.
Proof.
  intros Hi. unfold op_randn. apply tv_read; [reads_tac|done|]. intros _ _.
  eapply tv_bind; [by apply tv_create'|]. intros t h1 Hi1 _ Hf. apply tv_get; [done|]. intros r _.
  apply tv_kernel; [apply st_mapM; intros; apply st_randn_write|done|]. intros _ h2 Hi2 E.
  apply tv_ret; [done|]. by eapply fresh_same.
Qed.
Lemma tv_create_impl s h : tinv h -> tv (create_impl s) (fun x h' => forall t, x = Some t -> is (fun r => t_rg r = false /\ t_lay r = contig (sp_shape s)) t h') h.
Proof.
  intros Hi. unfold create_impl. destruct (sp_shape s) eqn:Ess; [by apply tv_ret|].
  apply tv_read; [reads_tac|done|]. intros dt _.
  eapply tv_bind; [by apply tv_create'|]. intros t h1 Hi1 _ Hf. apply tv_get; [done|]. intros r _.
  apply tv_read; [reads_tac|done|]. intros st _. apply tv_kernel; [done|done|]. intros _ h2 Hi2 E.
  apply tv_ret; [done|]. intros ? [= <-]. eapply fresh_same in Hf; [|exact E]. destruct Hf as (_ & _ & s' & Hs').
  eexists. split; [exact Hs'|]. done.
Qed.

(** ** recording an operation *)
Definition rgd (b : bool) (t : nat) (h : heap) : Prop := is (fun r => t_rg r = b) t h.
Lemma tv_track ret k ins r h : tinv h -> h_ten h !! ret = Some r -> is_float (t_dt r) = true ->
  Forall (fun i => i < ret)%nat ins -> fn_fits h r k ins ->
  tv (track ret k ins) (fun _ h' => h' = Hp (h_sto h) (<[ret := with_fn (with_rg r true) (Some (Gfn k ins 0 0 0))]> (h_ten h)) (h_ver h)) h.
Proof.
  intros Hi Hr Hf Hins Hfit. unfold track. apply tv_get; [done|]. intros x Hx.
  assert (x = r) as -> by congruence. eapply tv_set; [done|done|done|].
  destruct (Hi ret r Hr) as [H1 H2 H3]. split; [done|exact H2|].
  intros f [= <-]. split; [done|]. split; [done|]. eapply fn_fits_mono; [apply mono_refl| |exact Hfit]. done.
Qed.
Lemma insert_rgd ret r h h' : h_ten h !! ret = Some r -> 
  h_ten h' = <[ret := r]> (h_ten h) -> rgd (t_rg r) ret h'.
Proof. intros Hr E. exists r. rewrite E, list_lookup_insert by (by eapply lookup_lt_Some). done. Qed.

Lemma tv_track_ret ret k ins r h : tinv h -> h_ten h !! ret = Some r -> is_float (t_dt r) = true ->
  Forall (fun i => i < ret)%nat ins -> fn_fits h r k ins ->
  tv (track ret k ins ;;; mret ret) (rgd true) h.
Proof.
  intros. eapply tv_bind; [by eapply tv_track|]. intros _ h' Hi' _ ->. apply tv_ret; [done|].
  eexists. simpl. rewrite list_lookup_insert by (by eapply lookup_lt_Some). done.
Qed.
Lemma lookup_lt_fresh h i r (h' : heap) dt lay t : h_ten h !! i = Some r -> fresh h dt lay t h' -> (i < t)%nat.
Proof. intros Hi%lookup_lt_Some (Ht%lookup_ge_None & _). lia. Qed.
Lemma is_float_join_l a b : is_float a = true -> is_float (larger_type a b) = true.
Proof. by destruct a, b. Qed.
Lemma is_float_join_r a b : is_float b = true -> is_float (larger_type a b) = true.
Proof. by destruct a, b. Qed.
Lemma fresh_is h0 dt lay t h : fresh h0 dt lay t h -> is (fun r => t_rg r = false) t h.
Proof. intros (_ & _ & s & H). eexists. split; [exact H|]. done. Qed.

Definition bin_kind (k : bkind) : bool :=
  match k with AddBack | SubBack | MulBack | DivBack => true | _ => false end.
Lemma tv_binop kernel k l r order h : tinv h -> bin_kind k = true ->
  (forall L R dst a b, st (kernel L R dst a b)) ->
  tv (apply_binary_operator kernel k l r order)
     (fun t h' => exists x y, h_ten h !! l = Some x /\ h_ten h !! r = Some y /\ rgd (t_rg x || t_rg y) t h') h.
Proof.
  intros Hi Hk Hkern. unfold apply_binary_operator.
  eapply (tv_bind _ _ (fun t h' => exists x y rg, h_ten h !! l = Some x /\ h_ten h !! r = Some y /\
     broadcast_range (shape x) (shape y) = Ok rg /\
     fresh h (larger_type (t_dt x) (t_dt y)) (contig rg) t h' /\ h_ten h' !! l = Some x /\ h_ten h' !! r = Some y)).
  { unfold apply_no_grad_binary_op. apply tv_get; [done|]. intros lr Hl. apply tv_get; [done|]. intros rr Hr.
    apply tv_read; [reads_tac|done|]. intros rg Hrg.
    eapply tv_bind; [by apply tv_create|]. intros t h1 Hi1 _ [Ht [s E1]].
    apply tv_get; [done|]. intros d Hd.
    apply tv_kernel; [by repeat case_match|done|]. intros _ h2 Hi2 E2. apply tv_ret; [done|].
    exists lr, rr, rg. split; [done|]. split; [done|]. split.
    { unfold lift in Hrg. unfold shape. congruence. }
    split; [eapply fresh_same; [by eapply lookup_fresh|done]|]. rewrite E2, E1.
    split; by apply lookup_app_l_Some. }
  intros t h1 Hi1 M (x & y & rg & Hx & Hy & Hrg & Hf & Hx1 & Hy1).
  apply tv_get; [done|]. intros ? H. assert (r0 = x) as -> by congruence. clear H.
  apply tv_get; [done|]. intros ? H. assert (r0 = y) as -> by congruence. clear H.
  destruct (negb (t_rg x) && negb (t_rg y)) eqn:Hb.
  - apply tv_ret; [done|]. exists x, y. split; [done|]. split; [done|].
    assert (t_rg x || t_rg y = false) as -> by (by destruct (t_rg x), (t_rg y)). by eapply fresh_is.
  - eapply tv_mono.
    + pose proof Hf as (_ & _ & s & Hs). eapply tv_track_ret; [done|exact Hs| | |].
      * simpl. destruct (t_rg x) eqn:Ex.
        -- apply is_float_join_l. by eapply ok_rg; [eapply Hi1|].
        -- destruct (t_rg y) eqn:Ey; [|done]. apply is_float_join_r. by eapply ok_rg; [eapply Hi1|].
      * apply Forall_cons_2; [exact (lookup_lt_fresh _ _ _ _ _ _ _ Hx Hf)|].
        apply Forall_cons_2; [exact (lookup_lt_fresh _ _ _ _ _ _ _ Hy Hf)|done].
      * destruct k; try done; simpl; exists x, y; done.
    + intros t' h' _ _ H. exists x, y. split; [done|]. split; [done|].
      by assert (t_rg x || t_rg y = true) as -> by (by destruct (t_rg x), (t_rg y)).
Qed.


(** the result requires grad iff the (existing) operand does *)
Definition like (t : nat) (h : heap) (u : nat) (h' : heap) : Prop :=
  forall x, h_ten h !! t = Some x -> rgd (t_rg x) u h'.
Lemma tv_neg t h : tinv h -> tv (op_neg t) (like t h) h.
Proof.
  intros Hi. unfold op_neg. eapply tv_bind; [by apply tv_create_scalar_eq|]. intros z h1 Hi1 M1 [-> [s E1]].
  eapply tv_mono; [apply tv_binop; [done|done|intros; apply st_tensor_sub]|].
  intros u h' _ _ (x & y & Hx & Hy & H) v Hv. rewrite E1, lookup_snoc in Hx. injection Hx as <-.
  rewrite E1, lookup_app_l in Hy by (by eapply lookup_lt_Some). replace v with y by congruence. exact H.
Qed.
Lemma tv_op_cmp c l r h : tinv h -> tv (op_cmp c l r) (rgd false) h.
Proof.
  intros Hi. unfold op_cmp. apply tv_get; [done|]. intros x Hx. apply tv_get; [done|]. intros y Hy.
  apply tv_read; [reads_tac|done|]. intros rg _.
  eapply tv_bind; [by apply tv_create'|]. intros t h1 Hi1 _ Hf. apply tv_get; [done|]. intros d _.
  apply tv_kernel; [apply st_tensor_cmp|done|]. intros _ h2 Hi2 E. apply tv_ret; [done|].
  eapply fresh_is, fresh_same; [exact Hf|done].
Qed.
(** requires_grad flags and recorded operations stay *)
Definition krg (h h' : heap) : Prop :=
  forall u r, h_ten h !! u = Some r -> exists r', h_ten h' !! u = Some r' /\ t_rg r' = t_rg r /\ t_fn r' = t_fn r.
Lemma krg_refl h : krg h h.
Proof. intros u r Hr. eauto. Qed.
Lemma krg_trans h1 h2 h3 : krg h1 h2 -> krg h2 h3 -> krg h1 h3.
Proof.
  intros H1 H2 u r Hr. destruct (H1 u r Hr) as (x & Hx & E1 & E2). destruct (H2 u x Hx) as (y & Hy & E3 & E4).
  exists y. split; [done|]. split; congruence.
Qed.
Lemma krg_app h h' r : h_ten h' = h_ten h ++ [r] -> krg h h'.
Proof. intros E u x Hx. exists x. rewrite E. split; [by apply lookup_app_l_Some|done]. Qed.
Lemma krg_set h t r r' : h_ten h !! t = Some r -> t_rg r' = t_rg r -> t_fn r' = t_fn r ->
  krg h (Hp (h_sto h) (<[t := r']> (h_ten h)) (h_ver h)).
Proof.
  intros Ht E1 E2 u x Hx. simpl. destruct (decide (t = u)) as [<-|Hne].
  - exists r'. rewrite list_lookup_insert by (by eapply lookup_lt_Some). replace x with r by congruence. done.
  - exists x. by rewrite list_lookup_insert_ne.
Qed.
Lemma krg_rgd h h' b t : krg h h' -> rgd b t h -> rgd b t h'.
Proof. intros K (r & Hr & <-). destruct (K t r Hr) as (r' & Hr' & E & _). exists r'. done. Qed.
Lemma tv_copy (kernel : tensor -> E unit) t dt r h : tinv h -> h_ten h !! t = Some r ->
  (forall d, st (kernel d)) -> (t_rg r = true -> is_float dt = true) ->
  tv (let! ret := create dt (contig (sizes (t_lay r))) true in
      let! d := get_ten ret in
      kernel d ;;;
      if negb (t_rg r) then mret ret
      else track ret CloneBack [t] ;;; mret ret) (fun u h' => krg h h' /\ ((t_rg r = false /\ fresh h dt (contig (shape r)) u h') \/
         (t_rg r = true /\ is (fun x => t_rg x = true /\ t_fn x = Some (Gfn CloneBack [t] 0 0 0) /\
            t_dt x = dt /\ t_lay x = contig (shape r) /\ t_grad x = None) u h' /\ h_ten h !! u = None))) h.
Proof.
  intros Hi Hr Hk Hfl. eapply tv_bind; [by apply tv_create|]. intros u h1 Hi1 M1 [Hu [s1 E1]]. apply tv_get; [done|]. intros d _.
  pose proof (lookup_fresh _ _ _ _ _ _ Hu E1) as Hf.
  apply tv_kernel; [done|done|]. intros _ h2 Hi2 E. eapply fresh_same in Hf; [|exact E].
  assert (h_ten h2 = h_ten h ++ [Ten dt (contig (sizes (t_lay r))) s1 None false false None]) as EE by congruence.
  destruct (t_rg r) eqn:Eg; simpl; [|apply tv_ret; [done|split; [by eapply krg_app|by left]]].
  pose proof Hf as (Hn & _ & s & Hs). eapply tv_bind; [eapply tv_track; [done|exact Hs| | |]|].
  - simpl. by apply Hfl.
  - apply Forall_cons_2; [exact (lookup_lt_fresh _ _ _ _ _ _ _ Hr Hf)|done].
  - assert (mono h h2) as M2 by (eapply mono_trans; [exact M1|by apply mono_eq]).
    destruct (mono_get _ _ _ _ M2 Hr) as (x & Hx & X1 & X2 & X3). exists x. split; [done|]. unfold shape. by rewrite X2.
  - intros _ h3 Hi3 _ ->. apply tv_ret; [done|]. split.
    { intros v x Hx. exists x. simpl. rewrite list_lookup_insert_ne, EE by (apply lookup_lt_Some in Hx; lia).
      split; [by apply lookup_app_l_Some|done]. }
    right. split; [done|]. split; [|done].
    eexists. simpl. rewrite list_lookup_insert by (by eapply lookup_lt_Some). done.
Qed.
Lemma tv_to_dtype t dt h : tinv h -> tv (to_dtype t dt) (like t h) h.
Proof.
  intros Hi. unfold to_dtype. apply tv_get; [done|]. intros r Hr.
  destruct (t_rg r && is_int dt) eqn:Ec; [by apply tv_throw|]. case_bool_decide as Hd.
  - apply tv_ret; [done|]. intros x Hx. exists x. done.
  - eapply tv_mono; [apply (tv_copy (fun d => tensor_to_type dt (t_dt r) d r)); [done|done|intros; apply st_tensor_to_type|]|].
    + intros Hg. rewrite Hg in Ec. by destruct dt.
    + intros u h' _ _ [_ Hor] x Hx. assert (x = r) as -> by congruence. destruct Hor as [[Hg Hf]|(Hg & (y & Hy & Hy1 & _) & _)].
      * rewrite Hg. by eapply fresh_is.
      * rewrite Hg. exists y. done.
Qed.
End with_fops.
