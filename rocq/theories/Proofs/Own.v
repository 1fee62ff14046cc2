(** No cycles of owning pointers, after any history of calls. *)
From Verif.Proofs Require Export Inv3.
From Verif.Spec Require Export Own.
From Verif.Model Require Export Api.

Section with_fops.
Context {fo : FOps}.
Notation any := (fun _ _ => True).
Notation len h := (length (h_ten h)).

Definition leafy (h : heap) (g : nat) : Prop := exists x, h_ten h !! g = Some x /\ t_fn x = None.
(** [g] has no grad_fn, the type of [r], and its layout or the dense layout of its shape *)
Definition like (h : heap) (r : tensor) (g : nat) : Prop :=
  exists x, h_ten h !! g = Some x /\ t_fn x = None /\ t_dt x = t_dt r /\ (t_lay x = t_lay r \/ t_lay x = contig (sizes (t_lay r))).
Lemma like_leafy h r g : like h r g -> leafy h g. Proof. intros (x & ? & ? & _). by exists x. Qed.
Definition slopes (k : bkind) : list nat := match k with KnownGradBack g => [g] | _ => [] end.
Definition oinv (h : heap) : Prop := forall t r, h_ten h !! t = Some r ->
  (forall g, t_grad r = Some g -> (t < g)%nat /\ like h r g) /\
  (forall f, t_fn r = Some f -> Forall (fun i => i < t)%nat (gf_in f) /\ Forall (leafy h) (slopes (gf_kind f))).

(** ** new tensors *)
Definition blank (r : tensor) : Prop := t_grad r = None /\ t_fn r = None.
Definition news (h h' : heap) : Prop := exists l, h_ten h' = h_ten h ++ l /\ Forall blank l.
Lemma news_refl h : news h h. Proof. exists []. by rewrite app_nil_r. Qed.
Lemma news_eq h h' : h_ten h' = h_ten h -> news h h'. Proof. intros E. exists []. by rewrite app_nil_r. Qed.
Lemma news_trans h1 h2 h3 : news h1 h2 -> news h2 h3 -> news h1 h3.
Proof. intros (l & E & H) (l' & E' & H'). exists (l ++ l'). rewrite E', E, app_assoc. split; [done|]. by apply Forall_app. Qed.
Lemma news_get h h' t r : news h h' -> h_ten h !! t = Some r -> h_ten h' !! t = Some r.
Proof. intros (l & -> & _) H. by apply lookup_app_l_Some. Qed.
Lemma news_back h h' t r : news h h' -> h_ten h' !! t = Some r -> h_ten h !! t = Some r \/ (len h <= t)%nat /\ blank r.
Proof.
  intros (l & -> & Hl) [H|[Hle H]]%lookup_app_Some; [by left|right]. split; [done|]. by eapply Forall_lookup_1 in Hl.
Qed.
Lemma news_len h h' : news h h' -> (len h <= len h')%nat.
Proof. intros (l & -> & _). rewrite app_length. lia. Qed.
Lemma leafy_news h h' g : news h h' -> leafy h g -> leafy h' g.
Proof. intros N (x & Hx & E). exists x. split; [by eapply news_get|done]. Qed.
Lemma like_news h h' r g : news h h' -> like h r g -> like h' r g.
Proof. intros N (x & Hx & E). exists x. split; [by eapply news_get|done]. Qed.
Lemma oinv_news h h' : oinv h -> news h h' -> oinv h'.
Proof.
  intros Hi N t r Hr. destruct (news_back _ _ _ _ N Hr) as [Hr0|[_ [B1 B2]]]; [|split; congruence].
  destruct (Hi t r Hr0) as [H1 H2]. split.
  - intros g Hg. destruct (H1 g Hg). split; [done|]. by eapply like_news.
  - intros f Hf. destruct (H2 f Hf) as [F1 F2]. split; [done|]. eapply Forall_impl; [exact F2|]. intros x. by apply leafy_news.
Qed.

Definition nv {A} (m : E A) (P : A -> heap -> Prop) (h : heap) : Prop :=
  wp m (fun a h' => news h h' /\ P a h') (fun _ h' => news h h') h.
Definition made (h : heap) (t : nat) (h' : heap) : Prop := (len h <= t < len h')%nat.
Lemma nv_bind {A B} (m : E A) (k : A -> E B) P P' h :
  nv m P h -> (forall a h', news h h' -> P a h' -> nv (k a) P' h') -> nv (bind m k) P' h.
Proof.
  intros Hm Hk. apply wp_bind. eapply wp_mono; [exact Hm| |done]. intros a h' [N HP].
  eapply wp_mono; [by apply Hk| |]; intros.
  - destruct H. split; [by eapply news_trans|done].
  - by eapply news_trans.
Qed.
Lemma nv_mono {A} (m : E A) (P P' : A -> heap -> Prop) h : nv m P h -> (forall a h', news h h' -> P a h' -> P' a h') -> nv m P' h.
Proof. intros H HP. eapply wp_mono; [exact H| |done]. intros a h' [? ?]. auto. Qed.
Lemma nv_ret {A} (a : A) (P : A -> heap -> Prop) h : P a h -> nv (mret a) P h.
Proof. intros. split; [apply news_refl|done]. Qed.
Lemma nv_st {A} (m : E A) h : st m -> nv m any h.
Proof. intros Hm. unfold nv, wp. destruct (Hm h) as [H _]. destruct (m h) as [[?|?|?|] h']; simpl in *; try (by apply news_eq). split; [by apply news_eq|done]. Qed.
Lemma nv_kernel {A B} (m : E A) (k : A -> E B) P h : st m -> (forall a h', news h h' -> nv (k a) P h') -> nv (bind m k) P h.
Proof. intros Hm Hk. eapply nv_bind; [by apply nv_st|]. auto. Qed.
Lemma nv_read {A B} (m : E A) (k : A -> E B) P h : reads m -> (forall a, m h = (Ok a, h) -> nv (k a) P h) -> nv (bind m k) P h.
Proof.
  intros Hm Hk. unfold nv, wp, bind. rewrite (reads_run m h Hm).
  destruct (m h).1 eqn:E; try apply news_refl. apply Hk. rewrite (reads_run m h Hm). by rewrite E.
Qed.
Lemma nv_get {B} t (k : tensor -> E B) P h : (forall r, h_ten h !! t = Some r -> nv (k r) P h) -> nv (bind (get_ten t) k) P h.
Proof. intros Hk. apply nv_read; [apply reads_get_ten|]. intros r [Hr _]%get_ten_inv. by apply Hk. Qed.
Lemma made_le h h1 h2 t : news h h1 -> made h1 t h2 -> made h t h2.
Proof. intros N%news_len [? ?]. split; lia. Qed.
Lemma made_ge h h1 h2 t : made h t h1 -> news h1 h2 -> made h t h2.
Proof. intros [? ?] N%news_len. split; lia. Qed.
Definition born (dt : dtype) (lay : layout) (h : heap) (t : nat) (h' : heap) : Prop :=
  made h t h' /\ exists x, h_ten h' !! t = Some x /\ t_dt x = dt /\ t_lay x = lay.
Lemma born_le dt ss h h1 h2 t : news h h1 -> born dt ss h1 t h2 -> born dt ss h t h2.
Proof. intros N [M B]. split; [by eapply made_le|done]. Qed.
Lemma born_ge dt ss h h1 h2 t : born dt ss h t h1 -> news h1 h2 -> born dt ss h t h2.
Proof. intros [M (x & Hx & B)] N. split; [by eapply made_ge|]. exists x. split; [by eapply news_get|done]. Qed.
Lemma nv_view_born dt lay s h : nv (create_view dt lay s) (born dt lay h) h.
Proof.
  apply wp_new_ten. split; [eexists; split; [reflexivity|by repeat constructor]|]. split.
  - unfold made. simpl. rewrite app_length. simpl. lia.
  - simpl. eexists. rewrite list_lookup_middle by done. done.
Qed.
Lemma nv_create_view dt lay s h : nv (create_view dt lay s) (made h) h.
Proof. eapply nv_mono; [apply nv_view_born|]. by intros t h' _ []. Qed.
Lemma nv_create_born dt lay b h : nv (create dt lay b) (born dt lay h) h.
Proof.
  unfold create. cbv zeta. apply nv_kernel; [destruct b; [apply st_bind; [apply st_lift|]|]; done|]. intros blob h1 N1.
  apply nv_kernel; [done|]. intros s h2 N2. eapply nv_mono; [apply nv_view_born|]. intros t h3 N3 Hm.
  eapply born_le; [|exact Hm]. by eapply news_trans.
Qed.
Lemma nv_create dt lay b h : nv (create dt lay b) (made h) h.
Proof. eapply nv_mono; [apply nv_create_born|]. by intros t h' _ []. Qed.
Lemma nv_create_scalar dt v h : nv (create_scalar dt v) (made h) h.
Proof.
  unfold create_scalar. eapply nv_bind; [apply nv_create|]. intros t h1 N1 Hm. apply nv_get. intros r _.
  apply nv_kernel; [apply st_store|]. intros _ h2 N2. apply nv_ret. by eapply made_ge.
Qed.
Lemma nv_fill_new ss dt tmp nt h : nv (fill_new ss dt tmp nt) (made h) h.
Proof.
  unfold fill_new. eapply nv_bind; [apply nv_create|]. intros t h1 N1 Hm. apply nv_get. intros r _. apply nv_get. intros n _.
  apply nv_kernel; [apply st_tensor_fill|]. intros _ h2 N2. apply nv_ret. by eapply made_ge.
Qed.
Lemma nv_ones_like_born t r h : h_ten h !! t = Some r -> nv (ones_like t) (born (t_dt r) (contig (sizes (t_lay r))) h) h.
Proof.
  intros Hr. apply nv_get. intros r' Hr'. assert (r' = r) as -> by congruence. unfold ones.
  eapply nv_bind; [apply nv_create_scalar|]. intros z h1 N1 _. unfold fill_new.
  eapply nv_bind; [apply nv_create_born|]. intros u h2 N2 Hm. apply nv_get. intros d _. apply nv_get. intros n _.
  apply nv_kernel; [apply st_tensor_fill|]. intros _ h3 N3. apply nv_ret. eapply born_le; [exact N1|]. by eapply born_ge.
Qed.
Lemma nv_scalar_fill dt0 v ss dt nt h : nv (let! x := create_scalar dt0 v in fill_new ss dt x nt) (made h) h.
Proof.
  eapply nv_bind; [apply nv_create_scalar|]. intros x h1 N1 _. eapply nv_mono; [apply nv_fill_new|]. intros t h2 N2. by apply made_le.
Qed.
Lemma nv_ones ss dt h : nv (ones ss dt) (made h) h. Proof. apply nv_scalar_fill. Qed.
Lemma nv_full_int ss n dt h : nv (full_int ss n dt) (made h) h. Proof. apply nv_scalar_fill. Qed.
Lemma nv_full_double ss n dt h : nv (full_double ss n dt) (made h) h. Proof. apply nv_scalar_fill. Qed.
Lemma nv_ones_like t h : nv (ones_like t) (made h) h. Proof. apply nv_get. intros. apply nv_ones. Qed.
Lemma nv_zeros ss dt h : nv (zeros ss dt) (made h) h.
Proof.
  unfold zeros. eapply nv_bind; [apply nv_create|]. intros t h1 N1 Hm. apply nv_get. intros r _.
  apply nv_kernel; [apply st_sto_zero|]. intros _ h2 N2. apply nv_ret. by eapply made_ge.
Qed.
Lemma nv_zeros_like t h : nv (zeros_like t) (made h) h. Proof. apply nv_get. intros. apply nv_zeros. Qed.
Lemma nv_eye n m dt h : nv (eye n m dt) (made h) h.
Proof.
  unfold eye. eapply nv_bind; [apply nv_create|]. intros t h1 N1 Hm. apply nv_get. intros r _.
  apply nv_kernel; [apply st_sto_zero|]. intros _ h2 N2. apply nv_kernel; [apply st_tensor_eye|]. intros _ h3 N3. apply nv_ret.
  eapply made_ge; [by eapply made_ge|done].
Qed.
Lemma nv_from_blob d ss dt h : nv (from_blob d ss dt) (made h) h.
Proof.
  unfold from_blob. eapply nv_bind; [apply nv_create|]. intros t h1 N1 Hm. apply nv_get. intros r _.
  apply nv_read; [reads_tac|]. intros s _. apply nv_kernel; [by st_tac|]. intros _ h2 N2. apply nv_ret. by eapply made_ge.
Qed.
Lemma nv_randn ss dt xs h : nv (op_randn ss dt xs) any h.
Proof.
  unfold op_randn. apply nv_read; [reads_tac|]. intros _ _. eapply nv_bind; [apply nv_create|]. intros t h1 N1 Hm.
  apply nv_get. intros r _. apply nv_kernel; [apply st_mapM; intros; apply st_randn_write|]. intros. by apply nv_ret.
Qed.
Lemma nv_create_impl s h : nv (create_impl s) any h.
Proof.
  unfold create_impl. destruct (sp_shape s); [by apply nv_ret|]. apply nv_read; [reads_tac|]. intros dt _.
  eapply nv_bind; [apply nv_create|]. intros t h1 _ _. apply nv_get. intros r _. apply nv_read; [reads_tac|]. intros st _.
  apply nv_kernel; [done|]. intros. by apply nv_ret.
Qed.
Lemma nv_cmp c l r h : nv (op_cmp c l r) any h.
Proof.
  unfold op_cmp. apply nv_get. intros x _. apply nv_get. intros y _. apply nv_read; [reads_tac|]. intros rg _.
  eapply nv_bind; [apply nv_create|]. intros t h1 _ _. apply nv_get. intros d _. apply nv_kernel; [apply st_tensor_cmp|]. intros. by apply nv_ret.
Qed.
Lemma nv_detach t h : nv (op_detach t) any h.
Proof. apply nv_get. intros. eapply nv_mono; [apply nv_create_view|done]. Qed.

(** ** calls that add pointers *)
Definition ov {A} (m : E A) (P : A -> heap -> Prop) (h : heap) : Prop :=
  wp m (fun a h' => oinv h' /\ (len h <= len h')%nat /\ P a h') (fun _ => oinv) h.
Lemma ov_bind {A B} (m : E A) (k : A -> E B) P P' h :
  ov m P h -> (forall a h', oinv h' -> (len h <= len h')%nat -> P a h' -> ov (k a) P' h') -> ov (bind m k) P' h.
Proof.
  intros Hm Hk. apply wp_bind. eapply wp_mono; [exact Hm| |done]. intros a h' (H1 & H2 & H3).
  eapply wp_mono; [by apply Hk| |done]. intros b h'' (H4 & H5 & H6). split; [done|]. split; [lia|done].
Qed.
Lemma ov_mono {A} (m : E A) (P P' : A -> heap -> Prop) h : ov m P h -> (forall a h', P a h' -> P' a h') -> ov m P' h.
Proof. intros H HP. eapply wp_mono; [exact H| |done]. intros a h' (? & ? & ?). auto. Qed.
Lemma ov_weak {A} (m : E A) (P : A -> heap -> Prop) h : ov m P h -> ov m any h.
Proof. intros H. by eapply ov_mono. Qed.
Lemma ov_ret {A} (a : A) (P : A -> heap -> Prop) h : oinv h -> P a h -> ov (mret a) P h. Proof. done. Qed.
Lemma ov_nv {A} (m : E A) P h : oinv h -> nv m P h -> ov m (fun a h' => news h h' /\ P a h') h.
Proof.
  intros Hi H. eapply wp_mono; [exact H| |].
  - intros a h' [N HP]. split; [by eapply oinv_news|]. split; [by apply news_len|done].
  - intros x h' N. by eapply oinv_news.
Qed.
Lemma ov_new {A} (m : E A) P h : oinv h -> nv m P h -> ov m any h.
Proof. intros Hi H. by eapply ov_weak, ov_nv. Qed.
Lemma ov_st {A} (m : E A) h : oinv h -> st m -> ov m any h.
Proof. intros Hi H. eapply ov_new; [done|]. by apply nv_st. Qed.
Lemma ov_kernel {A B} (m : E A) (k : A -> E B) P h : st m -> oinv h -> (forall a h', oinv h' -> news h h' -> ov (k a) P h') -> ov (bind m k) P h.
Proof. intros Hm Hi Hk. eapply ov_bind; [apply ov_nv; [done|by apply nv_st]|]. intros a h' Hi' _ [N _]. by apply Hk. Qed.
Lemma ov_read {A B} (m : E A) (k : A -> E B) P h : reads m -> oinv h -> (forall a, m h = (Ok a, h) -> ov (k a) P h) -> ov (bind m k) P h.
Proof.
  intros Hm Hi Hk. unfold ov, wp, bind. rewrite (reads_run m h Hm).
  destruct (m h).1 eqn:E; try done. apply Hk. rewrite (reads_run m h Hm). by rewrite E.
Qed.
Lemma ov_get {B} t (k : tensor -> E B) P h : oinv h -> (forall r, h_ten h !! t = Some r -> ov (k r) P h) -> ov (bind (get_ten t) k) P h.
Proof. intros Hi Hk. apply ov_read; [apply reads_get_ten|done|]. intros r [Hr _]%get_ten_inv. by apply Hk. Qed.

(** a changed record *)
Lemma ov_set t r r' h : oinv h -> h_ten h !! t = Some r -> t_dt r' = t_dt r -> t_lay r' = t_lay r ->
  (t_fn r' = None -> leafy h t) -> (t_fn r' <> None -> leafy h t -> forall u x, h_ten h !! u = Some x ->
     t_grad x <> Some t /\ forall f, t_fn x = Some f -> t ∉ slopes (gf_kind f)) ->
  (forall g, t_grad r' = Some g -> (t < g)%nat /\ like h r g) ->
  (forall f, t_fn r' = Some f -> Forall (fun i => i < t)%nat (gf_in f) /\ Forall (fun g => leafy h g /\ g <> t) (slopes (gf_kind f))) ->
  ov (set_ten t r') (fun _ h' => h_ten h' = <[t := r']> (h_ten h)) h.
Proof.
  intros Hi Hr Edt Elay Hn Hs Hg Hf. apply wp_set_ten. split; [|split; [simpl; by rewrite insert_length|done]].
  assert (t < len h)%nat as Hlt by (by eapply lookup_lt_Some).
  assert (forall g, g <> t \/ t_fn r' = None -> leafy h g -> leafy (Hp (h_sto h) (<[t := r']> (h_ten h)) (h_ver h)) g) as Hl.
  { intros g Hor (x & Hx & E). destruct (decide (g = t)) as [->|Hne].
    - destruct Hor as [?|E']; [done|]. exists r'. simpl. by rewrite list_lookup_insert.
    - exists x. simpl. by rewrite list_lookup_insert_ne. }
  assert (forall y g, g <> t \/ t_fn r' = None -> like h y g -> like (Hp (h_sto h) (<[t := r']> (h_ten h)) (h_ver h)) y g) as Hk.
  { intros y g Hor (x & Hx & E1 & E2 & E3). destruct (decide (g = t)) as [->|Hne].
    - destruct Hor as [?|E']; [done|]. exists r'. simpl. rewrite list_lookup_insert by done. assert (x = r) as -> by congruence.
      split; [done|]. split; [done|]. split; congruence.
    - exists x. simpl. by rewrite list_lookup_insert_ne. }
  intros u x Hx. simpl in Hx. destruct (decide (u = t)) as [->|Hne].
  - rewrite list_lookup_insert in Hx by done. apply (inj Some) in Hx as <-. split.
    + intros g E. destruct (Hg g E) as [G1 G2]. split; [done|]. unfold like. rewrite Edt, Elay. apply Hk; [left; lia|done].
    + intros f E. destruct (Hf f E) as [F1 F2]. split; [done|]. eapply Forall_impl; [exact F2|]. intros g [? ?]. apply Hl; [by left|done].
  - rewrite list_lookup_insert_ne in Hx by done. destruct (Hi u x Hx) as [H1 H2].
    destruct (t_fn r') as [f'|] eqn:Ef.
    + split.
      * intros g E. destruct (H1 g E) as [G1 G2]. split; [done|]. destruct (decide (g = t)) as [->|]; [|apply Hk; auto].
        exfalso. by destruct (Hs ltac:(done) (like_leafy _ _ _ G2) u x Hx) as [? _].
      * intros f E. destruct (H2 f E) as [F1 F2]. split; [done|]. apply Forall_forall. intros g Hin.
        rewrite Forall_forall in F2. pose proof (F2 g Hin) as G2. destruct (decide (g = t)) as [->|]; [|apply Hl; auto].
        exfalso. destruct (Hs ltac:(done) G2 u x Hx) as [_ Hs']. by apply (Hs' f).
    + split.
      * intros g E. destruct (H1 g E). split; [done|]. apply Hk; auto.
      * intros f E. destruct (H2 f E) as [F1 F2]. split; [done|]. eapply Forall_impl; [exact F2|]. intros g ?. apply Hl; auto.
Qed.
(** no new pointers *)
Lemma ov_keep t r r' h : oinv h -> h_ten h !! t = Some r -> t_dt r' = t_dt r -> t_lay r' = t_lay r -> t_grad r' = t_grad r \/ t_grad r' = None ->
  match t_fn r', t_fn r with None, None => True | Some f', Some f => gf_kind f' = gf_kind f /\ gf_in f' = gf_in f | _, _ => False end ->
  ov (set_ten t r') (fun _ h' => h_ten h' = <[t := r']> (h_ten h)) h.
Proof.
  intros Hi Hr Edt Elay Hg Hf. destruct (Hi t r Hr) as [H1 H2]. eapply ov_set; [done|done|done|done| | | |].
  - intros E. exists r. split; [done|]. rewrite E in Hf. by destruct (t_fn r).
  - intros E (y & Hy & Ey). assert (y = r) as -> by congruence. rewrite Ey in Hf. by destruct (t_fn r').
  - intros g E. apply H1. destruct Hg; congruence.
  - intros f' E. rewrite E in Hf. destruct (t_fn r) as [f|] eqn:Ef; [|done]. destruct Hf as [-> ->]. destruct (H2 f eq_refl) as [F1 F2].
    split; [done|]. eapply Forall_impl; [exact F2|]. intros g (y & Hy & Ey). split; [by exists y|]. intros ->. congruence.
Qed.
Lemma ov_set_grad t r g h : oinv h -> h_ten h !! t = Some r -> (t < g)%nat -> like h r g ->
  ov (set_ten t (with_grad r (Some g))) (fun _ h' => h_ten h' = <[t := with_grad r (Some g)]> (h_ten h)) h.
Proof.
  intros Hi Hr Hlt Hl. destruct (Hi t r Hr) as [H1 H2]. eapply ov_set; [done|done|done|done| | | |].
  - intros E. by exists r.
  - intros E (y & Hy & Ey). assert (y = r) as -> by congruence. done.
  - by intros x [= <-].
  - intros f E. destruct (H2 f E) as [F1 F2]. split; [done|]. eapply Forall_impl; [exact F2|]. intros x (y & Hy & Ey). split; [by exists y|].
    intros ->. simpl in E. congruence.
Qed.
Definition untouched (h : heap) (t : nat) : Prop :=
  forall u x, h_ten h !! u = Some x -> t_grad x <> Some t /\ forall f, t_fn x = Some f -> t ∉ slopes (gf_kind f).
Lemma made_untouched h t h' : oinv h -> news h h' -> (len h <= t)%nat -> untouched h' t.
Proof.
  intros Hi N Hle u x Hx. destruct (news_back _ _ _ _ N Hx) as [Hx0|[_ [B1 B2]]]; [|split; congruence].
  assert (~ leafy h t) as Hn. { intros (y & Hy & _). apply lookup_lt_Some in Hy. lia. }
  destruct (Hi u x Hx0) as [H1 H2]. split.
  - intros E. destruct (H1 t E) as [_ ?%like_leafy]. done.
  - intros f E Hin. destruct (H2 f E) as [_ F2]. rewrite Forall_forall in F2. by apply Hn, F2.
Qed.
Lemma made_leafy h t h' : news h h' -> made h t h' -> leafy h' t.
Proof.
  intros N [M1 M2]. destruct (lookup_lt_is_Some_2 (h_ten h') t M2) as [x Hx]. exists x. split; [done|].
  destruct (news_back _ _ _ _ N Hx) as [Hx0|[_ [_ B2]]]; [|done]. apply lookup_lt_Some in Hx0. lia.
Qed.
Lemma born_like dt ss h t h' r : news h h' -> born dt ss h t h' -> t_dt r = dt -> ss = t_lay r \/ ss = contig (sizes (t_lay r)) -> like h' r t.
Proof.
  intros N [M (x & Hx & E1 & E2)] Ed Es. destruct (made_leafy h t h' N M) as (y & Hy & Ef). assert (y = x) as -> by congruence.
  exists x. split; [done|]. split; [done|]. split; [congruence|]. by rewrite E2.
Qed.
Lemma ov_track h0 ret k ins h : oinv h0 -> news h0 h -> (len h0 <= ret)%nat ->
  Forall (fun i => i < ret)%nat ins -> Forall (fun g => leafy h g /\ g <> ret) (slopes k) ->
  ov (track ret k ins) (fun _ h' => exists r, h_ten h' = <[ret := r]> (h_ten h)) h.
Proof.
  intros Hi0 N Hle Hins Hk. assert (oinv h) as Hi by (by eapply oinv_news). unfold track. apply ov_get; [done|]. intros r Hr.
  eapply ov_mono; [eapply ov_set; [done|exact Hr|done|done| | | |]|].
  - done.
  - intros _ _. exact (made_untouched h0 ret h Hi0 N Hle).
  - intros g E. simpl in E. by destruct (Hi ret r Hr) as [H1 _]; apply H1.
  - intros f [= <-]. done.
  - intros x h' E. simpl in E. eexists. exact E.
Qed.
Lemma ov_track_ret h0 ret k ins h : oinv h0 -> news h0 h -> (len h0 <= ret)%nat ->
  Forall (fun i => i < ret)%nat ins -> Forall (fun g => leafy h g /\ g <> ret) (slopes k) -> ov (track ret k ins ;;; mret ret) any h.
Proof. intros. eapply ov_bind; [by eapply ov_track|]. intros. by apply ov_ret. Qed.

Lemma ov_binop kernel k l r order h : oinv h -> slopes k = [] -> (forall L R dst a b, st (kernel L R dst a b)) ->
  ov (apply_binary_operator kernel k l r order) any h.
Proof.
  intros Hi Hk Hkern. unfold apply_binary_operator.
  eapply (ov_bind _ _ (fun t h' => news h h' /\ made h t h' /\ (l < len h)%nat /\ (r < len h)%nat)).
  { apply ov_nv; [done|]. unfold apply_no_grad_binary_op. apply nv_get. intros x Hx. apply nv_get. intros y Hy.
    apply nv_read; [reads_tac|]. intros rg _. eapply nv_bind; [apply nv_create|]. intros t h1 N1 Hm. apply nv_get. intros d _.
    apply nv_kernel; [by repeat case_match|]. intros _ h2 N2. apply nv_ret. split; [by eapply made_ge|].
    apply lookup_lt_Some in Hx, Hy. done. }
  intros t h1 Hi1 _ (N & [Hm _] & Hl & Hr). apply ov_get; [done|]. intros x _. apply ov_get; [done|]. intros y _.
  case_match; [by apply ov_ret|]. eapply ov_track_ret; [exact Hi|done|done| |by rewrite Hk]. repeat constructor; lia.
Qed.
Lemma ov_neg t h : oinv h -> ov (op_neg t) any h.
Proof.
  intros Hi. unfold op_neg. eapply ov_bind; [apply ov_nv; [done|apply nv_create_scalar]|]. intros z h1 Hi1 _ _.
  apply ov_binop; [done|done|]. intros. apply st_tensor_sub.
Qed.
Lemma ov_copy (kernel : tensor -> E unit) t dt lay (b : bool) h : oinv h -> (t < len h)%nat -> (forall d, st (kernel d)) ->
  ov (let! ret := create dt lay true in
      let! d := get_ten ret in
      kernel d ;;;
      if b then mret ret else track ret CloneBack [t] ;;; mret ret) any h.
Proof.
  intros Hi Ht Hk. eapply ov_bind; [apply ov_nv; [done|apply nv_create]|]. intros u h1 Hi1 _ [N1 [Hm _]]. apply ov_get; [done|]. intros d _.
  apply ov_kernel; [done|done|]. intros _ h2 Hi2 N2. destruct b; [by apply ov_ret|].
  eapply ov_track_ret; [exact Hi|by eapply news_trans|done| |constructor]. repeat constructor; lia.
Qed.
Lemma ov_to_dtype t dt h : oinv h -> ov (to_dtype t dt) any h.
Proof.
  intros Hi. unfold to_dtype. apply ov_get; [done|]. intros r Hr. case_match; [done|]. case_match; [by apply ov_ret|].
  apply (ov_copy (fun d => tensor_to_type dt (t_dt r) d r)); [done|by eapply lookup_lt_Some|]. intros. apply st_tensor_to_type.
Qed.
Lemma ov_clone t h : oinv h -> ov (op_clone t) any h.
Proof.
  intros Hi. unfold op_clone. apply ov_get; [done|]. intros r Hr.
  apply (ov_copy (fun d => tensor_clone (t_dt r) (t_dt r) d r)); [done|by eapply lookup_lt_Some|]. intros. apply st_tensor_clone.
Qed.
Lemma ov_reduce (kernel : dtype -> dtype -> tensor -> tensor -> E unit) k t h : oinv h -> slopes k = [] -> (forall a b c d, st (kernel a b c d)) ->
  ov (let! r := get_ten t in
      let! tf := zeros [] (reduce_ty (t_dt r)) in
      let! d := get_ten tf in
      kernel (reduce_ty (t_dt r)) (t_dt r) d r ;;;
      (if t_rg r then track tf k [t] else mret tt) ;;;
      mret tf) any h.
Proof.
  intros Hi Hk Hkern. apply ov_get; [done|]. intros r Hr%lookup_lt_Some. eapply ov_bind; [apply ov_nv; [done|apply nv_zeros]|].
  intros u h1 Hi1 _ [N1 [Hm _]]. apply ov_get; [done|]. intros d _. apply ov_kernel; [done|done|]. intros _ h2 Hi2 N2.
  eapply (ov_bind _ _ any); [|intros; by apply ov_ret]. case_match; [|by apply ov_ret].
  eapply ov_weak, ov_track; [exact Hi|by eapply news_trans|done| |by rewrite Hk]. repeat constructor; lia.
Qed.
Lemma ov_abs t h : oinv h -> ov (op_abs t) any h.
Proof.
  intros Hi. unfold op_abs. apply ov_get; [done|]. intros r Hr%lookup_lt_Some. eapply ov_bind; [apply ov_nv; [done|apply nv_create]|].
  intros u h1 Hi1 _ [N1 Hm]. apply ov_get; [done|]. intros d _. case_match.
  - apply ov_kernel; [apply st_tensor_abs|done|]. intros. by apply ov_ret.
  - eapply ov_bind; [apply ov_nv; [done|apply nv_create]|]. intros g h2 Hi2 _ [N2 Hg]. apply ov_get; [done|]. intros gr _.
    apply ov_kernel; [apply st_tensor_abs|done|]. intros _ h3 Hi3 N3. pose proof Hm as [M1 M2]. pose proof Hg as [G1 G2].
    eapply ov_track_ret; [exact Hi|eapply news_trans; [|exact N3]; by eapply news_trans|done|repeat constructor; lia|].
    repeat constructor; [|lia]. eapply leafy_news; [exact N3|]. by eapply made_leafy.
Qed.
Lemma ov_extremum c t h : oinv h -> ov (op_extremum c t) any h.
Proof.
  intros Hi. unfold op_extremum. apply ov_get; [done|]. intros r Hr%lookup_lt_Some. eapply ov_bind; [apply ov_nv; [done|apply nv_zeros]|].
  intros u h1 Hi1 _ [N1 Hm]. apply ov_get; [done|]. intros d _. case_match.
  - apply ov_kernel; [apply st_tensor_extremum|done|]. intros. by apply ov_ret.
  - eapply ov_bind; [apply ov_nv; [done|apply nv_zeros_like]|]. intros g h2 Hi2 _ [N2 Hg]. apply ov_get; [done|]. intros gr _.
    apply ov_kernel; [apply st_tensor_extremum|done|]. intros _ h3 Hi3 N3. pose proof Hm as [M1 M2]. pose proof Hg as [G1 G2].
    eapply ov_track_ret; [exact Hi|eapply news_trans; [|exact N3]; by eapply news_trans|done|repeat constructor; lia|].
    repeat constructor; [|lia]. eapply leafy_news; [exact N3|]. by eapply made_leafy.
Qed.
Lemma ov_share to from h : oinv h -> ov (share_grad_storage to from) any h.
Proof.
  intros Hi. unfold share_grad_storage. apply ov_get; [done|]. intros f Hf. eapply (ov_bind _ _ any).
  { destruct (t_grad f); [by apply ov_ret|]. eapply ov_bind; [apply ov_nv; [done|apply nv_create_born]|]. intros g h1 Hi1 _ [N1 Hm].
    pose proof Hm as [[M1 _] _]. pose proof (lookup_lt_Some _ _ _ Hf). eapply ov_weak, ov_set_grad; [done|by eapply news_get|lia|eapply born_like; [done|exact Hm|done|auto]]. }
  intros _ h1 Hi1 _ _. apply ov_get; [done|]. intros f' _. destruct (t_grad f'); [|done]. apply ov_get; [done|]. intros fgr _.
  apply ov_get; [done|]. intros t Ht. eapply ov_bind; [apply ov_nv; [done|apply nv_view_born]|]. intros g h2 Hi2 _ [N2 Hm].
  apply ov_get; [done|]. intros t' Ht'. pose proof Hm as [[M1 _] _]. pose proof (lookup_lt_Some _ _ _ Ht).
  assert (t' = t) as -> by (eapply news_get in Ht; [|exact N2]; congruence).
  eapply ov_weak, ov_set_grad; [done|done|lia|eapply born_like; [done|exact Hm|done|auto]].
Qed.
Lemma ov_track_share {A} h0 ret t (u : A) h : oinv h0 -> news h0 h -> (len h0 <= ret)%nat -> (t < ret)%nat ->
  ov (track ret NoBack [t] ;;; share_grad_storage ret t ;;; mret u) any h.
Proof.
  intros Hi N Hle Ht. eapply ov_bind; [eapply ov_track; [done|done|done|by repeat constructor|constructor]|]. intros _ h1 Hi1 _ _.
  eapply ov_bind; [by apply ov_share|]. intros. by apply ov_ret.
Qed.
Lemma ov_finish t dt lay s h : oinv h -> (t < len h)%nat -> ov (let! ret := create_view dt lay s in finish_view ret t) any h.
Proof.
  intros Hi Ht. eapply ov_bind; [apply ov_nv; [done|apply nv_create_view]|]. intros ret h1 Hi1 _ [N [M _]].
  unfold finish_view. apply ov_get; [done|]. intros i _. case_match; [by apply ov_ret|]. eapply ov_track_share; [exact Hi|done|done|lia].
Qed.
Lemma ov_slice t s h : oinv h -> ov (op_slice t s) any h.
Proof.
  intros Hi. unfold op_slice. apply ov_get; [done|]. intros r Hr. apply ov_read; [reads_tac|done|]. intros lay _.
  apply ov_finish; [done|by eapply lookup_lt_Some].
Qed.
Lemma ov_transpose t i j h : oinv h -> ov (op_transpose t i j) any h.
Proof.
  intros Hi. unfold op_transpose. apply ov_get; [done|]. intros r Hr. cbv zeta.
  do 2 (apply ov_read; [reads_tac|done|]; intros _ _). apply ov_finish; [done|by eapply lookup_lt_Some].
Qed.
Lemma ov_reshape_sv t ss h : oinv h -> ov (op_reshape_sv t ss) any h.
Proof.
  intros Hi. unfold op_reshape_sv. apply ov_get; [done|]. intros r Hr%lookup_lt_Some. cbv zeta. apply ov_read; [reads_tac|done|]. intros _ _.
  eapply (ov_bind _ _ any).
  { case_match; [|by apply ov_ret]. eapply ov_bind; [apply ov_nv; [done|apply nv_create_view]|]. intros tf h1 Hi1 _ [N [M _]].
    case_match; [by apply ov_ret|]. eapply ov_track_share; [exact Hi|done|done|lia]. }
  intros early h1 Hi1 Hl1 _. destruct early as [tf|]; [by apply ov_ret|]. apply ov_read; [by case_match|done|]. intros _ _.
  apply ov_read; [reads_tac|done|]. intros iso _.
  eapply (ov_bind _ _ (fun p h' => exists h0, oinv h0 /\ news h0 h' /\ (len h0 <= p.1)%nat /\ (p.2 < p.1)%nat)).
  { destruct iso.
    - apply ov_read; [by repeat case_match|done|]. intros sts _. eapply ov_bind; [apply ov_nv; [done|apply nv_create_view]|].
      intros tf h2 Hi2 _ [N [M _]]. apply ov_ret; [done|]. exists h1. simpl. split_and!; [done|done|done|lia].
    - eapply ov_bind; [by apply ov_clone|]. intros m h2 Hi2 Hl2 _. apply ov_get; [done|]. intros mr Hm%lookup_lt_Some.
      eapply ov_bind; [apply ov_nv; [done|apply nv_create_view]|].
      intros tf h3 Hi3 _ [N [M _]]. apply ov_ret; [done|]. exists h2. simpl. split_and!; [done|done|done|lia]. }
  intros [tf ln] h2 Hi2 _ (h0 & Hi0 & N & M & L). simpl in M, L. apply ov_get; [done|]. intros i _. case_match; [by apply ov_ret|].
  by eapply ov_track_share.
Qed.
Lemma ov_cat ts dim h : oinv h -> ov (op_cat ts dim) any h.
Proof.
  intros Hi. unfold op_cat. apply ov_read; [apply reads_get_all|done|]. intros rs [_ Hrs]%get_all_inv. destruct rs as [|r0 rest]; [done|].
  cbv zeta. do 2 (apply ov_read; [reads_tac|done|]; intros _ _). eapply ov_bind; [apply ov_nv; [done|apply nv_create]|].
  intros ret h1 Hi1 _ [N1 [M _]]. apply ov_get; [done|]. intros dr _. apply ov_kernel; [apply st_cat_copy|done|]. intros _ h2 Hi2 N2.
  case_match; [|by apply ov_ret]. eapply ov_track_ret; [exact Hi|by eapply news_trans|done| |constructor].
  clear -Hrs M. apply Forall_forall. intros i Hin. apply elem_of_list_lookup in Hin as [k Hk].
  destruct (Forall2_lookup_l _ _ _ _ _ Hrs Hk) as (x & _ & Hx%lookup_lt_Some). lia.
Qed.

(** ** backward *)
Lemma ov_upd_fn t f h : (forall g, gf_kind (f g) = gf_kind g /\ gf_in (f g) = gf_in g) -> oinv h -> ov (upd_fn t f) any h.
Proof.
  intros Hf Hi. unfold upd_fn. apply ov_get; [done|]. intros r Hr. destruct (t_fn r) as [g|] eqn:E; [|done].
  eapply ov_weak, ov_keep; [done|done|done|done|by left|]. simpl. rewrite E. apply Hf.
Qed.
Lemma ov_upd_like t r f h : (forall g, gf_kind (f g) = gf_kind g /\ gf_in (f g) = gf_in g) -> oinv h -> h_ten h !! t = Some r ->
  ov (upd_fn t f) (fun _ h' => exists r', h_ten h' !! t = Some r' /\ t_dt r' = t_dt r /\ t_lay r' = t_lay r) h.
Proof.
  intros Hf Hi Hr. unfold upd_fn. apply ov_get; [done|]. intros r' Hr'. assert (r' = r) as -> by congruence.
  destruct (t_fn r) as [g|] eqn:E; [|done]. eapply ov_mono; [eapply ov_keep; [done|exact Hr|done|done|by left|]|].
  - simpl. rewrite E. apply Hf.
  - intros ? h' E'. rewrite E', list_lookup_insert by (by eapply lookup_lt_Some). by eexists.
Qed.
Lemma ov_set_fn t r f f' h : oinv h -> h_ten h !! t = Some r -> t_fn r = Some f -> gf_kind f' = gf_kind f -> gf_in f' = gf_in f ->
  ov (set_ten t (with_fn r (Some f'))) any h.
Proof. intros Hi Hr Hf E1 E2. eapply ov_weak, ov_keep; [done|done|done|done|by left|]. simpl. by rewrite Hf. Qed.
Lemma ov_update p h : oinv h -> ov (try_accumulate_update p) any h.
Proof.
  intros Hi. unfold try_accumulate_update. apply ov_get; [done|]. intros r Hr. case_match; [by apply ov_ret|].
  eapply (ov_bind _ _ (fun _ h' => exists r', h_ten h' !! p = Some r' /\ t_dt r' = t_dt r /\ t_lay r' = t_lay r)).
  { case_match; [by apply ov_upd_like|apply ov_ret; [done|by exists r]]. }
  intros _ h1 Hi1 _ (r1 & Hr1 & Ed & El). pose proof (lookup_lt_Some _ _ _ Hr1) as Hl1. destruct (t_grad r) as [g|].
  - apply ov_get; [done|]. intros gr _. apply ov_kernel; [apply st_sto_is_alloc|done|]. intros a h2 Hi2 _.
    destruct a; [by apply ov_ret|]. apply ov_st; [done|]. apply st_bind; [apply st_sto_alloc|]. intros. apply st_sto_zero.
  - eapply ov_bind; [apply ov_nv; [done|apply nv_create_born]|]. intros g h2 Hi2 _ [N Hm]. apply ov_get; [done|]. intros p' Hp'.
    pose proof Hm as [[M1 _] _]. assert (p' = r1) as -> by (eapply news_get in Hr1; [|exact N]; congruence).
    eapply ov_bind; [eapply ov_set_grad; [done|done|lia|eapply born_like; [exact N|exact Hm|congruence|left; congruence]]|].
    intros _ h3 Hi3 _ _. apply ov_get; [done|]. intros gr _. apply ov_st; [done|apply st_sto_zero].
Qed.
Lemma ov_acc p w o h : oinv h -> ov (try_accumulate_grad p w o) any h.
Proof.
  intros Hi. unfold try_accumulate_grad. apply ov_get; [done|]. intros r _. case_match; [by apply ov_ret|].
  eapply ov_bind; [by apply ov_update|]. intros _ h1 Hi1 _ _.
  apply ov_st; [done|]. destruct o, w; st_tac; try apply st_addeq; try apply st_mul_add;
    try (apply st_reads; reads_tac); done.
Qed.
Lemma ov_out_grad {B} this (k : nat -> E B) P h : oinv h -> (forall g, ov (k g) P h) -> ov (bind (out_grad this) k) P h.
Proof. intros Hi Hk. apply ov_read; [unfold out_grad; reads_tac|done|]. intros. apply Hk. Qed.
Lemma ov_input {B} ins i (k : nat -> E B) P h : oinv h -> (forall a, ov (k a) P h) -> ov (bind (input ins i) k) P h.
Proof. intros Hi Hk. apply ov_read; [unfold input; reads_tac|done|]. intros. apply Hk. Qed.
Lemma ov_cat_back this dim ins s h : oinv h -> ov (cat_back this dim ins s) any h.
Proof.
  revert s h. induction ins as [|t ins IH]; intros s h Hi; [by apply ov_ret|]. cbn [cat_back].
  apply ov_get; [done|]. intros me _. apply ov_get; [done|]. intros x _. cbv zeta.
  apply ov_read; [reads_tac|done|]. intros g _. apply ov_get; [done|]. intros gr _.
  eapply ov_bind; [eapply ov_new; [done|apply nv_create_view]|]. intros v h1 Hi1 _ _.
  eapply ov_bind; [by apply ov_acc|]. intros _ h2 Hi2 _ _. by apply IH.
Qed.
Lemma ov_step_back this k ins h : oinv h -> ov (step_back this k ins) any h.
Proof.
  intros Hi. destruct k; cbn [step_back].
  - apply ov_input; [done|]. intros a. apply ov_input; [done|]. intros b. apply ov_out_grad; [done|]. intros g.
    eapply ov_bind; [by apply ov_acc|]. intros _ h1 Hi1 _ _. apply ov_out_grad; [done|]. intros. by apply ov_acc.
  - apply ov_input; [done|]. intros a. apply ov_input; [done|]. intros b. apply ov_out_grad; [done|]. intros g.
    eapply ov_bind; [by apply ov_acc|]. intros _ h1 Hi1 _ _. apply ov_out_grad; [done|]. intros.
    eapply ov_bind; [eapply ov_new; [done|apply nv_create_scalar]|]. intros m h2 Hi2 _ _. by apply ov_acc.
  - apply ov_input; [done|]. intros a. apply ov_input; [done|]. intros b. apply ov_out_grad; [done|]. intros g.
    eapply ov_bind; [by apply ov_acc|]. intros _ h1 Hi1 _ _. apply ov_out_grad; [done|]. intros. by apply ov_acc.
  - apply ov_input; [done|]. intros a. apply ov_input; [done|]. intros b.
    eapply ov_bind; [by apply ov_update|]. intros _ h1 Hi1 _ _. apply ov_get; [done|]. intros ar _.
    apply ov_read; [reads_tac|done|]. intros ga _. apply ov_out_grad; [done|]. intros g.
    apply ov_kernel; [apply st_div_num_f|done|]. intros _ h2 Hi2 _.
    eapply ov_bind; [by apply ov_update|]. intros _ h3 Hi3 _ _. apply ov_get; [done|]. intros br _.
    apply ov_get; [done|]. intros me _. apply ov_read; [unfold dispatch_ff; by case_match|done|]. intros _ _.
    apply ov_read; [reads_tac|done|]. intros gb _. apply ov_out_grad; [done|]. intros g2.
    apply ov_get; [done|]. intros gbr _. apply ov_get; [done|]. intros gr _. apply ov_st; [done|apply st_div_den].
  - apply ov_input; [done|]. intros a. eapply ov_bind; [eapply ov_new; [done|apply nv_ones_like]|].
    intros o h1 Hi1 _ _. apply ov_out_grad; [done|]. intros. by apply ov_acc.
  - apply ov_input; [done|]. intros a. apply ov_get; [done|]. intros ar _.
    eapply ov_bind; [eapply ov_new; [done|apply nv_full_double]|]. intros o h1 Hi1 _ _. by apply ov_acc.
  - apply ov_input; [done|]. intros a. by apply ov_acc.
  - apply ov_input; [done|]. intros a. apply ov_out_grad; [done|]. intros. by apply ov_acc.
  - by apply ov_cat_back.
  - apply ov_input; [done|]. intros a. apply ov_out_grad; [done|]. intros. by apply ov_acc.
Qed.
Lemma ov_visit_reset ins h : oinv h -> ov (visit_reset ins) any h.
Proof.
  revert h. induction ins as [|i ins IH]; intros h Hi; [by apply ov_ret|]. cbn [visit_reset].
  apply ov_get; [done|]. intros r Hr. apply ov_read; [done|done|]. intros v _. destruct (t_fn r) as [g|] eqn:E; [|by apply IH].
  case_match; [|by apply IH]. eapply ov_bind; [by eapply ov_set_fn|]. intros _ h1 Hi1 _ _.
  eapply ov_bind; [by apply IH|]. intros q h2 Hi2 _ _. by apply ov_ret.
Qed.
Lemma ov_visit_count ins h : oinv h -> ov (visit_count ins) any h.
Proof.
  revert h. induction ins as [|i ins IH]; intros h Hi; [by apply ov_ret|]. cbn [visit_count].
  apply ov_get; [done|]. intros r Hr. apply ov_read; [done|done|]. intros v _. destruct (t_fn r) as [g|] eqn:E; [|by apply IH].
  cbv zeta. case_match.
  - eapply ov_bind; [by eapply ov_set_fn|]. intros _ h1 Hi1 _ _.
    eapply ov_bind; [by apply IH|]. intros q h2 Hi2 _ _. by apply ov_ret.
  - eapply ov_bind; [by eapply ov_set_fn|]. intros _ h1 Hi1 _ _. by apply IH.
Qed.
Lemma ov_visit_ready ins h : oinv h -> ov (visit_ready ins) any h.
Proof.
  revert h. induction ins as [|i ins IH]; intros h Hi; [by apply ov_ret|]. cbn [visit_ready].
  apply ov_get; [done|]. intros r Hr. apply ov_read; [done|done|]. intros v _. destruct (t_fn r) as [g|] eqn:E; [|by apply IH].
  case_match; [|by apply IH]. eapply ov_bind; [by eapply ov_set_fn|]. intros _ h1 Hi1 _ _.
  eapply ov_bind; [by apply IH|]. intros q h2 Hi2 _ _. by apply ov_ret.
Qed.
Lemma ov_bfs fuel body q h : (forall t h, oinv h -> ov (body t) any h) -> oinv h -> ov (bfs fuel body q) any h.
Proof.
  intros Hb. revert q h. induction fuel as [|n IH]; intros q h Hi; destruct q as [|t q]; cbn [bfs];
    try (by apply ov_ret); try exact Hi.
  eapply ov_bind; [by apply Hb|]. intros. by apply IH.
Qed.
Lemma ov_get_fn {B} t (k : gradfn -> E B) P h : oinv h -> (forall g, ov (k g) P h) -> ov (bind (get_fn t) k) P h.
Proof. intros Hi Hk. apply ov_read; [unfold get_fn; reads_tac|done|]. intros. apply Hk. Qed.
Lemma ov_process t h : oinv h -> ov (process t) any h.
Proof.
  intros Hi. unfold process. apply ov_get_fn; [done|]. intros g. eapply ov_bind; [by apply ov_step_back|].
  intros _ h1 Hi1 _ _. apply ov_get; [done|]. intros r Hr. eapply (ov_bind _ _ any).
  { case_match; [by apply ov_ret|]. eapply ov_weak, ov_keep; [done|done|done|done|by right|]. simpl. by destruct (t_fn r). }
  intros _ h2 Hi2 _ _. apply ov_get_fn; [done|]. intros g2. by apply ov_visit_ready.
Qed.
Lemma ov_bump h : oinv h -> ov bump any h.
Proof. intros Hi. split; [|split; [done|done]]. eapply oinv_news; [exact Hi|]. by apply news_eq. Qed.
Lemma ov_refresh t h : oinv h -> ov (refresh_n_outway t) any h.
Proof.
  intros Hi. unfold refresh_n_outway. apply ov_read; [done|done|]. intros m _.
  eapply ov_bind; [by apply ov_bump|]. intros v h1 Hi1 _ _.
  eapply ov_bind; [by apply ov_upd_fn|]. intros _ h2 Hi2 _ _.
  eapply ov_bind; [apply ov_bfs; [|done]|].
  { intros x h3 Hi3. apply ov_get_fn; [done|]. intros g. by apply ov_visit_reset. }
  intros _ h3 Hi3 _ _. eapply ov_bind; [by apply ov_bump|]. intros v' h4 Hi4 _ _.
  eapply ov_bind; [by apply ov_upd_fn|]. intros _ h5 Hi5 _ _. apply ov_bfs; [|done].
  intros x h6 Hi6. apply ov_get_fn; [done|]. intros g. by apply ov_visit_count.
Qed.
Lemma ov_root {B} t (k : E B) h : oinv h -> (t < len h)%nat -> (forall h', oinv h' -> ov k any h') ->
  ov (let! o := ones_like t in
      let! r := get_ten t in
      set_ten t (with_grad r (Some o)) ;;;
      let! v := bump in
      upd_fn t (fun g => gf_with_ver g v) ;;; k) any h.
Proof.
  intros Hi Hl Hk. destruct (lookup_lt_is_Some_2 (h_ten h) t) as [r1 Hr1]; [lia|].
  eapply ov_bind; [apply ov_nv; [done|by apply nv_ones_like_born]|]. intros o h2 Hi2 _ [N Hm]. apply ov_get; [done|]. intros r2 Hr2.
  pose proof Hm as [[M1 _] _]. assert (r2 = r1) as -> by (eapply news_get in Hr1; [|exact N]; congruence).
  eapply ov_bind; [eapply ov_set_grad; [done|done|lia|eapply born_like; [done|exact Hm|done|auto]]|].
  intros _ h3 Hi3 _ _. eapply ov_bind; [by apply ov_bump|]. intros v h4 Hi4 _ _.
  eapply ov_bind; [by apply ov_upd_fn|]. intros _ h5 Hi5 _ _. by apply Hk.
Qed.
Lemma ov_backward t h : oinv h -> ov (backward t) any h.
Proof.
  intros Hi. unfold backward. apply ov_get; [done|]. intros r Hr%lookup_lt_Some.
  do 3 (apply ov_read; [reads_tac|done|]; intros _ _). apply ov_read; [done|done|]. intros n _.
  eapply ov_bind; [by apply ov_refresh|]. intros _ h1 Hi1 Hl1 _. apply ov_root; [done|lia|].
  intros h2 Hi2. apply ov_bfs; [|done]. intros. by apply ov_process.
Qed.

Lemma ov_un (a : option nat) (f : nat -> E nat) h : oinv h -> (forall t, ov (f t) any h) -> ov (un a f) any h.
Proof. intros Hi Hf. unfold un. apply ov_read; [reads_tac|done|]. intros x _. eapply ov_bind; [apply Hf|]. intros. by apply ov_ret. Qed.
Lemma ov_bin (a b : option nat) (f : nat -> nat -> E nat) h : oinv h -> (forall t u, ov (f t u) any h) -> ov (bin a b f) any h.
Proof. intros Hi Hf. unfold bin. do 2 (apply ov_read; [reads_tac|done|]; intros ? _). eapply ov_bind; [apply Hf|]. intros. by apply ov_ret. Qed.
Lemma ov_new_handle m h : ov m any h -> ov (new_handle m) any h.
Proof. intros Hm. eapply ov_bind; [exact Hm|]. intros. by apply ov_ret. Qed.
Lemma ov_query a f h : oinv h -> ov (query a f) any h.
Proof. intros Hi. unfold query. apply ov_read; [reads_tac|done|]. intros x _. apply ov_get; [done|]. intros. by apply ov_ret. Qed.
Lemma ov_no_result m h : ov m any h -> ov (no_result m) any h.
Proof. intros Hm. eapply ov_bind; [exact Hm|]. intros. by apply ov_ret. Qed.
Lemma ov_exec o h : oinv h -> ov (exec o) any h.
Proof.
  intros Hi. destruct o; cbn [exec];
    try (apply ov_un; [done|]; intros t);
    try (apply ov_bin; [done|]; intros t u);
    try (by apply ov_query).
  - apply ov_new_handle. eapply ov_new; [done|apply nv_create_scalar].
  - apply ov_new_handle. eapply ov_new; [done|apply nv_create].
  - apply ov_read; [reads_tac|done|]. intros s _. eapply ov_bind; [eapply ov_new; [done|apply nv_create_impl]|]. intros. by apply ov_ret.
  - apply ov_new_handle. eapply ov_new; [done|apply nv_zeros].
  - apply ov_new_handle. eapply ov_new; [done|apply nv_ones].
  - eapply ov_new; [done|apply nv_zeros_like].
  - eapply ov_new; [done|apply nv_ones_like].
  - apply ov_new_handle. eapply ov_new; [done|apply nv_full_int].
  - apply ov_new_handle. eapply ov_new; [done|apply nv_full_double].
  - apply ov_new_handle. eapply ov_new; [done|apply nv_eye].
  - apply ov_new_handle. eapply ov_new; [done|apply nv_from_blob].
  - apply ov_new_handle. eapply ov_new; [done|apply nv_randn].
  - apply ov_get; [done|]. intros. eapply ov_new; [done|apply nv_randn].
  - apply ov_binop; [done|done|intros; apply st_tensor_add].
  - apply ov_binop; [done|done|intros; apply st_tensor_sub].
  - apply ov_binop; [done|done|intros; apply st_tensor_mul].
  - apply ov_binop; [done|done|intros; apply st_tensor_div].
  - by apply ov_ret.
  - by apply ov_neg.
  - eapply ov_new; [done|apply nv_cmp].
  - do 2 (apply ov_read; [reads_tac|done|]; intros ? _). apply ov_no_result, ov_st; [done|apply st_addeq].
  - by apply ov_to_dtype.
  - by apply ov_slice.
  - by apply ov_transpose.
  - unfold op_reshape. apply ov_get; [done|]. intros r _. apply ov_read; [reads_tac|done|]. intros ss' _. by apply ov_reshape_sv.
  - unfold op_reshape_as. apply ov_get; [done|]. intros r _. by apply ov_reshape_sv.
  - apply ov_read; [apply reads_deref_all|done|]. intros xs _. apply ov_new_handle. by apply ov_cat.
  - apply (ov_reduce tensor_sum SumBack); [done|done|]. intros. apply st_tensor_sum.
  - apply (ov_reduce tensor_mean MeanBack); [done|done|]. intros. apply st_tensor_mean.
  - by apply ov_abs.
  - by apply ov_extremum.
  - by apply ov_extremum.
  - by apply ov_clone.
  - by apply ov_clone.
  - eapply ov_new; [done|apply nv_detach].
  - apply ov_read; [reads_tac|done|]. intros x _. apply ov_no_result. by apply ov_backward.
  - apply ov_read; [reads_tac|done|]. intros x _. apply ov_no_result, ov_st; [done|apply st_zero_grad].
  - apply ov_read; [reads_tac|done|]. intros x _. apply ov_no_result. unfold set_requires_grad.
    apply ov_get; [done|]. intros r Hr. apply ov_read; [by case_match; reads_tac|done|]. intros [] _.
    eapply ov_weak, ov_keep; [done|done|done|done|by left|]. simpl. by destruct (t_fn r).
  - apply ov_read; [reads_tac|done|]. intros x _. apply ov_get; [done|]. intros r Hr. apply ov_no_result.
    eapply ov_weak, ov_keep; [done|done|done|done|by left|]. simpl. by destruct (t_fn r).
  - apply ov_read; [reads_tac|done|]. intros x _. apply ov_get; [done|]. intros r Hr. apply ov_no_result.
    apply ov_st; [done|apply st_sto_release].
  - apply ov_read; [reads_tac|done|]. intros x _. eapply (ov_bind _ _ any); [|intros; by apply ov_ret].
    apply ov_st; [done|]. apply st_op_all.
  - case_match; [|by apply ov_ret]. eapply (ov_bind _ _ any); [|intros; by apply ov_ret].
    apply ov_st; [done|]. apply st_reads. unfold impl_to_string. apply reads_bind; [apply reads_get_ten|].
    intros. apply reads_to_string.
  - apply ov_read; [reads_tac|done|]. intros x _. eapply (ov_bind _ _ any); [|intros; by apply ov_ret].
    unfold op_stride. apply ov_get; [done|]. intros. done.
Qed.
Lemma ov_out {A} (m : E A) P h : ov m P h -> oinv (m h).2.
Proof. unfold ov, wp. destruct (m h) as [[?|?|?|] ?]; simpl; tauto. Qed.
Lemma oinv_run ops : forall h, oinv h -> oinv (run h ops).2.
Proof.
  induction ops as [|o ops IH]; intros h Hi; [done|]. cbn [run]. pose proof (ov_out _ _ _ (ov_exec o h Hi)) as H1.
  destruct (exec o h) as [[r|e|u|] h']; simpl in H1; try done.
  - specialize (IH h' H1). destruct (run h' ops) as [[?|?|?|] ?]; done.
  - specialize (IH h' H1). destruct (run h' ops) as [[?|?|?|] ?]; done.
Qed.
Lemma reachable_oinv h : reachable h -> oinv h.
Proof.
  intros (ops & rs & E). assert (oinv empty_heap) as H0 by (intros t r H; by destruct t).
  pose proof (oinv_run ops _ H0) as H. by rewrite E in H.
Qed.

(** ** what that means *)
Lemma grad_like h t r g : reachable h -> h_ten h !! t = Some r -> t_grad r = Some g ->
  exists gr, h_ten h !! g = Some gr /\ t_dt gr = t_dt r /\ sizes (t_lay gr) = sizes (t_lay r) /\
    (t_lay gr = t_lay r \/ t_lay gr = contig (sizes (t_lay r))) /\ t_fn gr = None /\ g <> t.
Proof.
  intros Hi%reachable_oinv Hr Hg. destruct (Hi t r Hr) as [H1 _]. destruct (H1 g Hg) as (Hlt & gr & E1 & E2 & E3 & E4).
  exists gr. split; [done|]. split; [done|]. split; [by destruct E4 as [->| ->]|]. split; [done|]. split; [done|lia].
Qed.
Lemma owns_leafy h x y : oinv h -> owns h x y -> leafy h x -> (x < y)%nat /\ leafy h y.
Proof.
  intros Hi (r & Hr & Hor) (r' & Hr' & E). assert (r' = r) as -> by congruence. destruct (Hi x r Hr) as [H1 H2].
  destruct Hor as [Hg|(f & Hf & _)]; [|congruence]. destruct (H1 y Hg) as [? ?%like_leafy]. done.
Qed.
Lemma owns_step h x y : oinv h -> owns h x y -> leafy h y /\ (leafy h x -> x < y)%nat \/ ~ leafy h x /\ (y < x)%nat.
Proof.
  intros Hi Ho. pose proof Ho as (r & Hr & Hor). destruct (Hi x r Hr) as [H1 H2]. destruct Hor as [Hg|(f & Hf & Hin)].
  - destruct (H1 y Hg) as [? ?%like_leafy]. left. auto.
  - assert (~ leafy h x) as Hn by (intros (r' & Hr' & E); congruence). destruct (H2 f Hf) as [F1 F2]. destruct Hin as [Hin|Hk].
    + right. split; [done|]. by eapply Forall_forall in F1.
    + left. rewrite Hk in F2. apply Forall_cons in F2 as [F2 _]. split; [done|]. intros. done.
Qed.
Lemma owns_path h x y : oinv h -> tc (owns h) x y -> (leafy h y /\ (leafy h x -> x < y)%nat) \/ ~ leafy h x /\ (y < x)%nat.
Proof.
  intros Hi. induction 1 as [x y Ho|x y z Ho _ IH]; [by apply owns_step|].
  destruct (owns_step h x y Hi Ho) as [[L1 L2]|[L1 L2]], IH as [[K1 K2]|[K1 K2]]; try done.
  - left. split; [done|]. intros Lx. specialize (K2 L1). specialize (L2 Lx). lia.
  - left. split; [done|]. intros Lx. done.
  - right. split; [done|lia].
Qed.
Lemma no_cycles h x : reachable h -> ~ tc (owns h) x x.
Proof.
  intros Hi%reachable_oinv Ht. destruct (owns_path h x x Hi Ht) as [[L1 L2]|[L1 L2]]; [|lia]. specialize (L2 L1). lia.
Qed.

(** a group of tensors that nothing outside it owns has a member that nothing owns *)
Lemma max_in (l : list nat) : l <> [] -> exists x, x ∈ l /\ forall y, y ∈ l -> (y <= x)%nat.
Proof.
  induction l as [|a l IH]; [done|]. intros _. destruct (decide (l = [])) as [->|Hne].
  - exists a. split; [by left|]. intros y [->|H]%elem_of_cons; [done|by apply elem_of_nil in H].
  - destruct (IH Hne) as (x & Hx & H). destruct (decide (a <= x)%nat).
    + exists x. split; [by right|]. intros y [->|Hy]%elem_of_cons; auto.
    + exists a. split; [by left|]. intros y [->|Hy]%elem_of_cons; [done|]. specialize (H y Hy). lia.
Qed.
Lemma min_in (l : list nat) : l <> [] -> exists x, x ∈ l /\ forall y, y ∈ l -> (x <= y)%nat.
Proof.
  induction l as [|a l IH]; [done|]. intros _. destruct (decide (l = [])) as [->|Hne].
  - exists a. split; [by left|]. intros y [->|H]%elem_of_cons; [done|by apply elem_of_nil in H].
  - destruct (IH Hne) as (x & Hx & H). destruct (decide (x <= a)%nat).
    + exists x. split; [by right|]. intros y [->|Hy]%elem_of_cons; auto.
    + exists a. split; [by left|]. intros y [->|Hy]%elem_of_cons; [done|]. specialize (H y Hy). lia.
Qed.
#[global] Instance leafy_dec h g : Decision (leafy h g).
Proof.
  destruct (h_ten h !! g) as [x|] eqn:E; [destruct (t_fn x) as [f|] eqn:Ef|].
  - right. intros (y & Hy & Ey). congruence.
  - left. by exists x.
  - right. intros (y & Hy & Ey). congruence.
Defined.
Lemma unowned h (l : list nat) : reachable h -> l <> [] -> exists x, x ∈ l /\ forall y, y ∈ l -> ~ owns h y x.
Proof.
  intros Hi%reachable_oinv Hne. set (n := filter (fun x => ~ leafy h x) l). destruct (decide (n = [])) as [En|Hn].
  - assert (forall y, y ∈ l -> leafy h y) as Hl.
    { intros y Hy. destruct (decide (leafy h y)); [done|]. assert (y ∈ n) as H by (by apply elem_of_list_filter).
      rewrite En in H. by apply elem_of_nil in H. }
    destruct (min_in l Hne) as (x & Hx & Hm). exists x. split; [done|]. intros y Hy Ho.
    destruct (owns_leafy h y x Hi Ho (Hl y Hy)). specialize (Hm y Hy). lia.
  - destruct (max_in n Hn) as (x & [Hnx Hx]%elem_of_list_filter & Hm). exists x. split; [done|]. intros y Hy Ho.
    destruct (owns_step h y x Hi Ho) as [[L1 _]|[L1 L2]]; [done|].
    assert (y ∈ n) as H by (by apply elem_of_list_filter). specialize (Hm y H). lia.
Qed.
End with_fops.
