(** retain_grad and requires_grad are the only calls that change the two flags of an
    existing tensor. *)
From Verif.Proofs Require Export Inv3.
From Verif.Spec Require Export Flags.
From Verif.Model Require Export Api.

Section with_fops.
Context {fo : FOps}.
Notation any := (fun _ _ => True).
Notation len h := (length (h_ten h)).

Definition no_setter (o : op) : Prop := match o with ORetain _ _ | ORequires _ _ => False | _ => True end.

Section flags.
(** the tensors below [n0] have the flags given; the others are not retained *)
Context (n0 : nat) (R G : nat -> bool).
Definition finv (h : heap) : Prop := (n0 <= len h)%nat /\ forall t r, h_ten h !! t = Some r ->
  t_ret r = (if (t <? n0)%nat then R t else false) /\ ((t < n0)%nat -> t_rg r = G t).

(** ** new tensors *)
Definition unkept (r : tensor) : Prop := t_ret r = false.
Definition adds (h h' : heap) : Prop := exists l, h_ten h' = h_ten h ++ l /\ Forall unkept l.
Lemma adds_refl h : adds h h. Proof. exists []. by rewrite app_nil_r. Qed.
Lemma adds_eq h h' : h_ten h' = h_ten h -> adds h h'. Proof. intros E. exists []. by rewrite app_nil_r. Qed.
Lemma adds_trans h1 h2 h3 : adds h1 h2 -> adds h2 h3 -> adds h1 h3.
Proof. intros (l & E & H) (l' & E' & H'). exists (l ++ l'). rewrite E', E, app_assoc. split; [done|]. by apply Forall_app. Qed.
Lemma adds_get h h' t r : adds h h' -> h_ten h !! t = Some r -> h_ten h' !! t = Some r.
Proof. intros (l & -> & _) H. by apply lookup_app_l_Some. Qed.
Lemma adds_back h h' t r : adds h h' -> h_ten h' !! t = Some r -> h_ten h !! t = Some r \/ (len h <= t)%nat /\ unkept r.
Proof.
  intros (l & -> & Hl) [H|[Hle H]]%lookup_app_Some; [by left|right]. split; [done|]. by eapply Forall_lookup_1 in Hl.
Qed.
Lemma adds_len h h' : adds h h' -> (len h <= len h')%nat.
Proof. intros (l & -> & _). rewrite app_length. lia. Qed.
Lemma finv_news h h' : finv h -> adds h h' -> finv h'.
Proof.
  intros [Hn Hi] N. pose proof (adds_len _ _ N). split; [lia|]. intros t r Hr.
  destruct (adds_back _ _ _ _ N Hr) as [Hr0|[Hle B]]; [by apply Hi|]. unfold unkept in B.
  destruct (Nat.ltb_spec t n0); [lia|]. split; [done|lia].
Qed.

Definition wv {A} (m : E A) (P : A -> heap -> Prop) (h : heap) : Prop :=
  wp m (fun a h' => adds h h' /\ P a h') (fun _ h' => adds h h') h.
Definition added (h : heap) (t : nat) (h' : heap) : Prop := (len h <= t < len h')%nat.
Lemma wv_bind {A B} (m : E A) (k : A -> E B) P P' h :
  wv m P h -> (forall a h', adds h h' -> P a h' -> wv (k a) P' h') -> wv (bind m k) P' h.
Proof.
  intros Hm Hk. apply wp_bind. eapply wp_mono; [exact Hm| |done]. intros a h' [N HP].
  eapply wp_mono; [by apply Hk| |]; intros.
  - destruct H. split; [by eapply adds_trans|done].
  - by eapply adds_trans.
Qed.
Lemma wv_mono {A} (m : E A) (P P' : A -> heap -> Prop) h : wv m P h -> (forall a h', adds h h' -> P a h' -> P' a h') -> wv m P' h.
Proof. intros H HP. eapply wp_mono; [exact H| |done]. intros a h' [? ?]. auto. Qed.
Lemma wv_ret {A} (a : A) (P : A -> heap -> Prop) h : P a h -> wv (mret a) P h.
Proof. intros. split; [apply adds_refl|done]. Qed.
Lemma wv_st {A} (m : E A) h : st m -> wv m any h.
Proof. intros Hm. unfold wv, wp. destruct (Hm h) as [H _]. destruct (m h) as [[?|?|?|] h']; simpl in *; try (by apply adds_eq). split; [by apply adds_eq|done]. Qed.
Lemma wv_kernel {A B} (m : E A) (k : A -> E B) P h : st m -> (forall a h', adds h h' -> wv (k a) P h') -> wv (bind m k) P h.
Proof. intros Hm Hk. eapply wv_bind; [by apply wv_st|]. auto. Qed.
Lemma wv_read {A B} (m : E A) (k : A -> E B) P h : reads m -> (forall a, m h = (Ok a, h) -> wv (k a) P h) -> wv (bind m k) P h.
Proof.
  intros Hm Hk. unfold wv, wp, bind. rewrite (reads_run m h Hm).
  destruct (m h).1 eqn:E; try apply adds_refl. apply Hk. rewrite (reads_run m h Hm). by rewrite E.
Qed.
Lemma wv_get {B} t (k : tensor -> E B) P h : (forall r, h_ten h !! t = Some r -> wv (k r) P h) -> wv (bind (get_ten t) k) P h.
Proof. intros Hk. apply wv_read; [apply reads_get_ten|]. intros r [Hr _]%get_ten_inv. by apply Hk. Qed.
Lemma added_le h h1 h2 t : adds h h1 -> added h1 t h2 -> added h t h2.
Proof. intros N%adds_len [? ?]. split; lia. Qed.
Lemma added_ge h h1 h2 t : added h t h1 -> adds h1 h2 -> added h t h2.
Proof. intros [? ?] N%adds_len. split; lia. Qed.
Lemma wv_create_view dt lay s h : wv (create_view dt lay s) (added h) h.
Proof.
  apply wp_new_ten. split; [eexists; split; [reflexivity|by repeat constructor]|]. unfold added. simpl. rewrite app_length. simpl. lia.
Qed.
Lemma wv_create dt lay b h : wv (create dt lay b) (added h) h.
Proof.
  unfold create. cbv zeta. apply wv_kernel; [destruct b; [apply st_bind; [apply st_lift|]|]; done|]. intros blob h1 N1.
  apply wv_kernel; [done|]. intros s h2 N2. eapply wv_mono; [apply wv_create_view|]. intros t h3 N3 Hm.
  eapply added_le; [|exact Hm]. by eapply adds_trans.
Qed.
Lemma wv_create_scalar dt v h : wv (create_scalar dt v) (added h) h.
Proof.
  unfold create_scalar. eapply wv_bind; [apply wv_create|]. intros t h1 N1 Hm. apply wv_get. intros r _.
  apply wv_kernel; [apply st_store|]. intros _ h2 N2. apply wv_ret. by eapply added_ge.
Qed.
Lemma wv_fill_new ss dt tmp nt h : wv (fill_new ss dt tmp nt) (added h) h.
Proof.
  unfold fill_new. eapply wv_bind; [apply wv_create|]. intros t h1 N1 Hm. apply wv_get. intros r _. apply wv_get. intros n _.
  apply wv_kernel; [apply st_tensor_fill|]. intros _ h2 N2. apply wv_ret. by eapply added_ge.
Qed.
Lemma wv_scalar_fill dt0 v ss dt nt h : wv (let! x := create_scalar dt0 v in fill_new ss dt x nt) (added h) h.
Proof.
  eapply wv_bind; [apply wv_create_scalar|]. intros x h1 N1 _. eapply wv_mono; [apply wv_fill_new|]. intros t h2 N2. by apply added_le.
Qed.
Lemma wv_ones ss dt h : wv (ones ss dt) (added h) h. Proof. apply wv_scalar_fill. Qed.
Lemma wv_full_int ss n dt h : wv (full_int ss n dt) (added h) h. Proof. apply wv_scalar_fill. Qed.
Lemma wv_full_double ss n dt h : wv (full_double ss n dt) (added h) h. Proof. apply wv_scalar_fill. Qed.
Lemma wv_ones_like t h : wv (ones_like t) (added h) h. Proof. apply wv_get. intros. apply wv_ones. Qed.
Lemma wv_zeros ss dt h : wv (zeros ss dt) (added h) h.
Proof.
  unfold zeros. eapply wv_bind; [apply wv_create|]. intros t h1 N1 Hm. apply wv_get. intros r _.
  apply wv_kernel; [apply st_sto_zero|]. intros _ h2 N2. apply wv_ret. by eapply added_ge.
Qed.
Lemma wv_zeros_like t h : wv (zeros_like t) (added h) h. Proof. apply wv_get. intros. apply wv_zeros. Qed.
Lemma wv_eye n m dt h : wv (eye n m dt) (added h) h.
Proof.
  unfold eye. eapply wv_bind; [apply wv_create|]. intros t h1 N1 Hm. apply wv_get. intros r _.
  apply wv_kernel; [apply st_sto_zero|]. intros _ h2 N2. apply wv_kernel; [apply st_tensor_eye|]. intros _ h3 N3. apply wv_ret.
  eapply added_ge; [by eapply added_ge|done].
Qed.
Lemma wv_from_blob d ss dt h : wv (from_blob d ss dt) (added h) h.
Proof.
  unfold from_blob. eapply wv_bind; [apply wv_create|]. intros t h1 N1 Hm. apply wv_get. intros r _.
  apply wv_read; [reads_tac|]. intros s _. apply wv_kernel; [by st_tac|]. intros _ h2 N2. apply wv_ret. by eapply added_ge.
Qed.
Lemma wv_randn ss dt xs h : wv (op_randn ss dt xs) any h.
Proof.
  unfold op_randn. apply wv_read; [reads_tac|]. intros _ _. eapply wv_bind; [apply wv_create|]. intros t h1 N1 Hm.
  apply wv_get. intros r _. apply wv_kernel; [apply st_mapM; intros; apply st_randn_write|]. intros. by apply wv_ret.
Qed.
Lemma wv_create_impl s h : wv (create_impl s) any h.
Proof.
  unfold create_impl. destruct (sp_shape s); [by apply wv_ret|]. apply wv_read; [reads_tac|]. intros dt _.
  eapply wv_bind; [apply wv_create|]. intros t h1 _ _. apply wv_get. intros r _. apply wv_read; [reads_tac|]. intros st _.
  apply wv_kernel; [done|]. intros. by apply wv_ret.
Qed.
Lemma wv_cmp c l r h : wv (op_cmp c l r) any h.
Proof.
  unfold op_cmp. apply wv_get. intros x _. apply wv_get. intros y _. apply wv_read; [reads_tac|]. intros rg _.
  eapply wv_bind; [apply wv_create|]. intros t h1 _ _. apply wv_get. intros d _. apply wv_kernel; [apply st_tensor_cmp|]. intros. by apply wv_ret.
Qed.
Lemma wv_detach t h : wv (op_detach t) any h.
Proof. apply wv_get. intros. eapply wv_mono; [apply wv_create_view|done]. Qed.

(** ** calls that add pointers *)
Definition fv {A} (m : E A) (P : A -> heap -> Prop) (h : heap) : Prop :=
  wp m (fun a h' => finv h' /\ (len h <= len h')%nat /\ P a h') (fun _ => finv) h.
Lemma fv_bind {A B} (m : E A) (k : A -> E B) P P' h :
  fv m P h -> (forall a h', finv h' -> (len h <= len h')%nat -> P a h' -> fv (k a) P' h') -> fv (bind m k) P' h.
Proof.
  intros Hm Hk. apply wp_bind. eapply wp_mono; [exact Hm| |done]. intros a h' (H1 & H2 & H3).
  eapply wp_mono; [by apply Hk| |done]. intros b h'' (H4 & H5 & H6). split; [done|]. split; [lia|done].
Qed.
Lemma fv_mono {A} (m : E A) (P P' : A -> heap -> Prop) h : fv m P h -> (forall a h', P a h' -> P' a h') -> fv m P' h.
Proof. intros H HP. eapply wp_mono; [exact H| |done]. intros a h' (? & ? & ?). auto. Qed.
Lemma fv_weak {A} (m : E A) (P : A -> heap -> Prop) h : fv m P h -> fv m any h.
Proof. intros H. by eapply fv_mono. Qed.
Lemma fv_ret {A} (a : A) (P : A -> heap -> Prop) h : finv h -> P a h -> fv (mret a) P h. Proof. done. Qed.
Lemma fv_nv {A} (m : E A) P h : finv h -> wv m P h -> fv m (fun a h' => adds h h' /\ P a h') h.
Proof.
  intros Hi H. eapply wp_mono; [exact H| |].
  - intros a h' [N HP]. split; [by eapply finv_news|]. split; [by apply adds_len|done].
  - intros x h' N. by eapply finv_news.
Qed.
Lemma fv_new {A} (m : E A) P h : finv h -> wv m P h -> fv m any h.
Proof. intros Hi H. by eapply fv_weak, fv_nv. Qed.
Lemma fv_st {A} (m : E A) h : finv h -> st m -> fv m any h.
Proof. intros Hi H. eapply fv_new; [done|]. by apply wv_st. Qed.
Lemma fv_kernel {A B} (m : E A) (k : A -> E B) P h : st m -> finv h -> (forall a h', finv h' -> adds h h' -> fv (k a) P h') -> fv (bind m k) P h.
Proof. intros Hm Hi Hk. eapply fv_bind; [apply fv_nv; [done|by apply wv_st]|]. intros a h' Hi' _ [N _]. by apply Hk. Qed.
Lemma fv_read {A B} (m : E A) (k : A -> E B) P h : reads m -> finv h -> (forall a, m h = (Ok a, h) -> fv (k a) P h) -> fv (bind m k) P h.
Proof.
  intros Hm Hi Hk. unfold fv, wp, bind. rewrite (reads_run m h Hm).
  destruct (m h).1 eqn:E; try done. apply Hk. rewrite (reads_run m h Hm). by rewrite E.
Qed.
Lemma fv_get {B} t (k : tensor -> E B) P h : finv h -> (forall r, h_ten h !! t = Some r -> fv (k r) P h) -> fv (bind (get_ten t) k) P h.
Proof. intros Hi Hk. apply fv_read; [apply reads_get_ten|done|]. intros r [Hr _]%get_ten_inv. by apply Hk. Qed.

(** a changed record *)
Lemma fv_set t r r' h : finv h -> h_ten h !! t = Some r -> t_ret r' = t_ret r -> t_rg r' = t_rg r \/ (n0 <= t)%nat ->
  fv (set_ten t r') any h.
Proof.
  intros [Hn Hi] Hr E1 E2. apply wp_set_ten. split; [|split; [simpl; by rewrite insert_length|done]].
  split; [simpl; by rewrite insert_length|]. intros u x Hx. simpl in Hx. destruct (decide (u = t)) as [->|Hne].
  - rewrite list_lookup_insert in Hx by (by eapply lookup_lt_Some). apply (inj Some) in Hx as <-.
    destruct (Hi t r Hr) as [H1 H2]. split; [by rewrite E1|]. intros Hlt. destruct E2 as [->|?]; [by apply H2|lia].
  - rewrite list_lookup_insert_ne in Hx by done. by apply Hi.
Qed.
Lemma fv_keep t r r' h : finv h -> h_ten h !! t = Some r -> t_ret r' = t_ret r -> t_rg r' = t_rg r -> fv (set_ten t r') any h.
Proof. intros. eapply fv_set; eauto. Qed.
Lemma fv_track h0 ret k ins h : finv h0 -> adds h0 h -> (len h0 <= ret)%nat -> fv (track ret k ins) any h.
Proof.
  intros Hi0 N Hle. assert (finv h) as Hi by (by eapply finv_news). unfold track. apply fv_get; [done|]. intros r Hr.
  eapply fv_set; [done|exact Hr|done|]. right. destruct Hi0. lia.
Qed.
Lemma fv_track_ret h0 ret k ins h : finv h0 -> adds h0 h -> (len h0 <= ret)%nat -> fv (track ret k ins ;;; mret ret) any h.
Proof. intros. eapply fv_bind; [by eapply fv_track|]. intros. by apply fv_ret. Qed.

Lemma fv_binop kernel k l r order h : finv h -> (forall L R dst a b, st (kernel L R dst a b)) ->
  fv (apply_binary_operator kernel k l r order) any h.
Proof.
  intros Hi Hkern. unfold apply_binary_operator.
  eapply (fv_bind _ _ (fun t h' => adds h h' /\ added h t h' /\ (l < len h)%nat /\ (r < len h)%nat)).
  { apply fv_nv; [done|]. unfold apply_no_grad_binary_op. apply wv_get. intros x Hx. apply wv_get. intros y Hy.
    apply wv_read; [reads_tac|]. intros rg _. eapply wv_bind; [apply wv_create|]. intros t h1 N1 Hm. apply wv_get. intros d _.
    apply wv_kernel; [by repeat case_match|]. intros _ h2 N2. apply wv_ret. split; [by eapply added_ge|].
    apply lookup_lt_Some in Hx, Hy. done. }
  intros t h1 Hi1 _ (N & [Hm _] & Hl & Hr). apply fv_get; [done|]. intros x _. apply fv_get; [done|]. intros y _.
  case_match; [by apply fv_ret|]. eapply fv_track_ret; [exact Hi|done|done].
Qed.
Lemma fv_neg t h : finv h -> fv (op_neg t) any h.
Proof.
  intros Hi. unfold op_neg. eapply fv_bind; [apply fv_nv; [done|apply wv_create_scalar]|]. intros z h1 Hi1 _ _.
  apply fv_binop; [done|]. intros. apply st_tensor_sub.
Qed.
Lemma fv_copy (kernel : tensor -> E unit) t dt lay (b : bool) h : finv h -> (t < len h)%nat -> (forall d, st (kernel d)) ->
  fv (let! ret := create dt lay true in
      let! d := get_ten ret in
      kernel d ;;;
      if b then mret ret else track ret CloneBack [t] ;;; mret ret) any h.
Proof.
  intros Hi Ht Hk. eapply fv_bind; [apply fv_nv; [done|apply wv_create]|]. intros u h1 Hi1 _ [N1 [Hm _]]. apply fv_get; [done|]. intros d _.
  apply fv_kernel; [done|done|]. intros _ h2 Hi2 N2. destruct b; [by apply fv_ret|].
  eapply fv_track_ret; [exact Hi|by eapply adds_trans|done].
Qed.
Lemma fv_to_dtype t dt h : finv h -> fv (to_dtype t dt) any h.
Proof.
  intros Hi. unfold to_dtype. apply fv_get; [done|]. intros r Hr. case_match; [done|]. case_match; [by apply fv_ret|].
  apply (fv_copy (fun d => tensor_to_type dt (t_dt r) d r)); [done|by eapply lookup_lt_Some|]. intros. apply st_tensor_to_type.
Qed.
Lemma fv_clone t h : finv h -> fv (op_clone t) any h.
Proof.
  intros Hi. unfold op_clone. apply fv_get; [done|]. intros r Hr.
  apply (fv_copy (fun d => tensor_clone (t_dt r) (t_dt r) d r)); [done|by eapply lookup_lt_Some|]. intros. apply st_tensor_clone.
Qed.
Lemma fv_reduce (kernel : dtype -> dtype -> tensor -> tensor -> E unit) k t h : finv h -> (forall a b c d, st (kernel a b c d)) ->
  fv (let! r := get_ten t in
      let! tf := zeros [] (reduce_ty (t_dt r)) in
      let! d := get_ten tf in
      kernel (reduce_ty (t_dt r)) (t_dt r) d r ;;;
      (if t_rg r then track tf k [t] else mret tt) ;;;
      mret tf) any h.
Proof.
  intros Hi Hkern. apply fv_get; [done|]. intros r Hr%lookup_lt_Some. eapply fv_bind; [apply fv_nv; [done|apply wv_zeros]|].
  intros u h1 Hi1 _ [N1 [Hm _]]. apply fv_get; [done|]. intros d _. apply fv_kernel; [done|done|]. intros _ h2 Hi2 N2.
  eapply (fv_bind _ _ any); [|intros; by apply fv_ret]. case_match; [|by apply fv_ret].
  eapply fv_track; [exact Hi|by eapply adds_trans|done].
Qed.
Lemma fv_abs t h : finv h -> fv (op_abs t) any h.
Proof.
  intros Hi. unfold op_abs. apply fv_get; [done|]. intros r Hr%lookup_lt_Some. eapply fv_bind; [apply fv_nv; [done|apply wv_create]|].
  intros u h1 Hi1 _ [N1 Hm]. apply fv_get; [done|]. intros d _. case_match.
  - apply fv_kernel; [apply st_tensor_abs|done|]. intros. by apply fv_ret.
  - eapply fv_bind; [apply fv_nv; [done|apply wv_create]|]. intros g h2 Hi2 _ [N2 Hg]. apply fv_get; [done|]. intros gr _.
    apply fv_kernel; [apply st_tensor_abs|done|]. intros _ h3 Hi3 N3. pose proof Hm as [M1 M2]. pose proof Hg as [G1 G2].
    eapply fv_track_ret; [exact Hi|eapply adds_trans; [|exact N3]; by eapply adds_trans|done].
Qed.
Lemma fv_extremum c t h : finv h -> fv (op_extremum c t) any h.
Proof.
  intros Hi. unfold op_extremum. apply fv_get; [done|]. intros r Hr%lookup_lt_Some. eapply fv_bind; [apply fv_nv; [done|apply wv_zeros]|].
  intros u h1 Hi1 _ [N1 Hm]. apply fv_get; [done|]. intros d _. case_match.
  - apply fv_kernel; [apply st_tensor_extremum|done|]. intros. by apply fv_ret.
  - eapply fv_bind; [apply fv_nv; [done|apply wv_zeros_like]|]. intros g h2 Hi2 _ [N2 Hg]. apply fv_get; [done|]. intros gr _.
    apply fv_kernel; [apply st_tensor_extremum|done|]. intros _ h3 Hi3 N3. pose proof Hm as [M1 M2]. pose proof Hg as [G1 G2].
    eapply fv_track_ret; [exact Hi|eapply adds_trans; [|exact N3]; by eapply adds_trans|done].
Qed.
Lemma fv_share to from h : finv h -> fv (share_grad_storage to from) any h.
Proof.
  intros Hi. unfold share_grad_storage. apply fv_get; [done|]. intros f Hf. eapply (fv_bind _ _ any).
  { destruct (t_grad f); [by apply fv_ret|]. eapply fv_bind; [apply fv_nv; [done|apply wv_create]|]. intros g h1 Hi1 _ [N1 Hm].
    pose proof Hm as [M1 _]. pose proof (lookup_lt_Some _ _ _ Hf). eapply fv_keep; [done|by eapply adds_get|done|done]. }
  intros _ h1 Hi1 _ _. apply fv_get; [done|]. intros f' _. destruct (t_grad f'); [|done]. apply fv_get; [done|]. intros fgr _.
  apply fv_get; [done|]. intros t Ht. eapply fv_bind; [apply fv_nv; [done|apply wv_create_view]|]. intros g h2 Hi2 _ [N2 Hm].
  apply fv_get; [done|]. intros t' Ht'. pose proof Hm as [M1 _]. pose proof (lookup_lt_Some _ _ _ Ht).
  by eapply fv_keep.
Qed.
Lemma fv_track_share {A} h0 ret t (u : A) h : finv h0 -> adds h0 h -> (len h0 <= ret)%nat -> (t < ret)%nat ->
  fv (track ret NoBack [t] ;;; share_grad_storage ret t ;;; mret u) any h.
Proof.
  intros Hi N Hle Ht. eapply fv_bind; [by eapply fv_track|]. intros _ h1 Hi1 _ _.
  eapply fv_bind; [by apply fv_share|]. intros. by apply fv_ret.
Qed.
Lemma fv_finish t dt lay s h : finv h -> (t < len h)%nat -> fv (let! ret := create_view dt lay s in finish_view ret t) any h.
Proof.
  intros Hi Ht. eapply fv_bind; [apply fv_nv; [done|apply wv_create_view]|]. intros ret h1 Hi1 _ [N [M _]].
  unfold finish_view. apply fv_get; [done|]. intros i _. case_match; [by apply fv_ret|]. eapply fv_track_share; [exact Hi|done|done|lia].
Qed.
Lemma fv_slice t s h : finv h -> fv (op_slice t s) any h.
Proof.
  intros Hi. unfold op_slice. apply fv_get; [done|]. intros r Hr. apply fv_read; [reads_tac|done|]. intros lay _.
  apply fv_finish; [done|by eapply lookup_lt_Some].
Qed.
Lemma fv_transpose t i j h : finv h -> fv (op_transpose t i j) any h.
Proof.
  intros Hi. unfold op_transpose. apply fv_get; [done|]. intros r Hr. cbv zeta.
  do 2 (apply fv_read; [reads_tac|done|]; intros _ _). apply fv_finish; [done|by eapply lookup_lt_Some].
Qed.
Lemma fv_reshape_sv t ss h : finv h -> fv (op_reshape_sv t ss) any h.
Proof.
  intros Hi. unfold op_reshape_sv. apply fv_get; [done|]. intros r Hr%lookup_lt_Some. cbv zeta. apply fv_read; [reads_tac|done|]. intros _ _.
  eapply (fv_bind _ _ any).
  { case_match; [|by apply fv_ret]. eapply fv_bind; [apply fv_nv; [done|apply wv_create_view]|]. intros tf h1 Hi1 _ [N [M _]].
    case_match; [by apply fv_ret|]. eapply fv_track_share; [exact Hi|done|done|lia]. }
  intros early h1 Hi1 Hl1 _. destruct early as [tf|]; [by apply fv_ret|]. apply fv_read; [by case_match|done|]. intros _ _.
  apply fv_read; [reads_tac|done|]. intros iso _.
  eapply (fv_bind _ _ (fun p h' => exists h0, finv h0 /\ adds h0 h' /\ (len h0 <= p.1)%nat /\ (p.2 < p.1)%nat)).
  { destruct iso.
    - apply fv_read; [by repeat case_match|done|]. intros sts _. eapply fv_bind; [apply fv_nv; [done|apply wv_create_view]|].
      intros tf h2 Hi2 _ [N [M _]]. apply fv_ret; [done|]. exists h1. simpl. split_and!; [done|done|done|lia].
    - eapply fv_bind; [by apply fv_clone|]. intros m h2 Hi2 Hl2 _. apply fv_get; [done|]. intros mr Hm%lookup_lt_Some.
      eapply fv_bind; [apply fv_nv; [done|apply wv_create_view]|].
      intros tf h3 Hi3 _ [N [M _]]. apply fv_ret; [done|]. exists h2. simpl. split_and!; [done|done|done|lia]. }
  intros [tf ln] h2 Hi2 _ (h0 & Hi0 & N & M & L). simpl in M, L. apply fv_get; [done|]. intros i _. case_match; [by apply fv_ret|].
  by eapply fv_track_share.
Qed.
Lemma fv_cat ts dim h : finv h -> fv (op_cat ts dim) any h.
Proof.
  intros Hi. unfold op_cat. apply fv_read; [apply reads_get_all|done|]. intros rs [_ Hrs]%get_all_inv. destruct rs as [|r0 rest]; [done|].
  cbv zeta. do 2 (apply fv_read; [reads_tac|done|]; intros _ _). eapply fv_bind; [apply fv_nv; [done|apply wv_create]|].
  intros ret h1 Hi1 _ [N1 [M _]]. apply fv_get; [done|]. intros dr _. apply fv_kernel; [apply st_cat_copy|done|]. intros _ h2 Hi2 N2.
  case_match; [|by apply fv_ret]. eapply fv_track_ret; [exact Hi|by eapply adds_trans|done].
Qed.

(** ** backward *)
Lemma fv_set_fn t r o h : finv h -> h_ten h !! t = Some r -> fv (set_ten t (with_fn r o)) any h.
Proof. intros. by eapply fv_keep. Qed.
Lemma fv_upd_fn t f h : finv h -> fv (upd_fn t f) any h.
Proof.
  intros Hi. unfold upd_fn. apply fv_get; [done|]. intros r Hr. destruct (t_fn r); [|done]. by eapply fv_set_fn.
Qed.
Lemma fv_update p h : finv h -> fv (try_accumulate_update p) any h.
Proof.
  intros Hi. unfold try_accumulate_update. apply fv_get; [done|]. intros r Hr%lookup_lt_Some. case_match; [by apply fv_ret|].
  eapply (fv_bind _ _ any). { case_match; [by apply fv_upd_fn|by apply fv_ret]. }
  intros _ h1 Hi1 Hl _. destruct (t_grad r) as [g|].
  - apply fv_get; [done|]. intros gr _. apply fv_kernel; [apply st_sto_is_alloc|done|]. intros a h2 Hi2 _.
    destruct a; [by apply fv_ret|]. apply fv_st; [done|]. apply st_bind; [apply st_sto_alloc|]. intros. apply st_sto_zero.
  - eapply fv_bind; [apply fv_nv; [done|apply wv_create]|]. intros g h2 Hi2 _ [N Hm]. apply fv_get; [done|]. intros p' Hp'.
    pose proof Hm as [M1 _]. eapply fv_bind; [by eapply fv_keep|].
    intros _ h3 Hi3 _ _. apply fv_get; [done|]. intros gr _. apply fv_st; [done|apply st_sto_zero].
Qed.
Lemma fv_acc p w o h : finv h -> fv (try_accumulate_grad p w o) any h.
Proof.
  intros Hi. unfold try_accumulate_grad. apply fv_get; [done|]. intros r _. case_match; [by apply fv_ret|].
  eapply fv_bind; [by apply fv_update|]. intros _ h1 Hi1 _ _.
  apply fv_st; [done|]. destruct o, w; st_tac; try apply st_addeq; try apply st_mul_add;
    try (apply st_reads; reads_tac); done.
Qed.
Lemma fv_out_grad {B} this (k : nat -> E B) P h : finv h -> (forall g, fv (k g) P h) -> fv (bind (out_grad this) k) P h.
Proof. intros Hi Hk. apply fv_read; [unfold out_grad; reads_tac|done|]. intros. apply Hk. Qed.
Lemma fv_input {B} ins i (k : nat -> E B) P h : finv h -> (forall a, fv (k a) P h) -> fv (bind (input ins i) k) P h.
Proof. intros Hi Hk. apply fv_read; [unfold input; reads_tac|done|]. intros. apply Hk. Qed.
Lemma fv_cat_back this dim ins s h : finv h -> fv (cat_back this dim ins s) any h.
Proof.
  revert s h. induction ins as [|t ins IH]; intros s h Hi; [by apply fv_ret|]. cbn [cat_back].
  apply fv_get; [done|]. intros me _. apply fv_get; [done|]. intros x _. cbv zeta.
  apply fv_read; [reads_tac|done|]. intros g _. apply fv_get; [done|]. intros gr _.
  eapply fv_bind; [eapply fv_new; [done|apply wv_create_view]|]. intros v h1 Hi1 _ _.
  eapply fv_bind; [by apply fv_acc|]. intros _ h2 Hi2 _ _. by apply IH.
Qed.
Lemma fv_step_back this k ins h : finv h -> fv (step_back this k ins) any h.
Proof.
  intros Hi. destruct k; cbn [step_back].
  - apply fv_input; [done|]. intros a. apply fv_input; [done|]. intros b. apply fv_out_grad; [done|]. intros g.
    eapply fv_bind; [by apply fv_acc|]. intros _ h1 Hi1 _ _. apply fv_out_grad; [done|]. intros. by apply fv_acc.
  - apply fv_input; [done|]. intros a. apply fv_input; [done|]. intros b. apply fv_out_grad; [done|]. intros g.
    eapply fv_bind; [by apply fv_acc|]. intros _ h1 Hi1 _ _. apply fv_out_grad; [done|]. intros.
    eapply fv_bind; [eapply fv_new; [done|apply wv_create_scalar]|]. intros m h2 Hi2 _ _. by apply fv_acc.
  - apply fv_input; [done|]. intros a. apply fv_input; [done|]. intros b. apply fv_out_grad; [done|]. intros g.
    eapply fv_bind; [by apply fv_acc|]. intros _ h1 Hi1 _ _. apply fv_out_grad; [done|]. intros. by apply fv_acc.
  - apply fv_input; [done|]. intros a. apply fv_input; [done|]. intros b.
    eapply fv_bind; [by apply fv_update|]. intros _ h1 Hi1 _ _. apply fv_get; [done|]. intros ar _.
    apply fv_read; [reads_tac|done|]. intros ga _. apply fv_out_grad; [done|]. intros g.
    apply fv_kernel; [apply st_div_num_f|done|]. intros _ h2 Hi2 _.
    eapply fv_bind; [by apply fv_update|]. intros _ h3 Hi3 _ _. apply fv_get; [done|]. intros br _.
    apply fv_get; [done|]. intros me _. apply fv_read; [unfold dispatch_ff; by case_match|done|]. intros _ _.
    apply fv_read; [reads_tac|done|]. intros gb _. apply fv_out_grad; [done|]. intros g2.
    apply fv_get; [done|]. intros gbr _. apply fv_get; [done|]. intros gr _. apply fv_st; [done|apply st_div_den].
  - apply fv_input; [done|]. intros a. eapply fv_bind; [eapply fv_new; [done|apply wv_ones_like]|].
    intros o h1 Hi1 _ _. apply fv_out_grad; [done|]. intros. by apply fv_acc.
  - apply fv_input; [done|]. intros a. apply fv_get; [done|]. intros ar _.
    eapply fv_bind; [eapply fv_new; [done|apply wv_full_double]|]. intros o h1 Hi1 _ _. by apply fv_acc.
  - apply fv_input; [done|]. intros a. by apply fv_acc.
  - apply fv_input; [done|]. intros a. apply fv_out_grad; [done|]. intros. by apply fv_acc.
  - by apply fv_cat_back.
  - apply fv_input; [done|]. intros a. apply fv_out_grad; [done|]. intros. by apply fv_acc.
Qed.
Lemma fv_visit_reset ins h : finv h -> fv (visit_reset ins) any h.
Proof.
  revert h. induction ins as [|i ins IH]; intros h Hi; [by apply fv_ret|]. cbn [visit_reset].
  apply fv_get; [done|]. intros r Hr. apply fv_read; [done|done|]. intros v _. destruct (t_fn r) as [g|] eqn:E; [|by apply IH].
  case_match; [|by apply IH]. eapply fv_bind; [by eapply fv_set_fn|]. intros _ h1 Hi1 _ _.
  eapply fv_bind; [by apply IH|]. intros q h2 Hi2 _ _. by apply fv_ret.
Qed.
Lemma fv_visit_count ins h : finv h -> fv (visit_count ins) any h.
Proof.
  revert h. induction ins as [|i ins IH]; intros h Hi; [by apply fv_ret|]. cbn [visit_count].
  apply fv_get; [done|]. intros r Hr. apply fv_read; [done|done|]. intros v _. destruct (t_fn r) as [g|] eqn:E; [|by apply IH].
  cbv zeta. case_match.
  - eapply fv_bind; [by eapply fv_set_fn|]. intros _ h1 Hi1 _ _.
    eapply fv_bind; [by apply IH|]. intros q h2 Hi2 _ _. by apply fv_ret.
  - eapply fv_bind; [by eapply fv_set_fn|]. intros _ h1 Hi1 _ _. by apply IH.
Qed.
Lemma fv_visit_ready ins h : finv h -> fv (visit_ready ins) any h.
Proof.
  revert h. induction ins as [|i ins IH]; intros h Hi; [by apply fv_ret|]. cbn [visit_ready].
  apply fv_get; [done|]. intros r Hr. apply fv_read; [done|done|]. intros v _. destruct (t_fn r) as [g|] eqn:E; [|by apply IH].
  case_match; [|by apply IH]. eapply fv_bind; [by eapply fv_set_fn|]. intros _ h1 Hi1 _ _.
  eapply fv_bind; [by apply IH|]. intros q h2 Hi2 _ _. by apply fv_ret.
Qed.
Lemma fv_bfs fuel body q h : (forall t h, finv h -> fv (body t) any h) -> finv h -> fv (bfs fuel body q) any h.
Proof.
  intros Hb. revert q h. induction fuel as [|n IH]; intros q h Hi; destruct q as [|t q]; cbn [bfs];
    try (by apply fv_ret); try exact Hi.
  eapply fv_bind; [by apply Hb|]. intros. by apply IH.
Qed.
Lemma fv_get_fn {B} t (k : gradfn -> E B) P h : finv h -> (forall g, fv (k g) P h) -> fv (bind (get_fn t) k) P h.
Proof. intros Hi Hk. apply fv_read; [unfold get_fn; reads_tac|done|]. intros. apply Hk. Qed.
Lemma fv_process t h : finv h -> fv (process t) any h.
Proof.
  intros Hi. unfold process. apply fv_get_fn; [done|]. intros g. eapply fv_bind; [by apply fv_step_back|].
  intros _ h1 Hi1 _ _. apply fv_get; [done|]. intros r Hr. eapply (fv_bind _ _ any).
  { case_match; [by apply fv_ret|]. by eapply fv_keep. }
  intros _ h2 Hi2 _ _. apply fv_get_fn; [done|]. intros g2. by apply fv_visit_ready.
Qed.
Lemma fv_bump h : finv h -> fv bump any h.
Proof. intros Hi. split; [|split; [done|done]]. eapply finv_news; [exact Hi|]. by apply adds_eq. Qed.
Lemma fv_backward t h : finv h -> fv (backward t) any h.
Proof.
  intros Hi. unfold backward. apply fv_get; [done|]. intros r Hr%lookup_lt_Some.
  do 3 (apply fv_read; [reads_tac|done|]; intros _ _). apply fv_read; [done|done|]. intros n _.
  eapply (fv_bind _ _ any).
  { unfold refresh_n_outway. apply fv_read; [done|done|]. intros m _.
    eapply fv_bind; [by apply fv_bump|]. intros v h1 Hi1 _ _.
    eapply fv_bind; [by apply fv_upd_fn|]. intros _ h2 Hi2 _ _.
    eapply fv_bind; [apply fv_bfs; [|done]|].
    { intros x h3 Hi3. apply fv_get_fn; [done|]. intros g. by apply fv_visit_reset. }
    intros _ h3 Hi3 _ _. eapply fv_bind; [by apply fv_bump|]. intros v' h4 Hi4 _ _.
    eapply fv_bind; [by apply fv_upd_fn|]. intros _ h5 Hi5 _ _. apply fv_bfs; [|done].
    intros x h6 Hi6. apply fv_get_fn; [done|]. intros g. by apply fv_visit_count. }
  intros _ h1 Hi1 Hl1 _. eapply fv_bind; [apply fv_nv; [done|apply wv_ones_like]|]. intros o h2 Hi2 _ [N Hm]. apply fv_get; [done|]. intros r2 Hr2.
  pose proof Hm as [M1 _]. eapply fv_bind; [by eapply fv_keep|].
  intros _ h3 Hi3 _ _. eapply fv_bind; [by apply fv_bump|]. intros v h4 Hi4 _ _.
  eapply fv_bind; [by apply fv_upd_fn|]. intros _ h5 Hi5 _ _. apply fv_bfs; [|done]. intros. by apply fv_process.
Qed.

Lemma fv_un (a : option nat) (f : nat -> E nat) h : finv h -> (forall t, fv (f t) any h) -> fv (un a f) any h.
Proof. intros Hi Hf. unfold un. apply fv_read; [reads_tac|done|]. intros x _. eapply fv_bind; [apply Hf|]. intros. by apply fv_ret. Qed.
Lemma fv_bin (a b : option nat) (f : nat -> nat -> E nat) h : finv h -> (forall t u, fv (f t u) any h) -> fv (bin a b f) any h.
Proof. intros Hi Hf. unfold bin. do 2 (apply fv_read; [reads_tac|done|]; intros ? _). eapply fv_bind; [apply Hf|]. intros. by apply fv_ret. Qed.
Lemma fv_new_handle m h : fv m any h -> fv (new_handle m) any h.
Proof. intros Hm. eapply fv_bind; [exact Hm|]. intros. by apply fv_ret. Qed.
Lemma fv_query a f h : finv h -> fv (query a f) any h.
Proof. intros Hi. unfold query. apply fv_read; [reads_tac|done|]. intros x _. apply fv_get; [done|]. intros. by apply fv_ret. Qed.
Lemma fv_no_result m h : fv m any h -> fv (no_result m) any h.
Proof. intros Hm. eapply fv_bind; [exact Hm|]. intros. by apply fv_ret. Qed.
Lemma fv_exec o h : finv h -> no_setter o -> fv (exec o) any h.
Proof.
  intros Hi Ho. destruct o; cbn [exec]; try done;
    try (apply fv_un; [done|]; intros t);
    try (apply fv_bin; [done|]; intros t u);
    try (by apply fv_query).
  - apply fv_new_handle. eapply fv_new; [done|apply wv_create_scalar].
  - apply fv_new_handle. eapply fv_new; [done|apply wv_create].
  - apply fv_read; [reads_tac|done|]. intros s _. eapply fv_bind; [eapply fv_new; [done|apply wv_create_impl]|]. intros. by apply fv_ret.
  - apply fv_new_handle. eapply fv_new; [done|apply wv_zeros].
  - apply fv_new_handle. eapply fv_new; [done|apply wv_ones].
  - eapply fv_new; [done|apply wv_zeros_like].
  - eapply fv_new; [done|apply wv_ones_like].
  - apply fv_new_handle. eapply fv_new; [done|apply wv_full_int].
  - apply fv_new_handle. eapply fv_new; [done|apply wv_full_double].
  - apply fv_new_handle. eapply fv_new; [done|apply wv_eye].
  - apply fv_new_handle. eapply fv_new; [done|apply wv_from_blob].
  - apply fv_new_handle. eapply fv_new; [done|apply wv_randn].
  - apply fv_get; [done|]. intros. eapply fv_new; [done|apply wv_randn].
  - apply fv_binop; [done|intros; apply st_tensor_add].
  - apply fv_binop; [done|intros; apply st_tensor_sub].
  - apply fv_binop; [done|intros; apply st_tensor_mul].
  - apply fv_binop; [done|intros; apply st_tensor_div].
  - by apply fv_ret.
  - by apply fv_neg.
  - eapply fv_new; [done|apply wv_cmp].
  - do 2 (apply fv_read; [reads_tac|done|]; intros ? _). apply fv_no_result, fv_st; [done|apply st_addeq].
  - by apply fv_to_dtype.
  - by apply fv_slice.
  - by apply fv_transpose.
  - unfold op_reshape. apply fv_get; [done|]. intros r _. apply fv_read; [reads_tac|done|]. intros ss' _. by apply fv_reshape_sv.
  - unfold op_reshape_as. apply fv_get; [done|]. intros r _. by apply fv_reshape_sv.
  - apply fv_read; [apply reads_deref_all|done|]. intros xs _. apply fv_new_handle. by apply fv_cat.
  - apply (fv_reduce tensor_sum SumBack); [done|]. intros. apply st_tensor_sum.
  - apply (fv_reduce tensor_mean MeanBack); [done|]. intros. apply st_tensor_mean.
  - by apply fv_abs.
  - by apply fv_extremum.
  - by apply fv_extremum.
  - by apply fv_clone.
  - by apply fv_clone.
  - eapply fv_new; [done|apply wv_detach].
  - apply fv_read; [reads_tac|done|]. intros x _. apply fv_no_result. by apply fv_backward.
  - apply fv_read; [reads_tac|done|]. intros x _. apply fv_no_result, fv_st; [done|apply st_zero_grad].
  - apply fv_read; [reads_tac|done|]. intros x _. apply fv_get; [done|]. intros r Hr. apply fv_no_result.
    apply fv_st; [done|apply st_sto_release].
  - apply fv_read; [reads_tac|done|]. intros x _. eapply (fv_bind _ _ any); [|intros; by apply fv_ret].
    apply fv_st; [done|]. apply st_op_all.
  - case_match; [|by apply fv_ret]. eapply (fv_bind _ _ any); [|intros; by apply fv_ret].
    apply fv_st; [done|]. apply st_reads. unfold impl_to_string. apply reads_bind; [apply reads_get_ten|].
    intros. apply reads_to_string.
  - apply fv_read; [reads_tac|done|]. intros x _. eapply (fv_bind _ _ any); [|intros; by apply fv_ret].
    unfold op_stride. apply fv_get; [done|]. intros. done.
Qed.
Lemma fv_out {A} (m : E A) P h : fv m P h -> finv (m h).2.
Proof. unfold fv, wp. destruct (m h) as [[?|?|?|] ?]; simpl; tauto. Qed.
End flags.

(** [h'] keeps the flags of the tensors of [h] as changed by [fr] and [fg]; new
    tensors have the flag [fr] makes of false *)
Definition flagged (fr fg : nat -> bool -> bool) (h h' : heap) : Prop :=
  (forall x r, h_ten h !! x = Some r ->
     exists r', h_ten h' !! x = Some r' /\ t_ret r' = fr x (t_ret r) /\ t_rg r' = fg x (t_rg r)) /\
  (forall x r', h_ten h !! x = None -> h_ten h' !! x = Some r' -> t_ret r' = fr x false).
Definition same : nat -> bool -> bool := fun _ b => b.
Lemma setter o : no_setter o \/ (exists a b, o = ORetain a b) \/ (exists a b, o = ORequires a b).
Proof. destruct o; try (left; done); right; [right|left]; eauto. Qed.
Lemma flagged_exec o h : no_setter o -> flagged same same h (exec o h).2.
Proof.
  intros Ho.
  set (R := fun x => match h_ten h !! x with Some r => t_ret r | None => false end).
  set (G := fun x => match h_ten h !! x with Some r => t_rg r | None => false end).
  assert (finv (len h) R G h) as Hi.
  { split; [done|]. intros t r Hr. unfold R, G. rewrite Hr. pose proof (lookup_lt_Some _ _ _ Hr). by destruct (Nat.ltb_spec t (len h)); [|lia]. }
  pose proof (fv_exec _ _ _ o h Hi Ho) as Hv. apply fv_out in Hv as [Hl Hf]. split.
  - intros x r Hr. pose proof (lookup_lt_Some _ _ _ Hr) as Hx.
    destruct (lookup_lt_is_Some_2 (h_ten (exec o h).2) x ltac:(lia)) as [r' Hr']. exists r'. split; [done|].
    destruct (Hf x r' Hr') as [H1 H2]. specialize (H2 Hx). destruct (Nat.ltb_spec x (len h)); [|lia].
    unfold R in H1. unfold G in H2. rewrite Hr in H1, H2. done.
  - intros x r' Hn Hr'. apply lookup_ge_None_1 in Hn. destruct (Hf x r' Hr') as [H1 _].
    destruct (Nat.ltb_spec x (len h)); [lia|done].
Qed.
Lemma flagged_refl h : flagged same same h h.
Proof. split; [intros x r Hr; by exists r|]. intros x r' Hn Hr. congruence. Qed.
Lemma flagged_step fr fg fr' fg' h h1 h2 : flagged fr fg h h1 -> flagged fr' fg' h1 h2 ->
  (forall x, h_ten h1 !! x = None -> fr x false = false) ->
  flagged (fun x b => fr' x (fr x b)) (fun x b => fg' x (fg x b)) h h2.
Proof.
  intros [A1 A2] [B1 B2] Hnew. split.
  - intros x r Hr. destruct (A1 x r Hr) as (r1 & Hr1 & E1 & E2). destruct (B1 x r1 Hr1) as (r2 & Hr2 & E3 & E4).
    exists r2. by rewrite E3, E4, E1, E2.
  - intros x r2 Hn Hr2. destruct (h_ten h1 !! x) as [r1|] eqn:E.
    + destruct (B1 x r1 E) as (r & Hr & E3 & _). assert (r = r2) as -> by congruence. by rewrite E3, (A2 x r1 Hn E).
    + rewrite (B2 x r2 E Hr2). by rewrite Hnew.
Qed.
Lemma flagged_retain a b h : match exec (ORetain a b) h with
  | (Ok _, h') => exists x r, a = Some x /\ h_ten h !! x = Some r /\ h_ten h' = <[x := with_ret r b]> (h_ten h)
  | (_, h') => h' = h end.
Proof.
  cbn [exec]. destruct a as [x|]; [|done]. unfold deref. rewrite bind_ret. unfold bind, get_ten. destruct (h_ten h !! x) as [r|] eqn:E; [|done].
  simpl. exists x, r. done.
Qed.
Lemma flagged_requires a b h : match exec (ORequires a b) h with
  | (Ok _, h') => exists x r, a = Some x /\ h_ten h !! x = Some r /\ h_ten h' = <[x := with_rg r b]> (h_ten h)
  | (_, h') => h' = h end.
Proof.
  cbn [exec]. destruct a as [x|]; [|done]. unfold deref. rewrite bind_ret. unfold no_result, set_requires_grad, bind, get_ten.
  destruct (h_ten h !! x) as [r|] eqn:E; [|done]. destruct b; [unfold run_expect; destruct (is_float (t_dt r))|]; simpl; try done; exists x, r; done.
Qed.
(** one call *)
Definition fr1 (o : op) (x : nat) (b : bool) : bool := last_retain x [o] b.
Definition fg1 (o : op) (r : outcome ret) (x : nat) (b : bool) : bool := last_requires x [o] [r] b.
Lemma last_retain_cons x o ops b : last_retain x (o :: ops) b = last_retain x ops (fr1 o x b).
Proof. by destruct o; try (destruct a); try (destruct b0). Qed.
Lemma last_requires_cons x o r ops rs b : last_requires x (o :: ops) (r :: rs) b = last_requires x ops rs (fg1 o r x b).
Proof. unfold fg1. destruct o; try done; destruct a, r; simpl; try done; by destruct (n =? x)%nat. Qed.
Lemma flagged_one o h r h' : exec o h = (r, h') -> match r with UB _ | Diverge => False | _ => True end ->
  flagged (fr1 o) (fg1 o r) h h' /\ (forall x, h_ten h' !! x = None -> fr1 o x false = false).
Proof.
  intros E Hr. destruct (setter o) as [Ho|[(a & b & ->)|(a & b & ->)]].
  - pose proof (flagged_exec o h Ho) as H. rewrite E in H. simpl in H.
    assert (fr1 o = same) as -> by (by destruct o). assert (fg1 o r = same) as ->. { unfold fg1. destruct o, r; try done. }
    done.
  - pose proof (flagged_retain a b h) as H. rewrite E in H. destruct r as [v|e|u|]; try done.
    + destruct H as (y & ry & -> & Hy & Eh). unfold fr1, fg1. simpl. pose proof (lookup_lt_Some _ _ _ Hy) as Hlt. split; [split|].
      * intros x rx Hx. rewrite Eh. destruct (Nat.eqb_spec y x) as [->|Hne].
        -- exists (with_ret ry b). rewrite list_lookup_insert by done. assert (rx = ry) as -> by congruence. done.
        -- exists rx. by rewrite list_lookup_insert_ne.
      * intros x r' Hn Hx. rewrite Eh in Hx. apply lookup_lt_Some in Hx. rewrite insert_length in Hx. apply lookup_ge_None_1 in Hn. lia.
      * intros x Hn. apply lookup_ge_None_1 in Hn. rewrite Eh, insert_length in Hn. destruct (Nat.eqb_spec y x); [lia|done].
    + exfalso. cbn [exec] in E. destruct a as [y|]; [|done]. unfold deref in E. rewrite bind_ret in E. unfold bind, get_ten in E.
      by destruct (h_ten h !! y).
  - pose proof (flagged_requires a b h) as H. rewrite E in H. destruct r as [v|e|u|]; try done.
    + destruct H as (y & ry & -> & Hy & Eh). unfold fr1, fg1. simpl. pose proof (lookup_lt_Some _ _ _ Hy) as Hlt. split; [split|].
      * intros x rx Hx. rewrite Eh. destruct (Nat.eqb_spec y x) as [->|Hne].
        -- exists (with_rg ry b). rewrite list_lookup_insert by done. assert (rx = ry) as -> by congruence. done.
        -- exists rx. by rewrite list_lookup_insert_ne.
      * intros x r' Hn Hx. rewrite Eh in Hx. apply lookup_lt_Some in Hx. rewrite insert_length in Hx. apply lookup_ge_None_1 in Hn. lia.
      * done.
    + subst h'. split; [|done]. unfold fr1, fg1. simpl.
      replace (flagged _ _ h h) with (flagged same same h h); [apply flagged_refl|]. by destruct a.
Qed.
Lemma flagged_run ops : forall h rs h', run h ops = (Ok rs, h') ->
  flagged (fun x b => last_retain x ops b) (fun x b => last_requires x ops rs b) h h'.
Proof.
  induction ops as [|o ops IH]; intros h rs h' E; cbn [run] in E.
  - assert (rs = [] /\ h' = h) as [-> ->] by (by inversion E). apply flagged_refl.
  - destruct (exec o h) as [r h1] eqn:E1. 
    assert (match r with UB _ | Diverge => False | _ => True end /\ exists rs', rs = r :: rs' /\ run h1 ops = (Ok rs', h')) as (Hr & rs' & -> & E2).
    { destruct r; try done; (split; [done|]); destruct (run h1 ops) as [[l|?|?|] h2]; try done; exists l; by inversion E. }
    destruct (flagged_one o h r h1 E1 Hr) as [F1 F2]. pose proof (IH _ _ _ E2) as F3.
    pose proof (flagged_step _ _ _ _ _ _ _ F1 F3 F2) as [A B].
    split.
    + intros x rx Hx. rewrite last_retain_cons, last_requires_cons. by apply A.
    + intros x rx Hn Hx. rewrite last_retain_cons. by apply B.
Qed.
Lemma flags_kept h ops rs h' x r : run h ops = (Ok rs, h') -> h_ten h !! x = Some r ->
  exists r', h_ten h' !! x = Some r' /\ t_ret r' = last_retain x ops (t_ret r) /\ t_rg r' = last_requires x ops rs (t_rg r).
Proof. intros E Hr. destruct (flagged_run _ _ _ _ E) as [H _]. by apply H. Qed.
Lemma flags_new h ops rs h' x r' : run h ops = (Ok rs, h') -> h_ten h !! x = None -> h_ten h' !! x = Some r' -> t_ret r' = last_retain x ops false.
Proof. intros E Hn Hr. destruct (flagged_run _ _ _ _ E) as [_ H]. by apply H. Qed.
End with_fops.
