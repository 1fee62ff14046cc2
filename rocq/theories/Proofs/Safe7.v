(** Memory safety of backward: one node. *)
From Verif.Proofs Require Export Order4 Safe6.
From Verif.Model Require Export Api.

Section with_fops.
Context {fo : FOps}.
Notation any := (fun _ _ => True).

(** [u] has a gradient whose elements can be read *)
Definition ready (h : heap) (u : nat) : Prop :=
  exists r g, h_ten h !! u = Some r /\ t_grad r = Some g /\ full_at h g.
(** gradients that exist stay *)
Definition kg (h h' : heap) : Prop :=
  forall u x, h_ten h !! u = Some x -> exists x', h_ten h' !! u = Some x' /\ t_rg x' = t_rg x /\ (is_Some (t_grad x) -> t_grad x' = t_grad x).
Lemma kg_refl h : kg h h.
Proof. intros u x Hx. by exists x. Qed.
Lemma kg_trans a b c : kg a b -> kg b c -> kg a c.
Proof.
  intros K1 K2 u x Hx. destruct (K1 u x Hx) as (y & Hy & R1 & G1). destruct (K2 u y Hy) as (z & Hz & R2 & G2).
  exists z. split; [done|]. split; [congruence|]. intros Hs. specialize (G1 Hs). rewrite <- G1. apply G2. by rewrite G1.
Qed.
Lemma kg_ten h h' : h_ten h' = h_ten h -> kg h h'.
Proof. intros E u x Hx. exists x. by rewrite E. Qed.
Lemma kg_app h h' r : h_ten h' = h_ten h ++ [r] -> kg h h'.
Proof. intros E u x Hx. exists x. rewrite E. split; [by apply lookup_app_l_Some|done]. Qed.
Lemma kg_sb l m h h' : sb l m h h' -> kg h h'.
Proof.
  intros (_ & K & _) u x Hx. destruct (K u x Hx) as (x' & Hx' & _ & R & _ & _ & G & _). exists x'. split; [done|]. split; [done|].
  intros [g Hg]. destruct G as [?|(? & _)]; [done|congruence].
Qed.
Lemma ready_keep h h' u : grow h h' -> kg h h' -> ready h u -> ready h' u.
Proof.
  intros G K (r & g & Hr & Hg & Hf). destruct (K _ _ Hr) as (r' & Hr' & _ & Eg). exists r', g. split; [done|].
  split; [|by eapply full_at_grow]. rewrite Eg; [done|]. by rewrite Hg.
Qed.
Lemma sf_kg {A} (m : E A) l g (P : A -> heap -> Prop) h : nb m l g any h -> sf m P h -> sf m (fun a h' => P a h' /\ kg h h') h.
Proof.
  intros Hn H. apply sf_and; [done|]. intros a h' E. unfold nb, nd, wp in Hn. rewrite E in Hn. destruct Hn as (_ & Hsb & _). by eapply kg_sb.
Qed.
Lemma SI_sized h : SI h -> sized h.
Proof. intros S t r Hr. apply (SI_geom _ _ _ S Hr). Qed.
(** room for the gradient of [u], if it is tracked *)
Definition room (h : heap) (u : nat) : Prop :=
  exists r, h_ten h !! u = Some r /\ (t_rg r = true -> roomy r).
Lemma room_keep h h' u : grow h h' -> kg h h' -> room h u -> room h' u.
Proof.
  intros G K (r & Hr & Hroom). destruct (K _ _ Hr) as (r' & Hr' & Er & Eg). exists r'. split; [done|]. rewrite Er. intros Hrg.
  destruct (gw_ten _ _ G _ _ Hr) as (r2 & Hr2 & (_ & D & _) & _). assert (r2 = r') as -> by congruence.
  destruct (Hroom Hrg) as [Hn|Hl].
  - left. rewrite Eg; [done|]. destruct (t_grad r); [done|done].
  - right. unfold shape. by rewrite <- D.
Qed.

(** ** counters *)
Lemma told_fn h t r f f' : h_ten h !! t = Some r -> t_fn r = Some f -> gf_kind f' = gf_kind f -> gf_in f' = gf_in f ->
  told h (with_fn r (Some f')) /\ tstep r (with_fn r (Some f')).
Proof.
  intros Hr Hf E1 E2. assert (tstep r (with_fn r (Some f'))) as Hs.
  { split; [done|]. split; [done|]. intros f0 Hf0. exists f'. assert (f0 = f) as -> by congruence. done. }
  split; [|done]. exists t, r. split; [done|]. split; [done|]. split; [done|]. split; [done|]. cbn. intros f0 [= <-]. by exists f.
Qed.
Lemma sf_set_fn h t r f f' (Q : unit -> heap -> Prop) : SI h -> h_ten h !! t = Some r -> t_fn r = Some f -> gf_kind f' = gf_kind f -> gf_in f' = gf_in f ->
  Q tt (Hp (h_sto h) (<[t := with_fn r (Some f')]> (h_ten h)) (h_ver h)) -> sf (set_ten t (with_fn r (Some f'))) Q h.
Proof.
  intros S Hr Hf E1 E2 HQ. destruct (told_fn h t r f f' Hr Hf E1 E2) as [H1 H2]. eapply sf_set; [done|done|done| |done].
  eapply told_si; [done|apply grow_refl|done].
Qed.
Lemma sf_upd_fn h t r f (F : gradfn -> gradfn) (Q : unit -> heap -> Prop) : SI h -> h_ten h !! t = Some r -> t_fn r = Some f -> gf_kind (F f) = gf_kind f -> gf_in (F f) = gf_in f ->
  Q tt (Hp (h_sto h) (<[t := with_fn r (Some (F f))]> (h_ten h)) (h_ver h)) -> sf (upd_fn t F) Q h.
Proof. intros S Hr Hf E1 E2 HQ. unfold upd_fn. eapply sf_get_bind; [done|]. rewrite Hf. by eapply sf_set_fn. Qed.

(** ** the gradient of an input *)
Lemma create_true h dt lay : create dt lay true h =
  if u64 (size_of dt * lnumel lay) <=? alloc_max then
    (Ok (length (h_ten h)), add_both h (Sto dt (u64 (size_of dt * lnumel lay)) (Some (fresh_cells dt (u64 (size_of dt * lnumel lay))))) (fresh_rec dt lay (length (h_sto h))))
  else (Throw BadAlloc, h).
Proof. unfold create, new_blob, bind, lift. by destruct (_ <=? _). Qed.
Lemma zero_after_set h p q dt lay :
  h_ten h !! p = Some q ->
  (let! g := create dt lay true in let! p' := get_ten p in set_ten p (with_grad p' (Some g)) ;;; let! gr := get_ten g in sto_zero (t_sto gr)) h =
  (let! g := create dt lay true in let! d := get_ten g in sto_zero (t_sto d) ;;; (let! p' := get_ten p in set_ten p (with_grad p' (Some g)))) h.
Proof.
  intros Hp. pose proof (create_true h dt lay) as E. destruct (_ <=? _); [|unfold bind; by rewrite E].
  assert (p < length (h_ten h))%nat as Hlt by (by eapply lookup_lt_Some).
  set (x := Sto _ _ _) in E. set (d := fresh_rec _ _ _) in E. set (h1 := add_both h x d) in E.
  assert (h_ten h1 !! p = Some q) as E1 by (by apply lookup_app_l_Some).
  assert (h_ten h1 !! length (h_ten h) = Some d) as E2 by apply lookup_snoc.
  assert (h_sto h1 !! t_sto d = Some x) as E3 by apply lookup_snoc.
  rewrite !(bind_ok _ _ _ _ _ E).
  erewrite bind_ok by (by apply get_ten_ok). erewrite bind_ok by apply set_ten_eq.
  erewrite bind_ok by (apply get_ten_ok; cbn [h_ten]; rewrite list_lookup_insert_ne by lia; exact E2).
  erewrite (bind_ok (get_ten (length (h_ten h)))) by (by apply get_ten_ok).
  erewrite (bind_ok (sto_zero _)) by (by eapply sto_zero_eq).
  erewrite (bind_ok (get_ten p)) by (apply get_ten_ok; exact E1). rewrite set_ten_eq.
  by erewrite sto_zero_eq.
Qed.
Lemma alloc_zero_eq h s x : h_sto h !! s = Some x -> (sto_alloc s ;;; sto_zero s) h =
  if sto_bytes x <=? alloc_max then
    (Ok tt, Hp (<[s := Sto (sto_ty x) (sto_bytes x) (Some (map (fun _ => Some (zero_val (sto_ty x))) (fresh_cells (sto_ty x) (sto_bytes x))))]> (h_sto h)) (h_ten h) (h_ver h))
  else (Throw BadAlloc, h).
Proof.
  intros Hx. assert (s < length (h_sto h))%nat as Hlt by (by eapply lookup_lt_Some).
  unfold sto_alloc, sto_zero, bind, get_sto, set_sto, new_blob, lift. rewrite Hx. destruct (_ <=? _); [|done]. cbn [h_sto h_ten h_ver].
  rewrite list_lookup_insert by done. cbn [sto_blob sto_ty sto_bytes h_sto h_ten h_ver]. by rewrite list_insert_insert.
Qed.
Lemma sf_alloc_zero h s x : SI h -> h_sto h !! s = Some x -> sto_blob x = None -> sf (sto_alloc s ;;; sto_zero s) (fun _ h' => fullsto h' s) h.
Proof.
  intros S Hx Hb. unfold sf. rewrite (alloc_zero_eq h s x Hx). destruct (Z.leb_spec (sto_bytes x) alloc_max) as [Ha|Ha]; [|split; [apply grow_refl|done]].
  set (x' := Sto _ _ _). set (h' := Hp _ _ _). assert (s < length (h_sto h))%nat as Hlt by (by eapply lookup_lt_Some).
  pose proof (size_of_pos (sto_ty x)) as Hz.
  assert (h_sto h' !! s = Some x') as Hx' by (by apply list_lookup_insert).
  assert (sok x) as [Hk _] by (eapply Forall_lookup_1; [apply S|done]).
  assert (fullsto h' s) as Hf.
  { exists x'. split; [done|]. intros k Hkc. unfold cap in Hkc. cbn [x' sto_bytes sto_ty] in Hkc. eexists x', _, (zero_val (sto_ty x)). split; [done|]. split; [done|].
    rewrite list_lookup_fmap. unfold fresh_cells. rewrite lookup_replicate_2; [done|]. lia. }
  assert (forall s', s' <> s -> h_sto h' !! s' = h_sto h !! s') as Hne by (intros; by apply list_lookup_insert_ne).
  assert (grow h h') as G.
  { split; [by apply tens_eq| |..].
    - eapply rs_upd; [done|split; [done|split; [done|]]; intros cs' E; injection E as <-; right; unfold fresh_cells; by rewrite map_length, replicate_length|]. intros _. split; [done|]. cbn. unfold fresh_cells. rewrite map_length, replicate_length. lia.
    - intros s' k (y & cs & v & H1 & H2 & H3). destruct (decide (s' = s)) as [->|Hn]; [congruence|]. exists y, cs, v. by rewrite Hne.
    - intros s' (y & cs & H1 & H2). destruct (decide (s' = s)) as [->|Hn]; [congruence|]. exists y, cs. by rewrite Hne.
    - intros s' y Hy (y' & cs & H1 & H2). destruct (decide (s' = s)) as [->|Hn]; [by right|]. left. rewrite Hne in H1 by done. by exists y', cs. }
  split; [done|]. split; [|done]. by eapply SI_cells.
Qed.
Lemma gok_of h r gr g x : h_ten h !! g = Some gr -> t_dt gr = t_dt r -> shape gr = shape r -> h_sto h !! t_sto gr = Some x -> lay_sane (t_lay r) (cap x) ->
  (allocd h (t_sto gr) -> fullsto h (t_sto gr)) -> gok h r g.
Proof. intros. split. by exists gr, x. Qed.
Lemma sf_set_grad h t r g (Q : unit -> heap -> Prop) : SI h -> h_ten h !! t = Some r -> gok h r g ->
  Q tt (Hp (h_sto h) (<[t := with_grad r (Some g)]> (h_ten h)) (h_ver h)) -> sf (set_ten t (with_grad r (Some g))) Q h.
Proof.
  intros S Hr Hg HQ. eapply sf_set; [done|done| | |done].
  - split; [done|]. split; [done|]. intros f Ef. by exists f.
  - destruct (si_ten _ S _ _ Hr) as [T1 T2 T3 T4]. split; [done|done| |].
    + cbn. intros g' [= <-]. destruct Hg as [(gr & x & H)]. split. by exists gr, x.
    + cbn. intros f Ef. destruct (T4 f Ef) as [N1 N2 N3 N4 N5 N6]. by split.
Qed.
(** the gradient record of a new gradient *)
Lemma made_gok h0 h t r g : SI h -> h_ten h !! t = Some r -> made h0 (t_dt r) (t_lay r) g h -> gok h r g /\ full_at h g.
Proof.
  intros S Hr Hm. destruct (made_get _ _ _ _ _ Hm) as (gr & Hg & Hf & E1 & E2 & _).
  split; [|by eapply made_full]. destruct (geom_count h gr S (SI_geom _ _ _ S Hg)) as (x & Hx & HT & Hb & Hc & _ & Hl).
  eapply gok_of; [done|done| |done| |done].
  - unfold shape. by rewrite E2.
  - by rewrite <- E2.
Qed.
Lemma sf_update h p : SI h -> room h p ->
  sf (try_accumulate_update p) (fun _ h' => (forall r, h_ten h !! p = Some r -> t_rg r = true -> ready h' p) /\ kg h h') h.
Proof.
  intros S (r & Hr & Hroom). apply (sf_kg _ [p] [p]); [by apply nb_update, SI_sized|].
  eapply (sf_mono _ (fun _ h' => t_rg r = true -> ready h' p)); [|intros ? h' _ _ H r' Hr'; assert (r' = r) as -> by congruence; done].
  unfold try_accumulate_update. eapply sf_get_bind; [done|]. destruct (t_rg r) eqn:Erg; cbn [negb]; [|by apply sf_ret].
  specialize (Hroom eq_refl).
  eapply (sf_bind _ _ (fun _ h1 => exists r1, h_ten h1 !! p = Some r1 /\ same_data r r1 /\ t_grad r1 = t_grad r)).
  { destruct (t_fn r) as [f|] eqn:Ef.
    - eapply sf_upd_fn; [done|done|done|done|done|]. eexists. cbn [h_ten]. rewrite list_lookup_insert by (by eapply lookup_lt_Some). done.
    - apply sf_ret; [done|]. by exists r. }
  intros ? h1 G1 S1 (r1 & Hr1 & D & Eg). pose proof D as (D1 & D2 & D3). pose proof (SI_geom _ _ _ S1 Hr1) as Hg1. destruct (t_grad r) as [g|] eqn:Egr.
  - destruct (ts_grad _ _ (si_ten _ S1 _ _ Hr1) _ Eg) as [(gr & x & Hgr & E1 & E2 & Hx & Hl & Hal)].
    eapply sf_get_bind; [done|]. unfold sto_is_alloc. unfold sf, bind at 1, get_sto at 1. unfold bind at 1. rewrite Hx. unfold mret at 1.
    destruct (sto_blob x) as [cs|] eqn:Eb.
    + split; [apply grow_refl|]. split; [done|]. intros _. exists r1, g. split; [done|]. split; [done|]. exists gr. split; [done|]. apply Hal. by exists x, cs.
    + fold (sf (sto_alloc (t_sto gr) ;;; sto_zero (t_sto gr)) (fun _ h' => true = true -> ready h' p) h1).
      eapply sf_mono; [apply sf_st; [apply st_bind; [apply st_sto_alloc|intros; apply st_sto_zero]|by apply (sf_alloc_zero h1 (t_sto gr) x)]|].
      intros ? h2 G2 S2 [Hf Ht] _. exists r1, g. rewrite Ht. split; [done|]. split; [done|]. exists gr. by rewrite Ht.
  - destruct Hroom as [Hroom|Hroom]; [congruence|]. eapply sf_eq; [symmetry; by apply (zero_after_set h1 p r1)|].
    rewrite D1, D2. assert (lay_in (t_lay r1) (size_prod (shape r1))) as Hin by (unfold shape in *; by rewrite <- D2).
    apply (sf_new h1 (t_dt r1) (t_lay r1) (fun d => sto_zero (t_sto d))); [done|by apply (geom_bytes_fit h1 r1 S1)|apply Hg1| |intros; apply st_sto_zero|..].
    + intros _. by apply (lay_sane_room h1).
    + intros h2 d G2 S2 Hn Ha. by apply sf_zero_new.
    + intros g h2 G2 S2 Hm. pose proof (made_old _ _ _ _ _ _ _ Hm Hr1) as Hr2. eapply sf_get_bind; [done|].
      destruct (made_gok h1 h2 p r1 g S2 Hr2 Hm) as [Hgk Hf].
      eapply (sf_mono _ (fun _ h3 => h3 = Hp (h_sto h2) (<[p := with_grad r1 (Some g)]> (h_ten h2)) (h_ver h2))); [by eapply sf_set_grad|].
      intros ? h3 G3 S3 -> _. exists (with_grad r1 (Some g)), g. cbn [h_ten]. rewrite list_lookup_insert by (by eapply lookup_lt_Some).
      split; [done|]. split; [done|]. by eapply full_at_grow.
Qed.
Lemma sf_deref_bind {A B} (o : option A) a (k : A -> E B) (Q : B -> heap -> Prop) h : o = Some a -> sf (k a) Q h -> sf (bind (deref o) k) Q h.
Proof. intros -> H. exact H. Qed.
(** the gradient record of a tensor that has one *)
Lemma grad_rec h u r g : SI h -> h_ten h !! u = Some r -> t_grad r = Some g -> exists gr, h_ten h !! g = Some gr /\ t_dt gr = t_dt r /\ shape gr = shape r.
Proof.
  intros S Hr Hg. destruct (ts_grad _ _ (si_ten _ S _ _ Hr) _ Hg) as [(gr & x & H1 & H2 & H3 & _)]. by exists gr.
Qed.
Lemma sf_dispatch_ffi_bind {B} a b (k : unit -> E B) (Q : B -> heap -> Prop) h : is_float a = true -> is_float b = true -> sf (k tt) Q h -> sf (bind (dispatch_ffi a b) k) Q h.
Proof. intros Ha Hb H. unfold dispatch_ffi. by rewrite Ha, Hb. Qed.
Lemma sf_mul_add h d l r rrd rl : SI h -> full_at h d -> full_at h l -> full_at h r -> h_ten h !! d = Some rrd -> h_ten h !! l = Some rl ->
  is_float (t_dt rrd) = true -> is_float (t_dt rl) = true -> sf (tensor_mul_add_f d l r) (fun _ _ => True) h.
Proof.
  intros S Fd Fl Fr Hd Hl F1 F2. destruct (full_at_get _ _ Fr) as [rr Hr]. unfold tensor_mul_add_f.
  do 3 (eapply sf_get_bind; [done|]). apply sf_dispatch_ffi_bind; [done|done|]. apply sf_mul_acc; [done|by apply (full_rd h d)|by apply (full_rd h l)|by apply (full_rd h r)].
Qed.
Definition is_float_at (h : heap) (t : nat) : Prop := forall r, h_ten h !! t = Some r -> is_float (t_dt r) = true.
Definition ready_if (h : heap) (p : nat) : Prop := forall r, h_ten h !! p = Some r -> t_rg r = true -> ready h p.
Lemma ready_if_keep h h' u : grow h h' -> kg h h' -> is_Some (h_ten h !! u) -> ready_if h u -> ready_if h' u.
Proof.
  intros G K [r Hr] H r' Hr' Hrg. eapply ready_keep; [done|done|]. apply (H r Hr).
  destruct (K _ _ Hr) as (r2 & Hr2 & E & _). congruence.
Qed.
Lemma sf_acc h p w o : SI h -> room h p -> (forall x, w = Some x -> full_at h x) -> (forall x, o = Some x -> full_at h x) ->
  (forall y, o = Some y -> exists x, w = Some x /\ (is_float_at h x \/ is_float_at h y)) ->
  sf (try_accumulate_grad p w o) (fun _ h' => ready_if h' p /\ kg h h') h.
Proof.
  intros S Hroom Hw Ho Hfl. pose proof Hroom as (r & Hr & _). 
  eapply (sf_mono _ (fun _ h' => (t_rg r = true -> ready h' p) /\ kg h h')).
  2:{ intros ? h' _ _ [H K]. split; [|done]. intros r' Hr' Hrg. apply H. destruct (K _ _ Hr) as (r2 & Hr2 & E & _). congruence. }
  apply (sf_kg _ [p] [p]); [by apply nb_acc, SI_sized|].
  unfold try_accumulate_grad. eapply sf_get_bind; [done|]. destruct (t_rg r) eqn:Erg; cbn [negb]; [|by apply sf_ret].
  eapply sf_bind; [by apply sf_update|]. intros ? h1 G1 S1 [Hrd K1]. specialize (Hrd r Hr Erg). pose proof Hrd as (r1 & g & Hr1 & Eg & Hfg).
  destruct (K1 _ _ Hr) as (r1' & Hr1' & Erg1 & _). assert (r1' = r1) as -> by congruence.
  destruct (grad_rec _ _ _ _ S1 Hr1 Eg) as (gr & Hgr & Egd & _).
  assert (is_float (t_dt gr) = true) as Fg by (rewrite Egd; eapply (si_float h1 p); [done|done|congruence]).
  assert (forall x, is_float_at h x -> full_at h x -> is_float_at h1 x) as Hfk.
  { intros x Hx (rx & Hrx & _) rx' Hrx'. destruct (gw_ten _ _ G1 _ _ Hrx) as (r2 & Hr2 & (D & _) & _). assert (r2 = rx') as -> by congruence.
    rewrite <- D. by apply Hx. }
  destruct o as [o|].
  - destruct (Hfl o eq_refl) as (wx & -> & Hor). eapply sf_deref_bind; [done|].
    pose proof (full_at_grow _ _ _ G1 (Hw _ eq_refl)) as Fw. pose proof (full_at_grow _ _ _ G1 (Ho _ eq_refl)) as Fo.
    destruct (full_at_get _ _ Fw) as [wr Hwr]. destruct (full_at_get _ _ Fo) as [or Hor']. eapply sf_get_bind; [done|]. eapply sf_get_bind; [done|]. eapply sf_deref_bind; [done|].
    assert (forall (m : E unit), st m -> sf m (fun _ _ => True) h1 -> sf m (fun _ h' => true = true -> ready h' p) h1) as Hst.
    { intros m Hm H. eapply sf_mono; [by apply sf_st|]. intros ? h2 G2 S2 [_ Et] _. eapply ready_keep; [done|by apply kg_ten|done]. }
    destruct (is_float (t_dt wr)) eqn:Ew.
    + apply Hst; [|by eapply sf_mul_add]. unfold tensor_mul_add_f. repeat (apply st_bind; [apply st_get_ten|intros]).
      apply st_bind; [apply st_reads, reads_dispatch_ffi|intros; apply st_mul_acc].
    + apply Hst; [|eapply (sf_mul_add h1 g o wx gr or); try done].
      * unfold tensor_mul_add_f. repeat (apply st_bind; [apply st_get_ten|intros]).
        apply st_bind; [apply st_reads, reads_dispatch_ffi|intros; apply st_mul_acc].
      * destruct Hor as [H|H]; [|by apply (Hfk o H (Ho _ eq_refl))]. pose proof (Hfk wx H (Hw _ eq_refl) wr Hwr). congruence.
  - destruct w as [w|]; [|by apply sf_ret]. eapply sf_get_bind; [done|]. eapply sf_deref_bind; [done|].
    pose proof (full_at_grow _ _ _ G1 (Hw _ eq_refl)) as Fw. destruct (full_at_get _ _ Fw) as [wr Hwr].
    eapply sf_mono; [apply (sf_kg _ [] []); [by apply nb_addeq, SI_sized|by eapply sf_addeq]|].
    intros ? h2 G2 S2 [_ K2] _. by eapply ready_keep.
Qed.
End with_fops.
