(** Memory safety of allocation, tracking and views. *)
From Verif.Proofs Require Export Safe2.

Section with_fops.
Context {fo : FOps}.

Lemma ten_si_grow h h' r : grow h h' -> ten_si h r -> ten_si h' r.
Proof.
  intros G [S1 S2 S3 S4]. split; [by eapply geom_grow|done|..].
  - intros g Hg. eapply gok_grow; [done|done|auto].
  - intros f Hf. eapply node_ok_grow; [done|apply tstep_refl|done|done|auto].
Qed.

(** ** new objects *)
Definition fresh_rec (dt : dtype) (lay : layout) (s : nat) : tensor := Ten dt lay s None false false None.
Definition add_ten (h : heap) (r : tensor) : heap := Hp (h_sto h) (h_ten h ++ [r]) (h_ver h).
Definition add_both (h : heap) (x : storage) (r : tensor) : heap := Hp (h_sto h ++ [x]) (h_ten h ++ [r]) (h_ver h).
Lemma app_tens h h' r : h_ten h' = h_ten h ++ [r] -> forall t y, h_ten h !! t = Some y -> exists y', h_ten h' !! t = Some y' /\ tstep y y'.
Proof. intros E t y Hy. exists y. rewrite E. split; [by apply lookup_app_l_Some|apply tstep_refl]. Qed.
Lemma add_ten_grow h r : grow h (add_ten h r).
Proof. split; [by eapply app_tens|apply rs_refl|done|done|]. intros. by left. Qed.
Lemma sto_app_lookup h x s y r : h_sto h !! s = Some y -> h_sto (add_both h x r) !! s = Some y.
Proof. intros H. cbn. by apply lookup_app_l_Some. Qed.
Lemma add_both_grow h x r : sok x -> grow h (add_both h x r).
Proof.
  intros Hx. split; [by eapply app_tens|by apply rs_new|..].
  - intros s k (y & cs & v & H1 & H2 & H3). exists y, cs, v. split; [by apply sto_app_lookup|done].
  - intros s (y & cs & H1 & H2). exists y, cs. split; [by apply sto_app_lookup|done].
  - intros s y Hy (y' & cs & H1 & H2). left. rewrite (sto_app_lookup _ _ _ _ _ Hy) in H1. exists y, cs. split; [done|]. congruence.
Qed.
Lemma fresh_si h r : geom h r -> t_grad r = None -> t_rg r = false -> t_fn r = None -> ten_si h r.
Proof. intros Hg E1 E2 E3. split; [done|congruence..]. Qed.
Lemma add_ten_si h r : SI h -> ten_si (add_ten h r) r -> SI (add_ten h r).
Proof.
  intros S Hr. eapply SI_step; [done|apply add_ten_grow|]. intros t y [Hy|[Hl Hy]]%lookup_app_Some.
  - left. by eapply told_refl.
  - right. apply list_lookup_singleton_Some in Hy as [_ <-]. done.
Qed.
Lemma add_both_si h x r : SI h -> sok x -> ten_si (add_both h x r) r -> SI (add_both h x r).
Proof.
  intros S Hx Hr. eapply SI_step; [done|by apply add_both_grow|]. intros t y [Hy|[Hl Hy]]%lookup_app_Some.
  - left. by eapply told_refl.
  - right. apply list_lookup_singleton_Some in Hy as [_ <-]. done.
Qed.

(** a new tensor *)
Record newt (h : heap) (dt : dtype) (lay : layout) (t : nat) (h' : heap) : Prop := Newt {
  nw_id : t = length (h_ten h);
  nw_ten : h_ten h' = h_ten h ++ [fresh_rec dt lay (length (h_sto h))];
  nw_wr : wr h' (fresh_rec dt lay (length (h_sto h)));
  nw_dense : dense h' (fresh_rec dt lay (length (h_sto h)))
}.
Definition bytes_fit (dt : dtype) (ss : list Z) : Prop := nn ss /\ size_of dt * size_prod ss < two64.
Lemma bytes_numel dt lay : bytes_fit dt (sizes lay) -> lnumel lay = size_prod (sizes lay) /\ u64 (size_of dt * lnumel lay) = size_of dt * size_prod (sizes lay).
Proof.
  intros [Hn Hb]. pose proof (size_of_pos dt). pose proof (size_prod_nonneg _ Hn).
  assert (lnumel lay = size_prod (sizes lay)) as E by (unfold lnumel; apply numel_of_exact; [done|nia]).
  split; [done|]. rewrite E. apply u64_id. nia.
Qed.
Lemma create_geom h dt lay b : bytes_fit dt (sizes lay) -> strides_fit lay -> size_of dt * size_prod (sizes lay) <= alloc_max ->
  lay_sane lay (size_prod (sizes lay)) ->
  let h' := add_both h (Sto dt (u64 (size_of dt * lnumel lay)) b) (fresh_rec dt lay (length (h_sto h))) in
  geom h' (fresh_rec dt lay (length (h_sto h))).
Proof.
  intros Hf Hs Ha Hl h'. destruct (bytes_numel _ _ Hf) as [E1 E2]. split; [|split; [apply Hf|done]].
  exists (Sto dt (u64 (size_of dt * lnumel lay)) b). split; [apply lookup_snoc|]. split; [done|]. rewrite E2. split; [done|].
  unfold cap. cbn [sto_bytes sto_ty t_lay fresh_rec]. pose proof (size_of_pos dt). rewrite Z.mul_comm, Z.div_mul by lia. done.
Qed.
Lemma sf_create h dt lay : SI h -> bytes_fit dt (sizes lay) -> strides_fit lay ->
  (size_of dt * size_prod (sizes lay) <= alloc_max -> lay_sane lay (size_prod (sizes lay))) ->
  sf (create dt lay true) (newt h dt lay) h.
Proof.
  intros S Hf Hs Hl. destruct (bytes_numel _ _ Hf) as [E1 E2]. unfold sf, create, new_blob.
  destruct (Z.leb_spec (u64 (size_of dt * lnumel lay)) alloc_max) as [Ha|Ha]; [|cbn; split; [apply grow_refl|done]]. cbn.
  pose proof (size_of_pos dt) as Hsz. pose proof (size_prod_nonneg _ (proj1 Hf)) as Hp.
  set (x := Sto dt _ _). set (r := Ten dt lay _ _ _ _ _).
  assert (sok x) as Hx.
  { split; cbn [sto_bytes sto_blob sto_ty x]; [rewrite E2; destruct Hf; nia|]. unfold fresh_cells. rewrite replicate_length. lia. }
  assert (geom (add_both h x r) r) as Hg by (apply create_geom; [done|done|lia|apply Hl; lia]).
  assert (cap x = size_prod (sizes lay)) as Hc.
  { unfold cap. cbn [sto_bytes sto_ty x]. rewrite E2, Z.mul_comm, Z.div_mul by lia. done. }
  split; [by apply add_both_grow|]. split; [apply add_both_si; [done|done|by apply fresh_si]|].
  split; [done|done|..].
  - split; [done|]. intros y Hy _. cbn in Hy. rewrite lookup_snoc in Hy. exists x. eexists. split; [apply lookup_snoc|done].
  - exists x. split; [apply lookup_snoc|]. change (shape r) with (sizes lay). split.
    + intros H0. rewrite Hc, size_prod_zero by done. done.
    + intros H0. rewrite Hc. destruct (Hl ltac:(lia)) as [|(L1 & L2 & L3)]; [done|]. done.
Qed.
Lemma contig_fit ss : strides_fit (contig ss).
Proof. unfold strides_fit. cbn. rewrite length_contig_strides. split; [lia|done]. Qed.
Lemma contig_sane dt ss : nn ss -> size_of dt * size_prod ss <= alloc_max -> lay_sane (contig ss) (size_prod ss).
Proof.
  intros Hn Ha. destruct (decide (0 ∈ ss)) as [H0|H0]; [by left|]. right. pose proof (size_of_pos dt). pose proof (size_prod_nonneg _ Hn).
  assert (size_prod ss < two63) by (pose proof alloc_max_lt; nia).
  split; [|split; [by apply contig_lay_in|by apply contig_lay_inj]]. apply contig_lay_ok, bounded_by_prod; [done|done|]. unfold two63, two64 in *; lia.
Qed.
Lemma sf_create_contig h dt ss : SI h -> bytes_fit dt ss -> sf (create dt (contig ss) true) (newt h dt (contig ss)) h.
Proof. intros S Hf. apply sf_create; [done|done|apply contig_fit|]. apply contig_sane, Hf. Qed.

(** a new tensor with all its elements *)
Record made (h : heap) (dt : dtype) (lay : layout) (t : nat) (h' : heap) : Prop := Made {
  md_id : t = length (h_ten h);
  md_ten : exists s, h_ten h' = h_ten h ++ [fresh_rec dt lay s] /\ fullsto h' s
}.
Lemma new_get h dt lay t h' : newt h dt lay t h' -> h_ten h' !! t = Some (fresh_rec dt lay (length (h_sto h))).
Proof. intros [-> -> _ _]. apply lookup_snoc. Qed.
Lemma new_made h dt lay t h1 h2 : newt h dt lay t h1 -> grow h1 h2 -> h_ten h2 = h_ten h1 -> covered (fresh_rec dt lay (length (h_sto h))) h2 -> made h dt lay t h2.
Proof.
  intros [E1 E2 [Hg _] Hd] G Et Hc. split; [done|]. eexists. rewrite Et. split; [exact E2|].
  apply (cover_full h2 (fresh_rec dt lay (length (h_sto h)))); [apply Hg|by eapply dense_grow|done].
Qed.
Lemma made_get h dt lay t h' : made h dt lay t h' -> exists r, h_ten h' !! t = Some r /\ full h' r /\ t_dt r = dt /\ t_lay r = lay /\ t_fn r = None /\ t_grad r = None /\ t_rg r = false.
Proof. intros [-> (s & -> & Hf)]. eexists. split; [apply lookup_snoc|]. done. Qed.
Lemma made_full h dt lay t h' : made h dt lay t h' -> full_at h' t.
Proof. intros H. destruct (made_get _ _ _ _ _ H) as (r & Hr & Hf & _). by exists r. Qed.
Lemma made_old h dt lay t h' u r : made h dt lay t h' -> h_ten h !! u = Some r -> h_ten h' !! u = Some r.
Proof. intros [_ (s & -> & _)] Hu. by apply lookup_app_l_Some. Qed.
Lemma sf_and {A} (m : E A) (P Q : A -> heap -> Prop) h : sf m P h -> (forall a h', m h = (Ok a, h') -> Q a h') -> sf m (fun a h' => P a h' /\ Q a h') h.
Proof. unfold sf. destruct (m h) as [[a|e|u|] h1]; try done. intros (G & S & HP) HQ. auto. Qed.
Lemma sf_st {A} (m : E A) (P : A -> heap -> Prop) h : st m -> sf m P h -> sf m (fun a h' => P a h' /\ h_ten h' = h_ten h) h.
Proof. intros Hs H. apply sf_and; [done|]. intros a h' E. destruct (Hs h) as [H1 _]. by rewrite E in H1. Qed.
Lemma SI_geom h t r : SI h -> h_ten h !! t = Some r -> geom h r.
Proof. intros S Hr. by apply (si_ten _ S _ _ Hr). Qed.
Lemma full_rd h t r : SI h -> full_at h t -> h_ten h !! t = Some r -> rd h r.
Proof. intros S (r' & Hr' & Hf) Hr. assert (r' = r) as -> by congruence. split; [by eapply SI_geom|done]. Qed.
Lemma full_at_get h t : full_at h t -> exists r, h_ten h !! t = Some r.
Proof. intros (r & Hr & _). by exists r. Qed.
Lemma rec_grow h h' t r : grow h h' -> h_ten h !! t = Some r -> exists r', h_ten h' !! t = Some r' /\ tstep r r'.
Proof. intros G. apply G. Qed.

(** ** records *)
Lemma set_grow h t r r' : h_ten h !! t = Some r -> tstep r r' -> grow h (Hp (h_sto h) (<[t := r']> (h_ten h)) (h_ver h)).
Proof.
  intros Hr Hs. split; [|apply rs_refl|done|done|].
  - intros u y Hy. cbn [h_ten]. destruct (decide (u = t)) as [->|Hne].
    + rewrite list_lookup_insert by (by eapply lookup_lt_Some). exists r'. split; [done|]. congruence.
    + rewrite list_lookup_insert_ne by done. exists y. split; [done|apply tstep_refl].
  - intros. by left.
Qed.
Lemma sf_set h t r r' (Q : unit -> heap -> Prop) : SI h -> h_ten h !! t = Some r -> tstep r r' -> ten_si h r' ->
  Q tt (Hp (h_sto h) (<[t := r']> (h_ten h)) (h_ver h)) -> sf (set_ten t r') Q h.
Proof.
  intros S Hr Hs Ht HQ. unfold sf. rewrite set_ten_eq. pose proof (set_grow h t r r' Hr Hs) as G. split; [done|]. split; [|done].
  eapply SI_step; [done|done|]. intros u y Hy. cbn [h_ten] in Hy. destruct (decide (u = t)) as [->|Hne].
  - rewrite list_lookup_insert in Hy by (by eapply lookup_lt_Some). injection Hy as <-. right. by eapply ten_si_grow.
  - rewrite list_lookup_insert_ne in Hy by done. left. by eapply told_refl.
Qed.
Definition tracked_rec (r : tensor) (k : bkind) (ins : list nat) : tensor := with_fn (with_rg r true) (Some (Gfn k ins 0 0 0)).
Lemma sf_track h t r k ins (Q : unit -> heap -> Prop) : SI h -> h_ten h !! t = Some r -> t_fn r = None -> is_float (t_dt r) = true ->
  node_ok h (tracked_rec r k ins) (Gfn k ins 0 0 0) ->
  Q tt (Hp (h_sto h) (<[t := tracked_rec r k ins]> (h_ten h)) (h_ver h)) ->
  sf (track t k ins) Q h.
Proof.
  intros S Hr Hf Hfl Hn HQ. unfold track. eapply sf_get_bind; [done|]. eapply sf_set; [done|done| | |done].
  - split; [done|]. split; [done|]. intros f Ef. congruence.
  - destruct (si_ten _ S _ _ Hr) as [S1 S2 S3 S4]. split; [done|done| |].
    + intros g Hg. eapply gok_grow; [apply grow_refl| |exact (S3 g Hg)]; done.
    + cbn. intros f [= <-]. done.
Qed.

(** ** views *)
Definition roomy (r : tensor) : Prop := t_grad r <> None \/ lay_in (t_lay r) (size_prod (shape r)).
Lemma lay_sane_room h r : geom h r -> lay_in (t_lay r) (size_prod (shape r)) -> lay_sane (t_lay r) (size_prod (shape r)).
Proof. intros ((x & _ & _ & _ & [H|(H1 & H2 & H3)]) & _) Hi; [by left|by right]. Qed.
(** no more elements than the buffer holds *)
Lemma geom_count h r : SI h -> geom h r -> exists x, h_sto h !! t_sto r = Some x /\ sto_ty x = t_dt r /\ 0 <= sto_bytes x <= alloc_max /\ 0 <= cap x < two63 /\ size_prod (shape r) <= cap x /\
  lay_sane (t_lay r) (cap x).
Proof.
  intros S (Hs & Hn & _). pose proof Hs as (x & Hx & HT & Hb & Hl). exists x.
  assert (sok x) as [Hk _] by (eapply Forall_lookup_1; [apply S|done]).
  pose proof (cap_range h r x Hs Hx ltac:(lia)) as Hc. split; [done|]. split; [done|]. split; [lia|]. split; [done|]. split; [|done].
  destruct Hl as [H0|(L1 & L2 & L3)].
  - unfold shape. rewrite size_prod_zero by done. lia.
  - apply inj_count; [done|done|done|lia].
Qed.
Lemma geom_bytes h r : SI h -> geom h r -> size_of (t_dt r) * size_prod (shape r) <= alloc_max.
Proof.
  intros S Hg. destruct (geom_count h r S Hg) as (x & Hx & HT & Hb & Hc & Hp & _). unfold cap in Hp. rewrite HT in Hp.
  pose proof (size_of_pos (t_dt r)) as Hz. pose proof (Z.mul_div_le (sto_bytes x) _ Hz). nia.
Qed.
Lemma alloc_max_64 : alloc_max < two64. Proof. pose proof alloc_max_lt. unfold two63, two64 in *. lia. Qed.
Lemma geom_bytes_fit h r : SI h -> geom h r -> bytes_fit (t_dt r) (shape r).
Proof. intros S Hg. split; [apply Hg|]. pose proof (geom_bytes h r S Hg). pose proof alloc_max_64. lia. Qed.

(** the layout of a view stays inside any buffer the layout of the viewed tensor is inside of *)
Definition lay_below (l' l : layout) : Prop := forall n, 0 <= n < two63 -> lay_sane l n -> lay_sane l' n.

Lemma sf_share h to from rt rf : SI h -> h_ten h !! to = Some rt -> h_ten h !! from = Some rf -> to <> from ->
  t_dt rt = t_dt rf -> lay_below (t_lay rt) (t_lay rf) -> roomy rf -> t_grad rt = None ->
  sf (share_grad_storage to from) (fun _ h' => exists rf', h_ten h' !! from = Some rf' /\ t_grad rf' <> None) h.
Proof.
  intros S Ht Hf Hne Ed Hl Hroom Hgt. unfold share_grad_storage. eapply sf_get_bind; [done|].
  eapply (sf_bind _ _ (fun _ h1 => exists rt' rf' fg, h_ten h1 !! to = Some rt' /\ h_ten h1 !! from = Some rf' /\
    same_data rt rt' /\ same_data rf rf' /\ t_grad rf' = Some fg)).
  - destruct (t_grad rf) as [g|] eqn:Eg; [apply sf_ret; [done|]; exists rt, rf, g; done|].
    destruct Hroom as [Hroom|Hroom]; [done|]. pose proof (SI_geom _ _ _ S Hf) as Hgf.
    pose proof (geom_bytes_fit h rf S Hgf) as Hfit. destruct (bytes_numel (t_dt rf) (t_lay rf) Hfit) as [E1 E2].
    pose proof (geom_bytes h rf S Hgf) as Hmax. pose proof (size_of_pos (t_dt rf)) as Hz. pose proof (size_prod_nonneg _ (proj1 Hfit)) as Hp. unfold shape in *.
    pose proof (lay_sane_room h rf Hgf Hroom) as Hsane.
    eapply (sf_bind _ _ (fun g h1 => h1 = add_both h (Sto (t_dt rf) (u64 (size_of (t_dt rf) * lnumel (t_lay rf))) None)
       (fresh_rec (t_dt rf) (t_lay rf) (length (h_sto h))) /\ g = length (h_ten h))).
    { unfold sf. rewrite create_noalloc. set (x := Sto _ _ _). assert (sok x) as Hx.
      { split; [|done]. cbn [sto_bytes x]. rewrite E2. pose proof alloc_max_64. nia. }
      split; [by apply add_both_grow|]. split; [|done]. apply add_both_si; [done|done|]. apply fresh_si; [|done|done|done].
      apply create_geom; [done|apply Hgf|done|done]. }
    intros g h1 G1 S1 [-> ->]. set (h1 := add_both _ _ _) in *.
    assert (h_ten h1 !! to = Some rt) as Ht1 by (by apply lookup_app_l_Some).
    assert (h_ten h1 !! from = Some rf) as Hf1 by (by apply lookup_app_l_Some).
    eapply sf_set; [done|exact Hf1| | |].
    + split; [done|]. split; [done|]. intros f Ef. exists f. done.
    + destruct (si_ten _ S1 _ _ Hf1) as [T1 T2 T3 T4]. split; [done|done| |].
      * intros g Egg. apply (inj Some) in Egg as <-. split. eexists _, _. split; [apply lookup_snoc|]. split; [done|]. split; [done|].
        split; [apply lookup_snoc|]. split.
        -- unfold cap. cbn [sto_bytes sto_ty]. rewrite E2, Z.mul_comm, Z.div_mul by lia. done.
        -- intros (y & cs & Hy & Hc). cbn in Hy. rewrite lookup_snoc in Hy. injection Hy as <-. done.
      * intros f Ef. destruct (T4 f Ef) as [N1 N2 N3 N4 N5 N6]. by split.
    + eexists rt, _, _. cbn [h_ten]. rewrite list_lookup_insert_ne by done. rewrite list_lookup_insert by (by eapply lookup_lt_Some). done.
  - intros ? h1 G1 S1 (rt1 & rf1 & fg & Ht1 & Hf1 & Dt & Df & Egf). eapply sf_get_bind; [done|]. rewrite Egf.
    destruct (ts_grad _ _ (si_ten _ S1 _ _ Hf1) _ Egf) as [(gr & x & Hg & Edt & Esh & Hx & Hls & Hal)].
    eapply sf_get_bind; [done|]. eapply sf_get_bind; [exact Ht1|].
    destruct (geom_count _ _ S1 (SI_geom _ _ _ S1 Hg)) as (x' & Hx' & HT & Hb & Hc & _). assert (x' = x) as -> by congruence.
    assert (lay_sane (t_lay rt1) (cap x)) as Hl1.
    { destruct Dt as (_ & <- & _). apply Hl; [done|]. destruct Df as (_ & -> & _). done. }
    assert (t_dt rt1 = t_dt gr) as Ed1 by (destruct Dt as (<- & _), Df as (Df & _); congruence).
    set (ng := fresh_rec (t_dt rt1) (t_lay rt1) (t_sto gr)).
    assert (geom (add_ten h1 ng) ng) as Hng.
    { pose proof (SI_geom _ _ _ S1 Ht1) as (_ & Q1 & Q2). split; [|done]. exists x. split; [done|]. split; [cbn; congruence|]. split; [lia|done]. }
    eapply (sf_bind _ _ (fun g h2 => h2 = add_ten h1 ng /\ g = length (h_ten h1))).
    { split; [apply add_ten_grow|]. split; [|done]. apply add_ten_si; [done|]. by apply fresh_si. }
    intros g h2 G2 S2 [-> ->]. assert (h_ten (add_ten h1 ng) !! to = Some rt1) as Ht2 by (by apply lookup_app_l_Some).
    eapply sf_get_bind; [exact Ht2|]. eapply sf_set; [done|exact Ht2| | |].
    + split; [done|]. split; [done|]. intros f Ef. exists f. done.
    + destruct (si_ten _ S2 _ _ Ht2) as [T1 T2 T3 T4]. split; [done|done| |].
      * intros g Egg. apply (inj Some) in Egg as <-. split. exists ng, x. split; [apply lookup_snoc|]. split; [done|]. split; [done|].
        split; [done|]. split; [done|]. exact Hal.
      * intros f Ef. destruct (T4 f Ef) as [N1 N2 N3 N4 N5 N6]. by split.
    + exists rf1. cbn [h_ten]. rewrite list_lookup_insert_ne by done. split; [by apply lookup_app_l_Some|congruence].
Qed.

Lemma noback_ok h r t : full h r -> full_at h t -> node_ok h (tracked_rec r NoBack [t]) (Gfn NoBack [t] 0 0 0).
Proof. intros Hf Ht. split; [done|done|by repeat constructor|done|done|done]. Qed.
(** tracking a view, and sharing the gradient *)
Lemma sf_track_view h ret t rr r : SI h -> h_ten h !! ret = Some rr -> h_ten h !! t = Some r -> ret <> t -> t_fn rr = None -> t_grad rr = None ->
  full_at h t -> full h rr -> t_dt rr = t_dt r -> is_float (t_dt r) = true -> lay_below (t_lay rr) (t_lay r) -> roomy r ->
  sf (track ret NoBack [t] ;;; share_grad_storage ret t) (fun _ h' => exists rf', h_ten h' !! t = Some rf' /\ t_grad rf' <> None) h.
Proof.
  intros S Hr Ht Hne E1 E2 F1 F2 Ed Hfl Hl Hroom.
  eapply (sf_bind _ _ (fun _ h1 => h1 = Hp (h_sto h) (<[ret := tracked_rec rr NoBack [t]]> (h_ten h)) (h_ver h))).
  - eapply sf_track; [done|done|done|congruence|by apply noback_ok|done].
  - intros ? h1 G1 S1 ->. eapply sf_mono; [eapply (sf_share _ ret t (tracked_rec rr NoBack [t]) r)|]; try done; cbn [h_ten].
    + by rewrite list_lookup_insert by (by eapply lookup_lt_Some).
    + by rewrite list_lookup_insert_ne.
Qed.
Lemma sf_finish h ret t rr r : SI h -> h_ten h !! ret = Some rr -> h_ten h !! t = Some r -> ret <> t -> t_fn rr = None -> t_grad rr = None ->
  full_at h t -> full h rr -> t_dt rr = t_dt r -> lay_below (t_lay rr) (t_lay r) -> (t_rg r = true -> roomy r) ->
  sf (finish_view ret t) (fun v h' => v = ret /\ full_at h' v) h.
Proof.
  intros S Hr Ht Hne E1 E2 F1 F2 Ed Hl Hroom. unfold finish_view. eapply sf_get_bind; [done|].
  assert (full_at h ret) as F3 by (by exists rr).
  destruct (t_rg r) eqn:Erg; cbn [negb]; [|by apply sf_ret].
  eapply sf_eq; [apply bind_assoc|]. eapply sf_bind; [eapply sf_track_view; try done; [|by apply Hroom]|].
  - by apply (ts_rg _ _ (si_ten _ S _ _ Ht)).
  - intros ? h1 G1 S1 _. apply sf_ret; [done|]. split; [done|]. by eapply full_at_grow.
Qed.
(** a view of [r] *)
Lemma sf_view h t r lay : SI h -> h_ten h !! t = Some r -> full_at h t -> nn (sizes lay) -> strides_fit lay -> lay_below lay (t_lay r) ->
  (t_rg r = true -> roomy r) ->
  sf (let! ret := create_view (t_dt r) lay (t_sto r) in finish_view ret t) (fun v h' => full_at h' v) h.
Proof.
  intros S Ht Hf Hn Hs Hl Hroom. pose proof (SI_geom _ _ _ S Ht) as Hg.
  destruct (geom_count h r S Hg) as (x & Hx & HT & Hb & Hc & _ & Hls).
  set (nr := fresh_rec (t_dt r) lay (t_sto r)).
  assert (geom (add_ten h nr) nr) as Hng.
  { split; [|done]. exists x. split; [done|]. split; [done|]. split; [lia|]. by apply Hl. }
  eapply (sf_bind _ _ (fun v h1 => h1 = add_ten h nr /\ v = length (h_ten h))).
  { split; [apply add_ten_grow|]. split; [|done]. apply add_ten_si; [done|]. by apply fresh_si. }
  intros v h1 G1 S1 [-> ->]. pose proof (lookup_lt_Some _ _ _ Ht).
  eapply sf_mono; [eapply (sf_finish _ _ t nr r); try done|].
  - apply lookup_snoc.
  - by apply lookup_app_l_Some.
  - lia.
  - by eapply full_at_grow.
  - destruct Hf as (r' & Hr' & Hf). assert (r' = r) as -> by congruence. unfold full; by eapply fullsto_grow.
  - intros v h' ? ? [_ ?]. done.
Qed.
End with_fops.
