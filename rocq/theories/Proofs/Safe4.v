(** Memory safety of the operations that return a new tensor. *)
From Verif.Proofs Require Export Safe3.

Section with_fops.
Context {fo : FOps}.

Lemma sf_weak {A} (m : E A) (Q : A -> heap -> Prop) h : sf m Q h -> sf m (fun _ _ => True) h.
Proof. intros H. eapply sf_mono; [done|]. done. Qed.

Lemma si_float h t r : SI h -> h_ten h !! t = Some r -> t_rg r = true -> is_float (t_dt r) = true.
Proof. intros S Hr. by apply (si_ten _ S _ _ Hr). Qed.
(** allocated, with as many cells as it has room for *)
Definition tight (h : heap) (s : nat) : Prop := exists x cs, h_sto h !! s = Some x /\ sto_blob x = Some cs /\ Z.of_nat (length cs) = cap x.
Lemma tight_alloc h s : tight h s -> allocd h s.
Proof. intros (x & cs & H1 & H2 & _). by exists x, cs. Qed.
(** create, fill, go on *)
Lemma sf_new {B} h dt lay (K : tensor -> E unit) (tail : nat -> E B) (Q : B -> heap -> Prop) :
  SI h -> bytes_fit dt (sizes lay) -> strides_fit lay ->
  (size_of dt * size_prod (sizes lay) <= alloc_max -> lay_sane lay (size_prod (sizes lay))) ->
  (forall d, st (K d)) ->
  (forall h1, let d := fresh_rec dt lay (length (h_sto h)) in grow h h1 -> SI h1 -> newt h dt lay (length (h_ten h)) h1 ->
     tight h1 (t_sto d) -> sf (K d) (fun _ => covered d) h1) ->
  (forall t h2, grow h h2 -> SI h2 -> made h dt lay t h2 -> sf (tail t) Q h2) ->
  sf (let! ret := create dt lay true in let! d := get_ten ret in K d ;;; tail ret) Q h.
Proof.
  intros S Hf Hs Hl HK Hk Ht.
  assert (sf (create dt lay true) (fun t h' => newt h dt lay t h' /\ tight h' (length (h_sto h))) h) as Hc.
  { apply sf_and; [by apply sf_create|]. intros t h' E. revert E. unfold create, new_blob. case_match; cbn; intros [= <- <-].
    eexists _, _. cbn. split; [apply lookup_snoc|]. split; [done|]. unfold fresh_cells. rewrite replicate_length. unfold cap. cbn [sto_ty sto_bytes].
    pose proof (size_of_pos dt). rewrite Z2Nat.id; [done|]. apply Z.div_pos; [apply u64_range|lia]. }
  eapply sf_bind; [exact Hc|]. intros t h1 G1 S1 [Hn Ha]. eapply sf_get_bind; [by eapply new_get|].
  pose proof (nw_id _ _ _ _ _ Hn) as ->.
  eapply sf_bind; [apply sf_st; [apply HK|by apply Hk]|]. intros ? h2 G2 S2 [C2 E2].
  apply Ht; [by eapply grow_trans|done|]. by eapply new_made.
Qed.
Lemma sf_newc {B} h dt ss (K : tensor -> E unit) (tail : nat -> E B) (Q : B -> heap -> Prop) :
  SI h -> bytes_fit dt ss -> (forall d, st (K d)) ->
  (forall h1, let d := fresh_rec dt (contig ss) (length (h_sto h)) in grow h h1 -> SI h1 -> newt h dt (contig ss) (length (h_ten h)) h1 ->
     tight h1 (t_sto d) -> sf (K d) (fun _ => covered d) h1) ->
  (forall t h2, grow h h2 -> SI h2 -> made h dt (contig ss) t h2 -> sf (tail t) Q h2) ->
  sf (let! ret := create dt (contig ss) true in let! d := get_ten ret in K d ;;; tail ret) Q h.
Proof. intros S Hf. apply sf_new; [done|done|apply contig_fit|]. apply contig_sane, Hf. Qed.

(** a new tensor that is no node *)
Definition plain_at (h : heap) (dt : dtype) (lay : layout) (t : nat) : Prop :=
  exists r, h_ten h !! t = Some r /\ full h r /\ t_dt r = dt /\ t_lay r = lay /\ t_fn r = None /\ t_grad r = None /\ t_rg r = false.
Lemma made_plain h dt lay t h' : made h dt lay t h' -> plain_at h' dt lay t.
Proof. apply made_get. Qed.
Lemma plain_full h dt lay t : plain_at h dt lay t -> full_at h t.
Proof. intros (r & Hr & Hf & _). by exists r. Qed.

Lemma bytes_scalar dt : bytes_fit dt [].
Proof. split; [constructor|]. destruct dt; done. Qed.
Lemma sf_scalar h dt v : SI h -> sf (create_scalar dt v) (made h dt (contig [])) h.
Proof.
  intros S. unfold create_scalar. apply (sf_newc _ _ _ (fun r => store dt (t_sto r) 0 v)); [done|apply bytes_scalar|intros; apply st_store| |].
  - intros h1 d G1 S1 Hn Ha. assert (in_range (shape d) []) as Hr by constructor.
    eapply (sf_store1_pos h1 d [] v); [done|apply Hn|done|]. intros h' Hf sv Hsv. cbn in Hsv. by apply in_range_nil_inv in Hsv as ->.
  - intros t h2 G2 S2 Hm. by apply sf_ret.
Qed.
Lemma sf_fill_new h ss dt tmp r : SI h -> bytes_fit dt ss -> h_ten h !! tmp = Some r -> full h r -> shape r = [] -> offset (t_lay r) = 0 ->
  sf (fill_new ss dt tmp (t_dt r)) (made h dt (contig ss)) h.
Proof.
  intros S Hf Hr Hfull E0 E1. unfold fill_new.
  eapply sf_eq; [|apply (sf_newc h dt ss (fun d => let! n := get_ten tmp in tensor_fill dt (t_dt r) d n) mret)]; try done.
  - unfold bind. destruct (create dt (contig ss) true h) as [[t|e|u|] h1]; try done. destruct (get_ten t h1) as [[d|e|u|] h2]; try done.
    destruct (get_ten tmp h2) as [[n|e|u|] h3]; done.
  - intros d. apply st_bind; [apply st_get_ten|]. intros n. apply st_tensor_fill.
  - intros h1 d G1 S1 Hn Ha. assert (h_ten h1 !! tmp = Some r) as Hr1 by (rewrite (nw_ten _ _ _ _ _ Hn); by apply lookup_app_l_Some).
    eapply sf_get_bind; [done|]. apply (sf_fill h1 d r); [done|apply Hn| |done|done].
    split; [by eapply SI_geom|]. by eapply full_grow.
  - intros t h2 G2 S2 Hm. by apply sf_ret.
Qed.
Lemma sf_filled h ss dt nt v : SI h -> bytes_fit dt ss ->
  sf (let! tmp := create_scalar nt v in fill_new ss dt tmp nt) (fun t h' => plain_at h' dt (contig ss) t) h.
Proof.
  intros S Hf. eapply sf_bind; [by apply sf_scalar|]. intros tmp h1 G1 S1 Hm. destruct (made_get _ _ _ _ _ Hm) as (r & Hr & Hfull & E1 & E2 & _).
  rewrite <- E1. eapply sf_mono; [eapply sf_fill_new; try done|].
  - unfold shape. by rewrite E2.
  - by rewrite E2.
  - intros t h2 _ _ Hm2. by eapply made_plain.
Qed.
Lemma sf_ones h ss dt : SI h -> bytes_fit dt ss -> sf (ones ss dt) (fun t h' => plain_at h' dt (contig ss) t) h.
Proof. apply sf_filled. Qed.
Lemma sf_full_int h ss n dt : SI h -> bytes_fit dt ss -> sf (full_int ss n dt) (fun t h' => plain_at h' dt (contig ss) t) h.
Proof. apply sf_filled. Qed.
Lemma sf_full_double h ss n dt : SI h -> bytes_fit dt ss -> sf (full_double ss n dt) (fun t h' => plain_at h' dt (contig ss) t) h.
Proof. apply sf_filled. Qed.
Lemma fullsto_covered h d : geom h d -> fullsto h (t_sto d) -> covered d h.
Proof. intros Hg Hf sv Hi. by apply full_cell. Qed.
Lemma sf_zero_new h h1 dt lay : SI h1 -> newt h dt lay (length (h_ten h)) h1 -> tight h1 (length (h_sto h)) ->
  sf (sto_zero (length (h_sto h))) (fun _ => covered (fresh_rec dt lay (length (h_sto h)))) h1.
Proof.
  intros S1 Hn Ha. eapply sf_mono; [apply sf_zero; [done|]; destruct Ha as (x & cs & -> & _); by eexists|].
  intros ? h2 G2 S2 H. apply fullsto_covered; [|by apply H, tight_alloc]. eapply geom_grow; [done|done|apply Hn].
Qed.
Lemma sf_zeros h ss dt : SI h -> bytes_fit dt ss -> sf (zeros ss dt) (made h dt (contig ss)) h.
Proof.
  intros S Hf. unfold zeros. apply (sf_newc _ _ _ (fun d => sto_zero (t_sto d))); [done|done|intros; apply st_sto_zero| |].
  - intros h1 d G1 S1 Hn Ha. by apply sf_zero_new.
  - intros t h2 G2 S2 Hm. by apply sf_ret.
Qed.
Lemma made_rd h dt lay t h' : SI h' -> made h dt lay t h' -> exists s, h_ten h' !! t = Some (fresh_rec dt lay s) /\ rd h' (fresh_rec dt lay s).
Proof.
  intros S [-> (s & E & Hf)]. exists s. assert (h_ten h' !! length (h_ten h) = Some (fresh_rec dt lay s)) as Hr by (rewrite E; apply lookup_snoc).
  split; [done|]. split; [by eapply SI_geom|done].
Qed.
Lemma sf_eye_op h n m dt : SI h -> bytes_fit dt [n; m] -> sf (eye n m dt) (fun t h' => full_at h' t) h.
Proof.
  intros S Hf. unfold eye. eapply sf_mono.
  - eapply sf_eq; [|apply (sf_newc h dt [n; m] (fun d => sto_zero (t_sto d) ;;; tensor_eye dt d) mret (made h dt (contig [n; m])))]; try done.
    + unfold bind. destruct (create _ _ _ _) as [[t|e|u|] h1]; try done. destruct (get_ten _ _) as [[d|e|u|] h2]; try done.
      destruct (sto_zero _ _) as [[d0|e|u|] h3]; done.
    + intros d. apply st_bind; [apply st_sto_zero|]. intros. apply st_tensor_eye.
    + intros h1 d G1 S1 Hn Ha. eapply sf_bind; [by apply sf_zero_new|]. intros ? h2 G2 S2 C2.
      assert (rd h2 d) as Hd2.
      { pose proof (geom_grow h1 h2 d d G2 ltac:(done) (proj1 (nw_wr _ _ _ _ _ Hn))) as Hg. split; [done|].
        apply cover_full; [apply Hg|eapply dense_grow; [done|apply Hn]|done]. }
      eapply sf_mono; [by eapply (sf_eye h2 d n m)|]. intros ? h3 G3 S3 _. apply fullsto_covered; [by eapply (proj1 (rd_grow _ _ _ G3 Hd2))|].
      by apply (rd_grow _ _ _ G3 Hd2).
    + intros t h2 G2 S2 Hm. by apply sf_ret.
  - intros t h' _ _ Hm. by eapply made_full.
Qed.
(** elements of a new tensor *)
Lemma new_cells h dt lay t h1 : newt h dt lay t h1 -> tight h1 (length (h_sto h)) -> exists x cs, h_sto h1 !! length (h_sto h) = Some x /\ sto_ty x = dt /\ sto_blob x = Some cs /\
  Z.of_nat (length cs) = cap x.
Proof.
  intros Hn (x & cs & Hx & Hb & Hl). exists x, cs. destruct (nw_wr _ _ _ _ _ Hn) as [((y & Hy & HT & _) & _) _]. cbn in Hy, HT. assert (y = x) as -> by congruence.
  done.
Qed.
Lemma sf_from_blob h data ss dt : SI h -> bytes_fit dt ss -> size_prod ss <= Z.of_nat (length data) ->
  sf (from_blob data ss dt) (fun t h' => full_at h' t) h.
Proof.
  intros S Hf Hl. unfold from_blob. eapply sf_mono.
  - eapply sf_eq; [|apply (sf_newc h dt ss (fun d => let! s := get_sto (t_sto d) in
      match sto_blob s with
      | None => mub NullDeref
      | Some cs => if Z.of_nat (length data) <? Z.of_nat (length cs) then mub OutOfBounds
          else set_sto (t_sto d) (Sto (sto_ty s) (sto_bytes s) (Some (map Some (firstn (length cs) data)))) end) mret (made h dt (contig ss)))]; try done.
    + unfold bind. destruct (create _ _ _ _) as [[t|e|u|] h1]; try done. destruct (get_ten _ _) as [[d|e|u|] h2]; try done.
      destruct (get_sto _ _) as [[d0|e|u|] h3]; done.
    + intros d. apply st_bind; [apply st_get_sto|]. intros x. case_match; [|apply st_ub]. case_match; [apply st_ub|apply st_set_sto].
    + intros h1 d G1 S1 Hn Ha. destruct (new_cells _ _ _ _ _ Hn Ha) as (x & cs & Hx & HT & Hb & Hlen).
      assert (Z.of_nat (length cs) <= Z.of_nat (length data)) as Hle.
      { destruct (nw_dense _ _ _ _ _ Hn) as (y & Hy & D0 & D1). cbn in Hy. assert (y = x) as -> by congruence. rewrite Hlen.
        destruct (decide (0 ∈ shape d)) as [H0|H0]; [specialize (D0 H0); lia|]. destruct (D1 H0) as (_ & _ & <-). done. }
      unfold sf, bind, get_sto. cbn [t_sto fresh_rec d]. rewrite Hx, Hb. destruct (Z.ltb_spec (Z.of_nat (length data)) (Z.of_nat (length cs))); [lia|].
      assert (length (firstn (length cs) data) = length cs) as Elen by (rewrite firstn_length; lia).
      unfold set_sto. match goal with |- grow h1 ?h' /\ _ => assert (grow h1 h') as G end.
      { eapply put_grow; [done|done|by rewrite map_length|]. intros k v Hv. apply lookup_lt_Some in Hv.
        destruct (lookup_lt_is_Some_2 (firstn (length cs) data) k) as [w Hw]; [lia|]. exists w. rewrite list_lookup_fmap, Hw. done. }
      split; [done|]. split; [by eapply SI_cells|]. apply fullsto_covered; [eapply geom_grow; [done|done|apply Hn]|].
      eexists. cbn [h_sto t_sto d fresh_rec]. rewrite list_lookup_insert by (by eapply lookup_lt_Some). split; [done|]. intros k Hk.
      unfold cap in *. cbn [sto_ty sto_bytes] in Hk. destruct (lookup_lt_is_Some_2 (firstn (length cs) data) k) as [w Hw]; [lia|].
      eexists _, _, w. cbn [h_sto]. rewrite list_lookup_insert by (by eapply lookup_lt_Some). split; [done|]. split; [done|]. rewrite list_lookup_fmap, Hw. done.
    + intros t h2 G2 S2 Hm. by apply sf_ret.
  - intros t h' _ _ Hm. by eapply made_full.
Qed.
Lemma sf_randn h ss xs : SI h -> bytes_fit F32 ss -> sf (op_randn ss F32 xs) (fun t h' => full_at h' t) h.
Proof.
  intros S Hf. unfold op_randn. apply sf_expect_bind; [done|]. intros _. eapply sf_mono.
  - apply (sf_newc h F32 ss (fun d => mapM_ (fun i => randn_write F32 (t_sto d) i (nth (Z.to_nat i) xs f_zero)) (seqZ 0 (lnumel (t_lay d)))) mret (made h F32 (contig ss))).
    + done. + done.
    + intros d. apply st_mapM. intros. apply st_randn_write.
    + intros h1 d G1 S1 Hn Ha. destruct (new_cells _ _ _ _ _ Hn Ha) as (x & cs & Hx & HT & Hb & Hlen).
      destruct (bytes_numel F32 (contig ss) Hf) as [E1 E2]. cbn [d fresh_rec t_lay]. rewrite E1. cbn [contig sizes].
      destruct (nw_dense _ _ _ _ _ Hn) as (y & Hy & D0 & D1). cbn in Hy. assert (y = x) as -> by congruence.
      eapply sf_mono; [apply (sf_mapM _ _ (fun i h' => filled h' (length (h_sto h)) (Z.to_nat i))); [done| |]|].
      * intros i h2 Hi G2 S2. apply elem_of_seqZ in Hi. unfold randn_write. rewrite bool_decide_true by done.
        destruct (proj1 (gw_rs _ _ G2) _ _ Hx) as (x' & Hx' & R1 & R2 & _).
        eapply (sf_store _ _ i _ x'); [done|done|congruence|by apply G2, tight_alloc| |done].
        assert (cap x' = cap x) as -> by (unfold cap; by rewrite R1, R2).
        destruct (decide (0 ∈ shape d)) as [H0|H0].
        { pose proof (size_prod_zero _ H0) as E. cbn in E. lia. }
        destruct (D1 H0) as (_ & _ & <-). cbn. lia.
      * intros i h2 h3 H G. by apply G.
      * intros ? h2 G2 S2 H. apply fullsto_covered; [eapply geom_grow; [done|done|apply Hn]|].
        destruct (proj1 (gw_rs _ _ G2) _ _ Hx) as (x' & Hx' & R1 & R2 & _). exists x'. split; [done|]. intros k Hk.
        assert (cap x' = cap x) as Ec by (unfold cap; by rewrite R1, R2). rewrite Ec in Hk.
        assert (filled h2 (length (h_sto h)) (Z.to_nat (Z.of_nat k))) as Hfk; [|by rewrite Nat2Z.id in Hfk].
        apply H, elem_of_seqZ. destruct (decide (0 ∈ shape d)) as [H0|H0]; [specialize (D0 H0); lia|].
        destruct (D1 H0) as (_ & _ & E). cbn in E. lia.
    + intros t h2 G2 S2 Hm. by apply sf_ret.
  - intros t h' _ _ Hm. by eapply made_full.
Qed.
Lemma sf_detach h t : SI h -> full_at h t -> sf (op_detach t) (fun v h' => full_at h' v) h.
Proof.
  intros S Hf. pose proof Hf as (r & Hr & Hfr). unfold op_detach. eapply sf_get_bind; [done|].
  set (nr := fresh_rec (t_dt r) (t_lay r) (t_sto r)).
  assert (geom (add_ten h nr) nr) as Hg by (exact (SI_geom _ _ _ S Hr)).
  split; [apply add_ten_grow|]. split; [apply add_ten_si; [done|]; by apply fresh_si|].
  exists nr. split; [apply lookup_snoc|]. unfold full. eapply fullsto_grow; [apply add_ten_grow|done].
Qed.

(** ** tracking a new tensor *)
Lemma sf_tracked h t r k ins : SI h -> h_ten h !! t = Some r -> full h r -> t_fn r = None -> is_float (t_dt r) = true -> Forall (full_at h) ins ->
  (forall kg, k = KnownGradBack kg -> full_at h kg) ->
  (k = DivBack -> exists a b ra rb, ins = [a; b] /\ h_ten h !! a = Some ra /\ h_ten h !! b = Some rb /\
     t_rg ra = true /\ t_rg rb = true /\ shape rb = shape r) ->
  (forall dim, k = CatBack dim -> cat_room h dim ins) ->
  sf (track t k ins ;;; mret t) (fun t h' => full_at h' t) h.
Proof.
  intros S Hr Hf Hfn Hfl Hin Hkg Hdiv Hcat. eapply sf_bind; [eapply (sf_track h t r k ins (fun _ _ => True)); try done|].
  - intros ? h1 G1 S1 _. apply sf_ret; [done|]. eapply full_at_grow; [done|]. by exists r.
Qed.
Lemma sf_track_made h dt lay t h' k ins : SI h' -> made h dt lay t h' -> is_float dt = true -> Forall (full_at h') ins ->
  (forall kg, k = KnownGradBack kg -> full_at h' kg) ->
  (k = DivBack -> exists a b ra rb, ins = [a; b] /\ h_ten h' !! a = Some ra /\ h_ten h' !! b = Some rb /\
     t_rg ra = true /\ t_rg rb = true /\ shape rb = sizes lay) ->
  (forall dim, k = CatBack dim -> cat_room h' dim ins) ->
  sf (track t k ins ;;; mret t) (fun t h' => full_at h' t) h'.
Proof.
  intros S Hm Hfl Hin Hkg Hdiv Hcat. destruct (made_get _ _ _ _ _ Hm) as (r & Hr & Hf & E1 & E2 & E3 & _).
  eapply sf_tracked; try done; [congruence|]. unfold shape. by rewrite E2.
Qed.

(** ** arithmetic *)
Lemma sf_no_grad h kernel a b ra rb order : SI h -> full_at h a -> full_at h b -> h_ten h !! a = Some ra -> h_ten h !! b = Some rb ->
  let D := larger_type (t_dt ra) (t_dt rb) in let ss := bmax (shape ra) (shape rb) in
  bytes_fit D ss -> (forall L R d l r, st (kernel L R d l r)) ->
  (forall h1 d, SI h1 -> wr h1 d -> rd h1 ra -> rd h1 rb -> t_dt d = D -> shape d = ss ->
     sf (if order : bool then kernel (t_dt ra) (t_dt rb) d ra rb
         else if bool_decide (t_dt ra = D) then kernel (t_dt ra) (t_dt rb) d ra rb else kernel (t_dt rb) (t_dt ra) d rb ra) (fun _ => covered d) h1) ->
  sf (apply_no_grad_binary_op kernel a b order) (made h D (contig ss)) h.
Proof.
  intros S Fa Fb Ha Hb D ss Hfit Hst Hk. pose proof (full_rd _ _ _ S Fa Ha) as Ra. pose proof (full_rd _ _ _ S Fb Hb) as Rb.
  unfold apply_no_grad_binary_op. do 2 (eapply sf_get_bind; [done|]). rewrite broadcast_range_max. apply sf_lift_bind; [done|done|].
  intros rg [= <-]. fold (shape ra) (shape rb) ss D.
  apply (sf_newc h D ss (fun d => if order then kernel (t_dt ra) (t_dt rb) d ra rb
         else if bool_decide (t_dt ra = D) then kernel (t_dt ra) (t_dt rb) d ra rb else kernel (t_dt rb) (t_dt ra) d rb ra)); [done|done|..].
  - intros d. destruct order; [apply Hst|]. case_bool_decide; apply Hst.
  - intros h1 d G1 S1 Hn _. apply Hk; [done|apply Hn|by eapply rd_grow|by eapply rd_grow|done|done].
  - intros t h2 G2 S2 Hm. by apply sf_ret.
Qed.
Lemma sf_binary h kernel k a b ra rb order : SI h -> full_at h a -> full_at h b -> h_ten h !! a = Some ra -> h_ten h !! b = Some rb ->
  let D := larger_type (t_dt ra) (t_dt rb) in let ss := bmax (shape ra) (shape rb) in
  bytes_fit D ss -> (forall L R d l r, st (kernel L R d l r)) ->
  (forall h1 d, SI h1 -> wr h1 d -> rd h1 ra -> rd h1 rb -> t_dt d = D -> shape d = ss ->
     sf (if order : bool then kernel (t_dt ra) (t_dt rb) d ra rb
         else if bool_decide (t_dt ra = D) then kernel (t_dt ra) (t_dt rb) d ra rb else kernel (t_dt rb) (t_dt ra) d rb ra) (fun _ => covered d) h1) ->
  (forall kg, k <> KnownGradBack kg) -> (forall dim, k <> CatBack dim) ->
  (k = DivBack -> t_rg ra = true \/ t_rg rb = true -> t_rg ra = true /\ t_rg rb = true /\ shape rb = ss) ->
  sf (apply_binary_operator kernel k a b order) (fun t h' => full_at h' t) h.
Proof.
  intros S Fa Fb Ha Hb D ss Hfit Hst Hk Hkg Hcat Hdiv. unfold apply_binary_operator.
  eapply sf_bind; [by apply (sf_no_grad h kernel a b ra rb order)|]. intros t h1 G1 S1 Hm.
  pose proof (made_old _ _ _ _ _ _ _ Hm Ha) as Ha1. pose proof (made_old _ _ _ _ _ _ _ Hm Hb) as Hb1.
  do 2 (eapply sf_get_bind; [done|]). destruct (negb (t_rg ra) && negb (t_rg rb)) eqn:Erg; [apply sf_ret; [done|by eapply made_full]|].
  assert (t_rg ra = true \/ t_rg rb = true) as Hor by (destruct (t_rg ra), (t_rg rb); auto).
  eapply sf_track_made; [done|done|..].
  - destruct Hor as [Hor|Hor]; [apply is_float_join_l|apply is_float_join_r]; by eapply (si_float h).
  - repeat constructor; by eapply full_at_grow.
  - intros kg E. by destruct (Hkg kg).
  - intros E. destruct (Hdiv E Hor) as (R1 & R2 & R3). exists a, b, ra, rb. done.
  - intros dim E. by destruct (Hcat dim).
Qed.
Lemma larger_cases a b : larger_type a b = a \/ larger_type a b = b.
Proof. unfold larger_type. case_match; auto. Qed.
Definition div_ok (ra rb : tensor) : Prop := t_rg ra = true \/ t_rg rb = true -> t_rg ra = true /\ t_rg rb = true /\ shape rb = bmax (shape ra) (shape rb).
Lemma larger_common a b : larger_type a b = innc_common a b. Proof. by destruct a, b. Qed.
Lemma bmax_len_l a b : (length a <= length (bmax a b))%nat. Proof. rewrite bmax_length. lia. Qed.
Lemma bmax_len_r a b : (length b <= length (bmax a b))%nat. Proof. rewrite bmax_length. lia. Qed.

Section bin.
Context (h : heap) (a b : nat) (ra rb : tensor) (S : SI h) (Fa : full_at h a) (Fb : full_at h b) (Ha : h_ten h !! a = Some ra) (Hb : h_ten h !! b = Some rb)
  (Hfit : bytes_fit (larger_type (t_dt ra) (t_dt rb)) (bmax (shape ra) (shape rb))).
Lemma sf_op_add : sf (op_add a b) (fun t h' => full_at h' t) h.
Proof.
  apply (sf_binary h _ _ _ _ ra rb); try done; [intros; apply st_tensor_add|].
  intros h1 d S1 Hd Ra Rb Ed Es. case_bool_decide as E.
  - eapply sf_mono; [apply sf_add; try done; [congruence|apply Ra|apply Rb|rewrite Es, bmax_length; lia]|]. intros ? h2 _ _ H. by apply H.
  - destruct (larger_cases (t_dt ra) (t_dt rb)) as [E1|E1]; [congruence|].
    eapply sf_mono; [apply sf_add; try done; [congruence|apply Rb|apply Ra|rewrite Es, bmax_length; lia]|]. intros ? h2 _ _ H. apply H. by rewrite bmax_comm.
Qed.
Lemma sf_op_sub : sf (op_sub a b) (fun t h' => full_at h' t) h.
Proof.
  apply (sf_binary h _ _ _ _ ra rb); try done; [intros; apply st_tensor_sub|].
  intros h1 d S1 Hd Ra Rb Ed Es.
  eapply sf_mono; [apply sf_sub; try done; [by rewrite Ed, larger_common|apply Ra|apply Rb|rewrite Es, bmax_length; lia]|]. intros ? h2 _ _ H. by apply H.
Qed.
Lemma sf_op_mul : sf (op_mul a b) (fun t h' => full_at h' t) h.
Proof.
  apply (sf_binary h _ _ _ _ ra rb); try done; [intros; apply st_tensor_mul|].
  intros h1 d S1 Hd Ra Rb Ed Es. case_bool_decide as E.
  - apply sf_mul; try done; [congruence|rewrite Es; apply bmax_len_l|rewrite Es; apply bmax_len_r].
  - destruct (larger_cases (t_dt ra) (t_dt rb)) as [E1|E1]; [congruence|].
    apply sf_mul; try done; [congruence|rewrite Es; apply bmax_len_r|rewrite Es; apply bmax_len_l].
Qed.
Lemma sf_op_div : div_ok ra rb -> sf (op_div a b) (fun t h' => full_at h' t) h.
Proof.
  intros Hdiv. apply (sf_binary h _ _ _ _ ra rb); try done; [intros; apply st_tensor_div|].
  intros h1 d S1 Hd Ra Rb Ed Es. apply sf_div; try done; [by rewrite Ed, larger_common|rewrite Es; apply bmax_len_l|rewrite Es; apply bmax_len_r].
Qed.
End bin.
Lemma sf_op_cmp h c a b ra rb : SI h -> full_at h a -> full_at h b -> h_ten h !! a = Some ra -> h_ten h !! b = Some rb ->
  bytes_fit I8 (bmax (shape ra) (shape rb)) -> sf (op_cmp c a b) (fun t h' => full_at h' t) h.
Proof.
  intros S Fa Fb Ha Hb Hfit. pose proof (full_rd _ _ _ S Fa Ha) as Ra. pose proof (full_rd _ _ _ S Fb Hb) as Rb.
  unfold op_cmp. do 2 (eapply sf_get_bind; [done|]). rewrite broadcast_range_max. apply sf_lift_bind; [done|done|].
  intros rg [= <-]. fold (shape ra) (shape rb). eapply (sf_newc h I8 _ (fun d => tensor_cmp c (t_dt ra) (t_dt rb) d ra rb)); [done|done|..].
  - intros d. apply st_tensor_cmp.
  - intros h1 d G1 S1 Hn _. apply sf_cmp; [done|by eapply rd_grow|by eapply rd_grow|apply Hn|done|apply bmax_len_l|apply bmax_len_r].
  - intros t h2 G2 S2 Hm. apply sf_ret; [done|by eapply made_full].
Qed.
Lemma sf_op_neg h t r : SI h -> full_at h t -> h_ten h !! t = Some r -> bytes_fit (larger_type I32 (t_dt r)) (shape r) -> sf (op_neg t) (fun t h' => full_at h' t) h.
Proof.
  intros S Hf Hr Hfit. unfold op_neg. eapply sf_bind; [by apply sf_scalar|]. intros z h1 G1 S1 Hm.
  pose proof (made_old _ _ _ _ _ _ _ Hm Hr) as Hr1. destruct (made_rd _ _ _ _ _ S1 Hm) as (s & Hz & Rz).
  apply (sf_op_sub h1 z t (fresh_rec I32 (contig []) s) r); try done.
  - by eapply made_full.
  - by eapply full_at_grow.
  - assert (bmax (shape (fresh_rec I32 (contig []) s)) (shape r) = shape r) as ->; [|done]. unfold bmax. cbn. by rewrite rev_involutive.
Qed.
Lemma sf_addeq h a b ra rb : SI h -> full_at h a -> full_at h b -> h_ten h !! a = Some ra -> h_ten h !! b = Some rb ->
  sf (op_addeq a b) (fun _ _ => True) h.
Proof.
  intros S Fa Fb Ha Hb. pose proof (full_rd _ _ _ S Fa Ha) as Ra. pose proof (full_rd _ _ _ S Fb Hb) as Rb.
  unfold op_addeq. do 2 (eapply sf_get_bind; [done|]). apply sf_expect_bind; [done|]. intros _.
  eapply sf_weak, sf_add; try done; [by apply rd_wr|apply Ra|apply Rb|lia].
Qed.

(** ** copies *)
Lemma sf_op_clone h t : SI h -> full_at h t -> sf (op_clone t) (fun t h' => full_at h' t) h.
Proof.
  intros S Hf. pose proof Hf as (r & Hr & _). pose proof (full_rd _ _ _ S Hf Hr) as Rr. unfold op_clone. eapply sf_get_bind; [done|].
  apply (sf_newc h (t_dt r) _ (fun d => tensor_clone (t_dt r) (t_dt r) d r)); [done|apply (geom_bytes_fit h r S), Rr|..].
  - intros. apply st_tensor_clone.
  - intros h1 d G1 S1 Hn _. apply (sf_copy h1 d r); [done|by eapply rd_grow|apply Hn|done].
  - intros t' h2 G2 S2 Hm. destruct (t_rg r) eqn:Erg; cbn [negb]; [|apply sf_ret; [done|by eapply made_full]].
    eapply sf_track_made; try done; [by eapply (si_float h)|]. repeat constructor. by eapply full_at_grow.
Qed.
Lemma sf_to_dtype h t r dt : SI h -> full_at h t -> h_ten h !! t = Some r -> bytes_fit dt (shape r) -> sf (to_dtype t dt) (fun t h' => full_at h' t) h.
Proof.
  intros S Hf Hr Hfit. pose proof (full_rd _ _ _ S Hf Hr) as Rr. unfold to_dtype. eapply sf_get_bind; [done|].
  destruct (t_rg r && is_int dt) eqn:Ei; [by apply sf_throw|]. case_bool_decide as Ed; [by apply sf_ret|].
  apply (sf_newc h dt _ (fun d => tensor_to_type dt (t_dt r) d r)); [done|done|..].
  - intros. apply st_tensor_to_type.
  - intros h1 d G1 S1 Hn _. apply (sf_totype h1 d r); [done|by eapply rd_grow|apply Hn|done].
  - intros t' h2 G2 S2 Hm. destruct (t_rg r) eqn:Erg; cbn [negb]; [|apply sf_ret; [done|by eapply made_full]].
    eapply sf_track_made; try done; [by destruct dt|]. repeat constructor. by eapply full_at_grow.
Qed.

(** ** reductions *)
Lemma sf_reduce h t r (K : tensor -> E unit) k : SI h -> full_at h t -> h_ten h !! t = Some r -> (forall d, st (K d)) ->
  (forall h1 d, SI h1 -> grow h h1 -> rd h1 d -> shape d = [] -> offset (t_lay d) = 0 -> t_dt d = reduce_ty (t_dt r) -> sf (K d) (fun _ _ => True) h1) ->
  (forall kg, k <> KnownGradBack kg) -> k <> DivBack -> (forall dim, k <> CatBack dim) ->
  sf (let! tf := zeros [] (reduce_ty (t_dt r)) in let! d := get_ten tf in K d ;;; (if t_rg r then track tf k [t] else mret tt) ;;; mret tf) (fun t h' => full_at h' t) h.
Proof.
  intros S Hf Hr HK Hk Hkg Hdv Hcat. eapply sf_bind; [apply sf_zeros; [done|apply bytes_scalar]|]. intros tf h1 G1 S1 Hm.
  destruct (made_rd _ _ _ _ _ S1 Hm) as (s & Hd & Rd). eapply sf_get_bind; [done|].
  eapply sf_bind; [apply sf_st; [apply HK|by apply Hk]|]. intros ? h2 G2 S2 [_ E2].
  assert (full_at h2 tf) as Ff by (eapply full_at_grow; [done|by eapply made_full]).
  destruct (t_rg r) eqn:Erg.
  - eapply (sf_tracked h2 tf (fresh_rec (reduce_ty (t_dt r)) (contig []) s)); try done.
    + by rewrite E2.
    + destruct Rd as [_ Rd]. unfold full. by eapply fullsto_grow.
    + assert (is_float (t_dt r) = true) as Hfl by (by eapply (si_float h)). by destruct (t_dt r).
    + repeat constructor. eapply full_at_grow; [|exact Hf]. by eapply grow_trans.
    + intros kg E. by destruct (Hkg kg).
    + intros dim E. by destruct (Hcat dim).
  - eapply sf_eq; [symmetry; apply bind_ret|]. by apply sf_ret.
Qed.
Lemma sf_op_sum h t : SI h -> full_at h t -> sf (op_sum t) (fun t h' => full_at h' t) h.
Proof.
  intros S Hf. pose proof Hf as (r & Hr & _). pose proof (full_rd _ _ _ S Hf Hr) as Rr. unfold op_sum. eapply sf_get_bind; [done|].
  apply (sf_reduce h t r (fun d => tensor_sum (reduce_ty (t_dt r)) (t_dt r) d r)); try done; [intros; apply st_tensor_sum|].
  intros h1 d S1 G1 Rd E0 E1 <-. apply sf_sum; try done. by eapply rd_grow.
Qed.
Lemma sf_op_mean h t : SI h -> full_at h t -> sf (op_mean t) (fun t h' => full_at h' t) h.
Proof.
  intros S Hf. pose proof Hf as (r & Hr & _). pose proof (full_rd _ _ _ S Hf Hr) as Rr. unfold op_mean. eapply sf_get_bind; [done|].
  apply (sf_reduce h t r (fun d => tensor_mean (reduce_ty (t_dt r)) (t_dt r) d r)); try done; [intros; apply st_tensor_mean|].
  intros h1 d S1 G1 Rd E0 E1 <-. apply sf_mean; try done. by eapply rd_grow.
Qed.
Lemma sf_op_extremum h c t r : SI h -> full_at h t -> h_ten h !! t = Some r -> 0 < size_prod (shape r) -> sf (op_extremum c t) (fun t h' => full_at h' t) h.
Proof.
  intros S Hf Hr Hpos. pose proof (full_rd _ _ _ S Hf Hr) as Rr. unfold op_extremum. eapply sf_get_bind; [done|].
  eapply sf_bind; [apply sf_zeros; [done|apply bytes_scalar]|]. intros tf h1 G1 S1 Hm.
  destruct (made_rd _ _ _ _ _ S1 Hm) as (s & Hd & Rd). eapply sf_get_bind; [done|]. set (d := fresh_rec _ _ s) in *.
  destruct (t_rg r) eqn:Erg; cbn [negb].
  - unfold zeros_like. eapply sf_eq; [symmetry; apply bind_assoc|]. eapply sf_get_bind; [by eapply made_old|].
    eapply sf_bind; [apply sf_zeros; [done|apply (geom_bytes_fit h r S), Rr]|]. intros g h2 G2 S2 Hm2.
    destruct (made_rd _ _ _ _ _ S2 Hm2) as (s2 & Hg & Rg). eapply sf_get_bind; [done|]. set (gr := fresh_rec _ _ s2) in *.
    assert (grow h h2) as G02 by (by eapply grow_trans).
    eapply sf_bind; [apply sf_st; [apply st_tensor_extremum|apply (sf_extremum h2 c d r); try done]|].
    + by eapply rd_grow.
    + by apply (rd_grow h1).
    + intros g' [= <-]. done.
    + intros ? h3 G3 S3 [_ E3]. eapply (sf_tracked h3 tf d); try done.
      * rewrite E3. by eapply made_old.
      * eapply fullsto_grow; [|apply Rd]. by eapply grow_trans.
      * exact (si_float h t r S Hr Erg).
      * repeat constructor. eapply full_at_grow; [|exact Hf]. by eapply grow_trans.
      * intros kg [= <-]. eapply full_at_grow; [done|by eapply made_full].
  - eapply sf_bind; [apply (sf_extremum h1 c d r); try done; by eapply rd_grow|]. intros ? h2 G2 S2 _. apply sf_ret; [done|].
    eapply full_at_grow; [done|by eapply made_full].
Qed.
Lemma sf_op_abs h t r : SI h -> full_at h t -> h_ten h !! t = Some r -> lay_in (t_lay r) (size_prod (shape r)) -> sf (op_abs t) (fun t h' => full_at h' t) h.
Proof.
  intros S Hf Hr Hin. pose proof (full_rd _ _ _ S Hf Hr) as Rr. unfold op_abs. eapply sf_get_bind; [done|].
  pose proof (geom_bytes_fit _ _ S (proj1 Rr)) as Hfit. pose proof (lay_sane_room _ _ (proj1 Rr) Hin) as Hls.
  pose proof (proj2 (proj2 (proj1 Rr))) as Hsf.
  destruct (t_rg r) eqn:Erg; cbn [negb].
  - eapply sf_bind; [by apply (sf_create h (t_dt r) (t_lay r))|]. intros v h1 G1 S1 N1. eapply sf_get_bind; [by eapply new_get|].
    eapply sf_bind; [by apply (sf_create h1 (t_dt r) (t_lay r))|]. intros g h2 G2 S2 N2. eapply sf_get_bind; [by eapply new_get|].
    set (d := fresh_rec _ _ (length (h_sto h))). set (gr := fresh_rec _ _ (length (h_sto h1))). assert (grow h h2) as G02 by (by eapply grow_trans).
    eapply sf_bind; [apply sf_st; [apply st_tensor_abs|apply (sf_abs h2 d r); try done]|].
    + by eapply rd_grow.
    + apply (wr_grow h1); [done|apply N1].
    + intros g' [= <-]. split; [apply N2|done].
    + intros ? h3 G3 S3 [[C1 C2] E3]. specialize (C2 gr eq_refl). assert (made h1 (t_dt r) (t_lay r) g h3) as Hm2 by (by eapply new_made).
      assert (h_ten h3 !! v = Some d) as Hv by (rewrite E3, (nw_ten _ _ _ _ _ N2); apply lookup_app_l_Some; by eapply new_get).
      eapply (sf_tracked h3 v d); try done.
      * apply cover_full; [apply Rr| |done]. eapply dense_grow; [|apply N1]. by eapply grow_trans.
      * exact (si_float h t r S Hr Erg).
      * repeat constructor. eapply full_at_grow; [|exact Hf]. by eapply grow_trans.
      * intros kg [= <-]. by eapply made_full.
  - eapply (sf_new h (t_dt r) (t_lay r) (fun d => tensor_abs (t_dt r) (t_dt r) d r None)); [done|done|done|done|intros; apply st_tensor_abs|..].
    + intros h1 d G1 S1 Hn _. eapply sf_mono; [apply (sf_abs h1 d r); try done; [by eapply rd_grow|apply Hn]|]. intros ? h2 _ _ [H _]. done.
    + intros t' h2 G2 S2 Hm. apply sf_ret; [done|by eapply made_full].
Qed.
End with_fops.
