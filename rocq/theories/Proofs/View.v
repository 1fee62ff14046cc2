(** Transpose, detach and the common tail of the view operations. *)
From Verif.Spec Require Export View.
From Verif.Proofs Require Export Later.

Section with_fops.
Context {fo : FOps}.

Definition view_rec (r : tensor) (lay : layout) : tensor := Ten (t_dt r) lay (t_sto r) None false false None.
Definition view_heap (h : heap) (r : tensor) (lay : layout) : heap :=
  Hp (h_sto h) (h_ten h ++ [view_rec r lay]) (h_ver h).
Lemma create_view_eq h r lay :
  create_view (t_dt r) lay (t_sto r) h = (Ok (length (h_ten h)), view_heap h r lay).
Proof. done. Qed.

(** the gradient of [r], if any, is a tensor *)
Definition grad_ok (h : heap) (r : tensor) : Prop :=
  forall g, t_grad r = Some g -> is_Some (h_ten h !! g).

Lemma set_ten_eq h t r : set_ten t r h = (Ok tt, Hp (h_sto h) (<[t := r]> (h_ten h)) (h_ver h)).
Proof. done. Qed.
Lemma create_noalloc h dt lay :
  create dt lay false h =
  (Ok (length (h_ten h)),
   Hp (h_sto h ++ [Sto dt (u64 (size_of dt * lnumel lay)) None])
      (h_ten h ++ [Ten dt lay (length (h_sto h)) None false false None]) (h_ver h)).
Proof. done. Qed.

Lemma share_ok h to from rt rf : to <> from ->
  h_ten h !! to = Some rt -> h_ten h !! from = Some rf -> grad_ok h rf ->
  exists h' rt', share_grad_storage to from h = (Ok tt, h') /\ h_ten h' !! to = Some rt' /\
    same_data rt rt' /\ t_rg rt' = t_rg rt /\ t_fn rt' = t_fn rt.
Proof.
  intros Hne Ht Hf Hg. unfold share_grad_storage.
  erewrite bind_ok by (by apply get_ten_ok).
  assert (exists h1 rf1 g gr, (match t_grad rf with
    | Some _ => mret tt
    | None => let! g := create (t_dt rf) (t_lay rf) false in set_ten from (with_grad rf (Some g)) end) h = (Ok tt, h1) /\
    h_ten h1 !! from = Some rf1 /\ t_grad rf1 = Some g /\ h_ten h1 !! g = Some gr /\ h_ten h1 !! to = Some rt)
    as (h1 & rf1 & g & gr & E & H1 & H2 & H3 & H4).
  { destruct (t_grad rf) as [g|] eqn:Eg.
    - destruct (Hg g Eg) as [gr Hgr]. by exists h, rf, g, gr.
    - erewrite bind_ok by apply create_noalloc. rewrite set_ten_eq.
      eexists _, _, _, _. split; [done|]. cbn [h_ten].
      assert (from < length (h_ten h))%nat as Hl by (by eapply lookup_lt_Some).
      assert (from <> length (h_ten h)) by lia.
      split; [rewrite list_lookup_insert by (rewrite app_length; simpl; lia); done|].
      split; [done|]. split.
      + rewrite list_lookup_insert_ne by done. apply lookup_snoc.
      + rewrite list_lookup_insert_ne by done. by apply lookup_app_l_Some. }
  erewrite bind_ok by exact E. erewrite bind_ok by (by apply get_ten_ok). rewrite H2.
  erewrite bind_ok by (by apply get_ten_ok). erewrite bind_ok by (by apply get_ten_ok).
  erewrite bind_ok by done. cbn [h_sto h_ten h_ver].
  erewrite bind_ok by (apply get_ten_ok; simpl; by apply lookup_app_l_Some).
  rewrite set_ten_eq. eexists _, _. split; [done|]. cbn [h_ten].
  rewrite list_lookup_insert by (simpl; rewrite app_length; apply lookup_lt_Some in H4; lia). split; [done|]. done.
Qed.

(** the common tail *)
Lemma finish_view_ok h t r lay : h_ten h !! t = Some r -> grad_ok h r ->
  exists h' r', finish_view (length (h_ten h)) t (view_heap h r lay) = (Ok (length (h_ten h)), h') /\
    h_ten h' !! length (h_ten h) = Some r' /\ t_dt r' = t_dt r /\ t_lay r' = lay /\ t_sto r' = t_sto r /\
    t_rg r' = t_rg r /\ (t_rg r = true -> exists k, t_fn r' = Some (Gfn k [t] 0 0 0)) /\
    (t_rg r = false -> t_fn r' = None).
Proof.
  intros Ht Hg. assert (t < length (h_ten h))%nat as Hl by (by eapply lookup_lt_Some).
  assert (h_ten (view_heap h r lay) !! t = Some r) as Ht1 by (by apply lookup_app_l_Some).
  assert (h_ten (view_heap h r lay) !! length (h_ten h) = Some (view_rec r lay)) as Hn1 by apply lookup_snoc.
  unfold finish_view. erewrite bind_ok by (by apply get_ten_ok).
  destruct (t_rg r) eqn:Hrg; cbn [negb].
  - unfold track. rewrite bind_assoc. erewrite bind_ok by (by apply get_ten_ok).
    erewrite bind_ok by apply set_ten_eq.
    set (h2 := Hp _ _ _). set (rv := with_fn _ _) in h2.
    assert (h_ten h2 !! length (h_ten h) = Some rv) as Hv.
    { apply list_lookup_insert. simpl. rewrite app_length. simpl. lia. }
    assert (h_ten h2 !! t = Some r) as Hr2.
    { cbn [h2 h_ten]. by rewrite list_lookup_insert_ne by lia. }
    destruct (share_ok h2 (length (h_ten h)) t rv r) as (h3 & r3 & E & H3 & Hsd & Hrg3 & Hfn3); try done; [lia| |].
    { intros g Eg. destruct (Hg g Eg) as [x Hx]. cbn [h2 h_ten]. apply lookup_lt_is_Some.
      rewrite insert_length. cbn [view_heap h_ten]. rewrite app_length. apply lookup_lt_Some in Hx. lia. }
    erewrite bind_ok by exact E. exists h3, r3. split; [done|]. split; [done|].
    destruct Hsd as (S1 & S2 & S3). rewrite <- S1, <- S2, <- S3, Hrg3, Hfn3. repeat split; try done. intros _. by eexists.
  - eexists _, _. split; [done|]. split; [done|]. repeat split; done.
Qed.

(** a view with layout [lay], provided its elements are elements of [r] *)
Lemma view_holds h h' r r' v lay f :
  data_kept h h' -> t_dt r' = t_dt r -> t_sto r' = t_sto r -> t_lay r' = lay -> lay_ok lay ->
  (forall idx, in_range (sizes lay) idx -> in_range (shape r) (f idx) /\ pos lay idx = pos (t_lay r) (f idx)) ->
  holds h r v -> holds h' r' (fun idx => v (f idx)).
Proof.
  intros [Hs _] Hdt Hsto <- Hok Hf [[cs ((b & Hb) & Hlok & Hin & Hlen)] He]. split.
  - exists cs. split; [exists b; rewrite Hsto, Hdt; by apply Hs|]. split; [done|]. split; [|done].
    intros idx Hi. destruct (Hf idx Hi) as [H1 ->]. by apply Hin.
  - intros idx Hi. destruct (Hf idx Hi) as [H1 H2]. destruct (He _ H1) as [H3 H4]. rewrite Hdt. split; [|done].
    rewrite <- H3. unfold elem, cells. rewrite Hsto, H2. by rewrite (Hs _ _ Hb), Hb.
Qed.
Lemma view_op_new o h t r lay f :
  h_ten h !! t = Some r -> grad_ok h r -> mutates o = false ->
  exec o h = new_handle (let! ret := create_view (t_dt r) lay (t_sto r) in finish_view ret t) h ->
  lay_ok lay ->
  (forall idx, in_range (sizes lay) idx -> in_range (shape r) (f idx) /\ pos lay idx = pos (t_lay r) (f idx)) ->
  exists t' h' r', exec o h = (Ok (RHandle (Some t')), h') /\ new_view h h' r t' (sizes lay) f (t_rg r) /\
    h_ten h' !! t' = Some r' /\ t_lay r' = lay.
Proof.
  intros Ht Hg Hm E Hok Hf. rewrite new_handle_eq in E. erewrite bind_ok in E by apply create_view_eq.
  destruct (finish_view_ok h t r lay Ht Hg) as (h' & r' & E' & Hr' & Hdt & Hlay & Hsto & Hrg & _).
  rewrite E' in E. exists (length (h_ten h)), h', r'. split; [done|].
  pose proof (op_keeps_data h o Hm) as Hd. rewrite E in Hd. simpl in Hd.
  split; [|done]. split; [done|]. split; [by apply lookup_ge_None_2|].
  exists r'. split_and!; try done.
  - unfold shape. by rewrite Hlay.
  - intros idx Hi. rewrite Hlay. by apply Hf.
  - intros v Hh. by eapply view_holds.
Qed.

End with_fops.

(** ** transpose *)
Lemma nth_lookup_Z (l : list Z) k x : l !! k = Some x -> nth k l 0 = x.
Proof. intros H. by rewrite nth_lookup, H. Qed.
Lemma swap_at_length i j l : length (swap_at i j l) = length l.
Proof. unfold swap_at. by rewrite !insert_length. Qed.
Lemma swap_at_lookup i j l k : (i < length l)%nat -> (j < length l)%nat ->
  swap_at i j l !! k = l !! (if Nat.eqb k i then j else if Nat.eqb k j then i else k).
Proof.
  intros Hi Hj. unfold swap_at. destruct (Nat.eqb_spec k i) as [->|Hk].
  - rewrite list_lookup_insert by (by rewrite insert_length).
    destruct (lookup_lt_is_Some_2 l j Hj) as [x Hx]. by rewrite (nth_lookup_Z _ _ _ Hx).
  - rewrite list_lookup_insert_ne by done. destruct (Nat.eqb_spec k j) as [->|Hk'].
    + rewrite list_lookup_insert by done.
      destruct (lookup_lt_is_Some_2 l i Hi) as [x Hx]. by rewrite (nth_lookup_Z _ _ _ Hx).
    + by rewrite list_lookup_insert_ne.
Qed.
Lemma swap_at_exchange i j l : (i < length l)%nat -> (j < length l)%nat -> swap_at i j l = exchange i j l.
Proof.
  intros Hi Hj. apply list_eq. intros k. rewrite swap_at_lookup by done. unfold exchange.
  rewrite list_lookup_fmap. destruct (decide (k < length l)%nat) as [Hk|Hk].
  - rewrite lookup_seq_lt by done. simpl.
    set (k' := if Nat.eqb k i then j else _).
    assert (k' < length l)%nat as Hk' by (unfold k'; repeat case_match; done).
    destruct (lookup_lt_is_Some_2 l k' Hk') as [x Hx]. by rewrite (nth_lookup_Z _ _ _ Hx), Hx.
  - rewrite lookup_seq_ge by lia. simpl. apply lookup_ge_None_2.
    destruct (Nat.eqb_spec k i); [lia|]. destruct (Nat.eqb_spec k j); lia.
Qed.
Lemma swap_at_twice i j l : (i < length l)%nat -> (j < length l)%nat -> swap_at i j (swap_at i j l) = l.
Proof.
  intros Hi Hj. apply list_eq. intros k. rewrite swap_at_lookup by (by rewrite swap_at_length).
  rewrite swap_at_lookup by done. f_equal.
  destruct (Nat.eqb_spec k i), (Nat.eqb_spec k j), (Nat.eqb_spec j i), (Nat.eqb_spec i i), (Nat.eqb_spec j j),
    (Nat.eqb_spec k i), (Nat.eqb_spec k j); congruence.
Qed.
Lemma in_range_swap i j a b : in_range a b -> (i < length a)%nat -> (j < length a)%nat ->
  in_range (swap_at i j a) (swap_at i j b).
Proof.
  intros H Hi Hj. pose proof (in_range_length _ _ H) as Hl.
  assert (forall k, (k < length a)%nat -> 0 <= nth k b 0 < nth k a 0) as Hk.
  { intros k Hk. destruct (lookup_lt_is_Some_2 a k Hk) as [x Hx].
    destruct (lookup_lt_is_Some_2 b k) as [y Hy]; [lia|].
    rewrite (nth_lookup_Z _ _ _ Hx), (nth_lookup_Z _ _ _ Hy). by eapply (Forall2_lookup_lr _ _ _ _ _ _ H). }
  unfold swap_at. apply Forall2_insert; [|by apply Hk]. apply Forall2_insert; [done|by apply Hk].
Qed.
Lemma dot_insert_l st idx i a : (i < length st)%nat ->
  dot (<[i := a]> st) idx = dot st idx + (a - nth i st 0) * nth i idx 0.
Proof.
  revert idx i. induction st as [|s st IH]; intros idx i Hi; [simpl in Hi; lia|].
  destruct i as [|i]; simpl in Hi |- *.
  - destruct idx; simpl; ring.
  - destruct idx as [|x idx]; [simpl; ring|]. simpl. rewrite IH by lia. ring.
Qed.
Lemma dot_insert_r st idx i a : (i < length idx)%nat ->
  dot st (<[i := a]> idx) = dot st idx + nth i st 0 * (a - nth i idx 0).
Proof.
  revert idx i. induction st as [|s st IH]; intros idx i Hi.
  - simpl. destruct i; ring.
  - destruct idx as [|x idx]; [simpl in Hi; lia|]. destruct i as [|i]; simpl in Hi |- *; [ring|].
    rewrite IH by lia. ring.
Qed.
Lemma nth_insert_eq (l : list Z) i a : (i < length l)%nat -> nth i (<[i := a]> l) 0 = a.
Proof. intros. apply nth_lookup_Z. by apply list_lookup_insert. Qed.
Lemma nth_insert_ne (l : list Z) i j a : i <> j -> nth j (<[i := a]> l) 0 = nth j l 0.
Proof. intros. rewrite !nth_lookup. by rewrite list_lookup_insert_ne. Qed.
Lemma dot_swap i j st idx : i <> j -> (i < length st)%nat -> (j < length st)%nat ->
  (i < length idx)%nat -> (j < length idx)%nat ->
  dot (swap_at i j st) idx = dot st (swap_at i j idx).
Proof.
  intros Hne ????. unfold swap_at.
  rewrite dot_insert_l by (by rewrite insert_length). rewrite dot_insert_l by done.
  rewrite dot_insert_r by (by rewrite insert_length). rewrite dot_insert_r by done.
  rewrite !nth_insert_ne by done. ring.
Qed.

Section with_fops.
Context {fo : FOps}.
Definition swap_lay (i j : nat) (l : layout) : layout :=
  Lay (swap_at i j (sizes l)) (swap_at i j (strides l)) (offset l).
Lemma Forall_swap (P : Z -> Prop) i j l : Forall P l -> (i < length l)%nat -> (j < length l)%nat ->
  Forall P (swap_at i j l).
Proof.
  intros H Hi Hj. apply Forall_lookup. intros k x. rewrite swap_at_lookup by done. intros Hx.
  rewrite Forall_lookup in H. by eapply H.
Qed.
Lemma swap_lay_ok i j l : lay_ok l -> (i < length (sizes l))%nat -> (j < length (sizes l))%nat ->
  lay_ok (swap_lay i j l).
Proof.
  intros (H1 & H2 & H3) Hi Hj. split; [|split]; simpl.
  - by rewrite !swap_at_length. - by apply Forall_swap. - done.
Qed.
Lemma transpose_new h t r d0 d1 (i := Z.to_nat d0) (j := Z.to_nat d1) :
  h_ten h !! t = Some r -> grad_ok h r -> lay_ok (t_lay r) ->
  0 <= d0 < Z.of_nat (length (shape r)) -> 0 <= d1 < Z.of_nat (length (shape r)) -> d0 <> d1 ->
  exists t' h' r', exec (OTranspose (Some t) d0 d1) h = (Ok (RHandle (Some t')), h') /\
    new_view h h' r t' (exchange i j (shape r)) (exchange i j) (t_rg r) /\
    h_ten h' !! t' = Some r' /\ t_lay r' = swap_lay i j (t_lay r).
Proof.
  intros Ht Hg Hok H0 H1 Hne. unfold shape in *.
  assert (i < length (sizes (t_lay r)))%nat as Hi by lia. assert (j < length (sizes (t_lay r)))%nat as Hj by lia.
  assert (i <> j) as Hij by lia.
  assert (length (sizes (t_lay r)) <= length (strides (t_lay r)))%nat as Hls by apply Hok.
  rewrite <- swap_at_exchange by done.
  assert (exec (OTranspose (Some t) d0 d1) h = new_handle (let! ret := create_view (t_dt r) (swap_lay i j (t_lay r)) (t_sto r) in finish_view ret t) h) as E.
  { cbn [exec]. rewrite un_some, !new_handle_eq. unfold op_transpose. erewrite bind_ok by (by apply get_ten_ok).
    unfold ldim. assert ((0 <=? d0) && (0 <=? d1) && (d0 <? Z.of_nat (length (sizes (t_lay r)))) &&
      (d1 <? Z.of_nat (length (sizes (t_lay r)))) = true) as -> by lia.
    erewrite bind_ok by done. assert (negb (d0 =? d1) = true) as -> by lia. erewrite bind_ok by done. done. }
  destruct (view_op_new (OTranspose (Some t) d0 d1) h t r (swap_lay i j (t_lay r)) (swap_at i j)) as (t' & h' & r' & H); try done.
  - by apply swap_lay_ok.
  - cbn [swap_lay sizes]. intros idx Hr. pose proof (in_range_length _ _ Hr) as Hlen. rewrite swap_at_length in Hlen.
    split.
    + unfold shape. rewrite <- (swap_at_twice i j (sizes (t_lay r))) by done.
      apply in_range_swap; [done|by rewrite swap_at_length..].
    + unfold pos. cbn [swap_lay strides offset]. by rewrite dot_swap by lia.
  - exists t', h', r'. destruct H as (H2 & H3 & H4 & H5). split; [done|]. split; [|done].
    destruct H3 as (N1 & N2 & x & N3 & N4 & N5 & N6 & N7 & N8 & N9).
    cbn [swap_lay sizes] in N6, N8.
    assert (forall idx, in_range (swap_at i j (sizes (t_lay r))) idx -> exchange i j idx = swap_at i j idx) as Hex.
    { intros idx Hr. apply in_range_length in Hr. rewrite swap_at_length in Hr. symmetry. apply swap_at_exchange; lia. }
    split; [done|]. split; [done|]. exists x. split_and!; try done.
    + intros idx Hr. rewrite Hex by done. by apply N8.
    + intros v Hh. eapply holds_ext; [|by apply N9]. intros idx Hr. unfold shape in N6. rewrite N6 in Hr.
      by rewrite Hex.
Qed.
Lemma transpose_reject h t r d0 d1 : h_ten h !! t = Some r ->
  ~ (0 <= d0 < Z.of_nat (length (shape r))) \/ ~ (0 <= d1 < Z.of_nat (length (shape r))) \/ d0 = d1 ->
  exec (OTranspose (Some t) d0 d1) h = (Throw RuntimeError, h).
Proof.
  intros Ht Hbad. cbn [exec]. rewrite un_some, new_handle_eq. unfold op_transpose.
  erewrite bind_ok by (by apply get_ten_ok). unfold ldim, shape in *.
  destruct ((0 <=? d0) && (0 <=? d1) && (d0 <? Z.of_nat (length (sizes (t_lay r)))) &&
      (d1 <? Z.of_nat (length (sizes (t_lay r))))) eqn:E.
  - erewrite bind_ok by done. assert (negb (d0 =? d1) = false) as -> by lia. done.
  - done.
Qed.
(** ** detach *)
Lemma detach_new h t r : h_ten h !! t = Some r ->
  exists h' r', exec (ODetach (Some t)) h = (Ok (RHandle (Some (length (h_ten h)))), h') /\
    h_sto h' = h_sto h /\ h_ten h' = h_ten h ++ [r'] /\
    t_dt r' = t_dt r /\ t_lay r' = t_lay r /\ t_sto r' = t_sto r /\
    t_rg r' = false /\ t_fn r' = None /\ t_grad r' = None.
Proof.
  intros Ht. cbn [exec]. rewrite un_some, new_handle_eq. unfold op_detach. erewrite bind_ok by (by apply get_ten_ok).
  rewrite create_view_eq. eexists _, _. split; [done|]. split; [done|]. split; [done|]. done.
Qed.
End with_fops.
