(** zeros, ones, full, eye, from_blob, scalars. *)
From Verif.Proofs Require Export Compare.

Section with_fops.
Context {fo : FOps}.

Lemma new_tensor_trans h h1 h2 t dt ss rg w :
  extends h h1 -> new_tensor h1 h2 t dt ss rg w -> new_tensor h h2 t dt ss rg w.
Proof.
  intros He (He2 & Hn & r & H1 & H2 & H3). split; [by eapply extends_trans|].
  split. { destruct (h_ten h !! t) eqn:E; [|done]. apply He in E. congruence. }
  exists r. split; [done|]. split; [|done].
  destruct (h_sto h !! t_sto r) eqn:E; [|done]. apply He in E. congruence.
Qed.
Lemma new_tensor_ext h h' t dt ss rg w w' :
  (forall idx, in_range ss idx -> w idx = w' idx) ->
  new_tensor h h' t dt ss rg w -> new_tensor h h' t dt ss rg w'.
Proof.
  intros Hw (He2 & Hn & r & H1 & H2 & H3 & H4 & H5 & H6 & H7 & H8). split; [done|].
  split; [done|]. exists r. repeat (split; [done|]). eapply holds_ext; [|done].
  by rewrite H4.
Qed.

(** ** bare allocation *)
Lemma allocable_nil dt : allocable dt [].
Proof. split; [done|]. by destruct dt. Qed.
Lemma rm_cells_nil w : rm_cells [] w = [Some (w [])].
Proof. done. Qed.

Lemma create_scalar_ok h dt v :
  create_scalar dt v h =
    (Ok (length (h_ten h)), alloc_heap h dt (contig []) (rm_cells [] (fun _ => v)) false None).
Proof.
  unfold create_scalar. erewrite bind_ok by (apply create_ok, allocable_nil).
  erewrite bind_ok by (apply get_ten_ok, alloc_ten).
  erewrite bind_ok; [done|].
  erewrite store_ok; [|apply (alloc_sto h dt (contig []))|done].
  f_equal. apply alloc_put.
Qed.

Lemma const_cells_rm ss (c : val) (cs : list cell) :
  Forall (fun n => 0 <= n) ss -> length cs = Z.to_nat (size_prod ss) ->
  map (fun _ => Some c) cs = rm_cells ss (fun _ => c).
Proof.
  intros Hn Hl. apply list_eq. intros i. unfold rm_cells. rewrite !list_lookup_fmap.
  pose proof (length_indices ss Hn).
  destruct (decide (i < length cs)%nat) as [Hi|Hi].
  - destruct (lookup_lt_is_Some_2 cs i) as [x ->]; [done|].
    destruct (lookup_lt_is_Some_2 (indices ss) i) as [y ->]; [lia|]. done.
  - rewrite !lookup_ge_None_2; [done|lia|lia].
Qed.

Lemma sto_zero_alloc h dt lay cs rg fn :
  sto_zero (length (h_sto h)) (alloc_heap h dt lay cs rg fn) =
    (Ok tt, alloc_heap h dt lay (map (fun _ => Some (zero_val dt)) cs) rg fn).
Proof.
  unfold sto_zero. erewrite bind_ok by (apply get_sto_ok, alloc_sto). simpl.
  unfold set_sto. f_equal. apply (alloc_put h dt lay).
Qed.

Lemma zeros_ok h ss dt :
  allocable dt ss ->
  zeros ss dt h =
    (Ok (length (h_ten h)),
     alloc_heap h dt (contig ss) (rm_cells ss (fun _ => zero_val dt)) false None).
Proof.
  intros Ha. unfold zeros. erewrite bind_ok by (by apply create_ok).
  erewrite bind_ok by (apply get_ten_ok, alloc_ten).
  erewrite bind_ok by (apply sto_zero_alloc).
  unfold mret. do 2 f_equal. apply const_cells_rm; [by eapply allocable_nonneg|].
  simpl. by rewrite replicate_length.
Qed.

(** ** fill *)
Lemma fill_new_ok h ss dt tmp nt n v :
  allocable dt ss -> h_ten h !! tmp = Some n -> t_dt n = nt ->
  load nt (t_sto n) 0 h = (Ok v, h) ->
  (forall h', extends h h' -> load nt (t_sto n) 0 h' = (Ok v, h')) ->
  fill_new ss dt tmp nt h =
    match cpp_cvt nt dt v with
    | Some w => (Ok (length (h_ten h)),
                 alloc_heap h dt (contig ss) (rm_cells ss (fun _ => w)) false None)
    | None => (UB FloatRange, alloc_heap h dt (contig ss) (raw_cells ss) false None)
    end.
Proof.
  intros Ha Hn Hnt _ Hload. unfold fill_new. erewrite bind_ok by (by apply create_ok).
  erewrite bind_ok by (apply get_ten_ok, alloc_ten).
  erewrite bind_ok by (apply get_ten_ok, alloc_ten_old, Hn).
  unfold tensor_fill. rewrite bind_assoc. erewrite bind_ok by (apply Hload, alloc_extends).
  rewrite bind_assoc, bind_lift, cvt_cpp. destruct (cpp_cvt nt dt v) as [w|]; [|done].
  simpl sizes. fold (raw_cells ss).
  destruct (fresh_loop h dt ss false None
    (fun sv => let! p := idx_exact (fresh_rec h dt (contig ss) false None) sv in
               store dt (t_sto (fresh_rec h dt (contig ss) false None)) p w)
    (fun _ => Ok w) (raw_cells ss) Ha)
    as [(w' & Hw & Hrun)|(u & cs & idx & Hrun & Hi & He)].
  { apply replicate_length. }
  { intros idx cs Hi Hl. pose proof (alloc_backed h dt ss cs false None Ha Hl) as Hb.
    destruct (backed_idx _ _ _ idx Hb) as [Hp Hr]; [done|]. simpl in Hp, Hr.
    erewrite bind_ok by exact Hp.
    rewrite pos_contig in Hr by (done || by eapply allocable_lt63).
    rewrite pos_contig by (done || by eapply allocable_lt63).
    erewrite store_ok; [|apply (alloc_sto h dt (contig ss))|done]. f_equal. apply alloc_put. }
  - assert (alloc_heap h dt (contig ss) (rm_cells ss w') false None =
            alloc_heap h dt (contig ss) (rm_cells ss (fun _ => w)) false None) as Heq.
    { f_equal. apply rm_cells_ext. intros idx Hi. specialize (Hw idx Hi). congruence. }
    rewrite Heq in Hrun. destruct ss as [|s ss'].
    + erewrite bind_ok; [done|]. simpl in *. unfold for_each_sizevec in Hrun. simpl in Hrun.
      exact Hrun.
    + erewrite bind_ok; [done|]. exact Hrun.
  - done.
Qed.

Lemma load_scalar h dt v :
  forall h', extends (alloc_heap h dt (contig []) (rm_cells [] (fun _ => v)) false None) h' ->
  load dt (length (h_sto h)) 0 h' = (Ok v, h').
Proof.
  intros h' [He _]. eapply load_ok; [|lia|].
  - apply He, (alloc_sto h dt (contig [])).
  - done.
Qed.

(** heap after creating the temporary scalar *)
Definition scalar_heap (h : heap) (dt : dtype) (v : val) : heap :=
  alloc_heap h dt (contig []) (rm_cells [] (fun _ => v)) false None.

Lemma fill_scalar_ok h ss dt nt v :
  allocable dt ss ->
  (let! tmp := create_scalar nt v in fill_new ss dt tmp nt) h =
    match cpp_cvt nt dt v with
    | Some w => (Ok (Datatypes.S (length (h_ten h))),
                 alloc_heap (scalar_heap h nt v) dt (contig ss) (rm_cells ss (fun _ => w)) false None)
    | None => (UB FloatRange,
               alloc_heap (scalar_heap h nt v) dt (contig ss) (raw_cells ss) false None)
    end.
Proof.
  intros Ha. erewrite bind_ok by apply create_scalar_ok. fold (scalar_heap h nt v).
  erewrite fill_new_ok; [|done|apply alloc_ten|done|by apply load_scalar, extends_refl|apply load_scalar].
  destruct (cpp_cvt nt dt v); [|done]. do 2 f_equal.
  unfold scalar_heap. simpl. rewrite app_length. simpl. lia.
Qed.

Lemma ones_eq ss dt : ones ss dt = (let! tmp := create_scalar I8 (VI 1) in fill_new ss dt tmp I8).
Proof. done. Qed.

(** ** eye *)
Definition eye_val (dt : dtype) (idx : list Z) : val :=
  match idx with
  | [i; j] => if i =? j then (if floating dt then VF (f_of_Z (fmt dt) 1) else VI 1) else zero_val dt
  | _ => zero_val dt
  end.

Lemma cpp_cvt_one T dt :
  cpp_cvt T dt (VI 1) = Some (if floating dt then VF (f_of_Z (fmt dt) 1) else VI 1).
Proof. by destruct dt. Qed.

Lemma eye_ok h n m dt :
  allocable dt [n; m] ->
  eye n m dt h =
    (Ok (length (h_ten h)),
     alloc_heap h dt (contig [n; m]) (rm_cells [n; m] (eye_val dt)) false None).
Proof.
  intros Ha. unfold eye. erewrite bind_ok by (by apply create_ok).
  erewrite bind_ok by (apply get_ten_ok, alloc_ten).
  erewrite bind_ok by (apply sto_zero_alloc).
  rewrite (const_cells_rm [n; m]);
    [|by eapply allocable_nonneg|simpl; by rewrite replicate_length].
  unfold tensor_eye. simpl (Z.min _ _).
  set (rec := fresh_rec h dt (contig [n; m]) false None).
  set (one := if floating dt then VF (f_of_Z (fmt dt) 1) else VI 1).
  pose proof (allocable_nonneg _ _ Ha) as Hn. inversion Hn as [|? ? Hn0 Hn1]; subst.
  inversion Hn1 as [|? ? Hm0 _]; subst. simpl in Hn0, Hm0.
  assert (forall k, 0 <= k <= Z.min n m ->
    mapM_ (fun i => let! p := idx_exact rec [i; i] in store_cvt I32 dt (t_sto rec) p (VI 1)) (seqZ 0 k)
      (alloc_heap h dt (contig [n; m]) (rm_cells [n; m] (fun _ => zero_val dt)) false None) =
    (Ok tt, alloc_heap h dt (contig [n; m])
      (rm_cells [n; m] (fun idx => match idx with
         | [i; j] => if (i =? j) && (i <? k) then one else zero_val dt | _ => zero_val dt end))
      false None)) as Hloop.
  { intros k [Hk Hkm]. revert Hkm. pattern k. apply natlike_ind; [| |done].
    - intros _. simpl. unfold mret. do 2 f_equal. apply rm_cells_ext. intros idx Hi.
      destruct idx as [|i [|j [|]]]; try done. apply in_range_cons in Hi as [Hi _].
      destruct (Z.ltb_spec i 0); [lia|]. by rewrite andb_false_r.
    - clear k Hk. intros k Hk IH Hkm.
      replace (seqZ 0 (Z.succ k)) with (seqZ 0 k ++ [k]).
      2:{ rewrite <- Z.add_1_r. rewrite seqZ_app by lia. done. }
      rewrite mapM_app. erewrite bind_ok by (apply IH; lia). cbn [mapM_].
      assert (in_range [n; m] [k; k]) as Hi.
      { repeat (apply in_range_cons; split; [lia|]). constructor. }
      erewrite bind_ok.
      2:{ unfold rec. rewrite fresh_write_exact; [|done|done|by apply rm_cells_length].
          rewrite cvt_cpp, cpp_cvt_one. fold one. done. }
      unfold mret. do 2 f_equal.
      apply list_eq. intros p.
      destruct (decide (p < Z.to_nat (size_prod [n; m]))%nat) as [Hp|Hp].
      + destruct (lookup_lt_is_Some_2 (indices [n; m]) p) as [idx Hidx].
        { pose proof (length_indices [n; m] Hn). lia. }
        destruct (indices_lookup_inv [n; m] p idx Hn Hidx) as [Hr Hrm].
        assert (p = Z.to_nat (row_major [n; m] idx)) as -> by lia.
        destruct idx as [|i [|j [|? ?]]]; try (apply in_range_length in Hr; done).
        destruct (decide ([i; j] = [k; k])) as [Heq|Hne].
        * rewrite Heq in *. rewrite list_lookup_insert.
          -- rewrite rm_cells_lookup by done. rewrite Z.eqb_refl.
             by rewrite (proj2 (Z.ltb_lt k (Z.succ k))) by lia.
          -- rewrite rm_cells_length by done. done.
        * rewrite list_lookup_insert_ne.
          -- rewrite !rm_cells_lookup by done. destruct (Z.eqb_spec i j) as [->|]; [|done].
             destruct (Z.ltb_spec j k), (Z.ltb_spec j (Z.succ k)); try done; try lia.
             assert (j = k) by lia. by subst.
          -- intros Heq. apply Hne. apply (row_major_inj [n; m]); try done.
             pose proof (row_major_bounds _ _ Hr). pose proof (row_major_bounds _ _ Hi). lia.
      + rewrite !lookup_ge_None_2; [done| |rewrite insert_length];
          rewrite rm_cells_length by done; lia. }
  erewrite bind_ok by (apply Hloop; lia). unfold mret. do 2 f_equal.
  apply rm_cells_ext. intros idx Hi. destruct idx as [|i [|j [|]]]; try done.
  apply in_range_cons in Hi as [Hi Hj]. apply in_range_cons in Hj as [Hj _].
  simpl. fold one. destruct (Z.eqb_spec i j) as [->|]; [|done].
  by rewrite (proj2 (Z.ltb_lt j (Z.min n m))) by lia.
Qed.

(** ** from_blob *)
Lemma map_nth_rm ss (data : list val) d :
  Forall (fun n => 0 <= n) ss -> (Z.to_nat (size_prod ss) <= length data)%nat ->
  map Some (firstn (Z.to_nat (size_prod ss)) data) =
    rm_cells ss (fun idx => nth (Z.to_nat (row_major ss idx)) data d).
Proof.
  intros Hn Hl. apply list_eq. intros p. unfold rm_cells. rewrite !list_lookup_fmap.
  pose proof (length_indices ss Hn).
  destruct (decide (p < Z.to_nat (size_prod ss))%nat) as [Hp|Hp].
  - destruct (lookup_lt_is_Some_2 (indices ss) p) as [idx Hidx]; [lia|].
    destruct (indices_lookup_inv ss p idx Hn Hidx) as [Hr Hrm]. rewrite Hidx. simpl.
    rewrite Hrm, Nat2Z.id. rewrite lookup_take by done.
    destruct (lookup_lt_is_Some_2 data p) as [x Hx]; [lia|]. rewrite Hx. simpl.
    by rewrite (nth_lookup_Some _ _ _ _ Hx).
  - rewrite (lookup_ge_None_2 (indices ss)) by lia. simpl.
    rewrite lookup_take_ge by lia. done.
Qed.
Lemma from_blob_ok h ss dt data d :
  allocable dt ss -> size_prod ss <= Z.of_nat (length data) ->
  from_blob data ss dt h =
    (Ok (length (h_ten h)),
     alloc_heap h dt (contig ss)
       (rm_cells ss (fun idx => nth (Z.to_nat (row_major ss idx)) data d)) false None).
Proof.
  intros Ha Hl. unfold from_blob. erewrite bind_ok by (by apply create_ok).
  erewrite bind_ok by (apply get_ten_ok, alloc_ten).
  erewrite bind_ok by (apply get_sto_ok, alloc_sto). cbn [sto_blob sizes contig].
  pose proof (allocable_prod _ _ Ha). rewrite replicate_length.
  destruct (Z.ltb_spec (Z.of_nat (length data)) (Z.of_nat (Z.to_nat (size_prod ss)))); [lia|].
  erewrite bind_ok; [done|]. unfold set_sto. f_equal.
  rewrite <- (map_nth_rm ss data d); [|by eapply allocable_nonneg|lia].
  apply (alloc_put h dt (contig ss)).
Qed.
End with_fops.
