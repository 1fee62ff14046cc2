(** randn, and requests too large. *)
From Verif.Spec Require Export Part.
From Verif.Proofs Require Export Api1.

Section with_fops.
Context {fo : FOps}.

(** ** randn *)
Lemma randn_reject h ss dt xs : floating dt = false -> exec (ORandn ss dt xs) h = (Throw RuntimeError, h).
Proof. by destruct dt. Qed.
Lemma fill_seq {A} (f : nat -> A) (cs : list A) (k : nat) : (k < length cs)%nat ->
  <[k := f k]> (map f (seq 0 k) ++ drop k cs) = map f (seq 0 (S k)) ++ drop (S k) cs.
Proof.
  intros Hk. destruct (lookup_lt_is_Some_2 cs k Hk) as [x Hx].
  rewrite insert_app_r_alt by (rewrite map_length, seq_length; lia). rewrite map_length, seq_length, Nat.sub_diag.
  rewrite (drop_S _ _ _ Hx). cbn [list_insert]. rewrite seq_S, map_app, <- app_assoc. done.
Qed.
Lemma randn_new h ss xs : Forall (fun n => 0 <= n < two64) ss -> fits F32 ss ->
  exists t h', exec (ORandn ss F32 xs) h = (Ok (RHandle (Some t)), h') /\
    new_tensor h h' t F32 ss false (fun idx => VF (nth (Z.to_nat (row_major ss idx)) xs f_zero)).
Proof.
  intros Hss Hf. assert (allocable F32 ss) as Ha by done. pose proof (allocable_prod _ _ Ha) as Hp.
  cbn [exec]. rewrite new_handle_eq.
  assert (op_randn ss F32 xs h = (Ok (length (h_ten h)), alloc_heap h F32 (contig ss) (rm_cells ss (fun idx => VF (nth (Z.to_nat (row_major ss idx)) xs f_zero))) false None)) as ->.
  { unfold op_randn. erewrite bind_ok by reflexivity. erewrite bind_ok by (by apply create_ok). erewrite bind_ok by (apply get_ten_ok, alloc_ten).
    change (lnumel (t_lay (fresh_rec h F32 (contig ss) false None))) with (numel_of ss). rewrite (allocable_numel _ _ Ha).
    change (t_sto (fresh_rec h F32 (contig ss) false None)) with (length (h_sto h)). cbn [sizes contig].
    set (n := Z.to_nat (size_prod ss)). set (f := fun i : nat => Some (VF (nth i xs f_zero)) : cell).
    assert (forall k, (k <= n)%nat ->
      mapM_ (fun i => randn_write F32 (length (h_sto h)) i (nth (Z.to_nat i) xs f_zero)) (seqZ 0 (Z.of_nat k)) (alloc_heap h F32 (contig ss) (replicate n None) false None) =
      (Ok tt, alloc_heap h F32 (contig ss) (map f (seq 0 k) ++ drop k (replicate n None)) false None)) as Hloop.
    { induction k as [|k IH]; intros Hk; [done|]. rewrite seqZ_S, mapM_app. erewrite bind_ok by (apply IH; lia).
      cbn [mapM_]. rewrite Z.add_0_l, Nat2Z.id. unfold randn_write. rewrite bool_decide_true by done.
      erewrite bind_ok; [done|]. erewrite store_ok; [|apply (alloc_sto h F32 (contig ss))|].
      2:{ rewrite app_length, map_length, seq_length, drop_length, replicate_length. lia. }
      rewrite Nat2Z.id. f_equal. etrans; [apply (alloc_put h F32 (contig ss))|]. f_equal. apply (fill_seq f). by rewrite replicate_length. }
    replace (seqZ 0 (size_prod ss)) with (seqZ 0 (Z.of_nat n)) by (f_equal; lia).
    erewrite bind_ok by (apply Hloop; lia). unfold mret. do 2 f_equal. rewrite drop_replicate, Nat.sub_diag, app_nil_r.
    set (g := fun i : nat => VF (nth i xs f_zero) : val).
    transitivity (rm_cells ss (fun idx => nth (Z.to_nat (row_major ss idx)) (map g (seq 0 n)) (VF f_zero))).
    - rewrite <- map_nth_rm; [|by eapply allocable_nonneg|by rewrite map_length, seq_length].
      fold n. rewrite take_ge by (by rewrite map_length, seq_length). by rewrite map_map.
    - apply rm_cells_ext. intros idx Hi. pose proof (row_major_bounds ss idx Hi).
      rewrite (nth_indep _ _ (g 0%nat)) by (rewrite map_length, seq_length; unfold n; lia). rewrite map_nth, seq_nth by (unfold n; lia). done. }
  eexists _, _. split; [done|]. by apply alloc_new_tensor.
Qed.
Lemma randn_f64 h ss xs : Forall (fun n => 0 <= n < two64) ss -> fits F32 ss -> 0 < size_prod ss ->
  exists h', exec (ORandn ss F64 xs) h = (UB OutOfBounds, h').
Proof.
  intros Hss Hf Hpos. assert (allocable F32 ss) as Ha by done.
  cbn [exec]. rewrite new_handle_eq. unfold op_randn. erewrite bind_ok by reflexivity. erewrite bind_ok by (by apply create_ok). erewrite bind_ok by (apply get_ten_ok, alloc_ten).
  change (lnumel (t_lay (fresh_rec h F32 (contig ss) false None))) with (numel_of ss). rewrite (allocable_numel _ _ Ha).
  change (t_sto (fresh_rec h F32 (contig ss) false None)) with (length (h_sto h)). cbn [sizes contig].
  set (n := size_prod ss) in *.
  assert (forall l cs, length cs = Z.to_nat n -> Forall (fun i => 0 <= i) l -> Exists (fun i => n < 2 * i + 2) l -> exists h',
    mapM_ (fun i => randn_write F64 (length (h_sto h)) i (nth (Z.to_nat i) xs f_zero)) l (alloc_heap h F32 (contig ss) cs false None) = (UB OutOfBounds, h')) as Hloop.
  { induction l as [|i l IH]; intros cs Hl Hnn He; [by apply Exists_nil in He|]. cbn [mapM_].
    assert (forall x, randn_write F64 (length (h_sto h)) i x (alloc_heap h F32 (contig ss) cs false None) =
      if 8 * i + 8 <=? 4 * Z.of_nat (length cs) then (Ok tt, alloc_heap h F32 (contig ss) (<[Z.to_nat (2 * i) := None]> (<[Z.to_nat (2 * i + 1) := None]> cs)) false None)
      else (UB OutOfBounds, alloc_heap h F32 (contig ss) cs false None)) as Hw.
    { intros x. unfold randn_write. rewrite bool_decide_false by done. erewrite bind_ok by (apply get_sto_ok, alloc_sto). cbn [sto_blob sto_ty sto_bytes].
      destruct (_ <=? _); [|done]. unfold set_sto. f_equal. apply (alloc_put h F32 (contig ss)). }
    unfold bind at 1. rewrite Hw. rewrite Hl. apply Forall_cons in Hnn as [Hi Hnn]. apply Exists_cons in He as [He|He].
    - destruct (Z.leb_spec (8 * i + 8) (4 * Z.of_nat (Z.to_nat n))); [lia|by eexists].
    - destruct (8 * i + 8 <=? 4 * Z.of_nat (Z.to_nat n)); [|eexists; reflexivity]. apply IH; [by rewrite !insert_length|done|done]. }
  destruct (Hloop (seqZ 0 n) (replicate (Z.to_nat n) None)) as [h' E]; [by rewrite replicate_length| | |].
  - apply Forall_forall. intros i Hi%elem_of_seqZ. lia.
  - apply Exists_exists. exists (n - 1). split; [apply elem_of_seqZ|]; lia.
  - unfold bind. rewrite E. by eexists.
Qed.
Lemma randn_like_new h a r xs : h_ten h !! a = Some r -> exec (ORandnLike (Some a) xs) h = exec (ORandn (shape r) (t_dt r) xs) h.
Proof. intros Hr. cbn [exec]. rewrite un_some, !new_handle_eq. by erewrite bind_ok by (by apply get_ten_ok). Qed.

(** ** requests too large *)
Lemma create_bytes dt ss : u64 (size_of dt * lnumel (contig ss)) = (size_of dt * size_prod ss) mod 2 ^ 64.
Proof.
  unfold lnumel. cbn [sizes contig]. rewrite numel_of_mod. unfold u64, two64. change (2 ^ 64) with 18446744073709551616.
  by rewrite Zmult_mod_idemp_r.
Qed.
Lemma create_too_large h dt ss : alloc_max < (size_of dt * size_prod ss) mod 2 ^ 64 -> create dt (contig ss) true h = (Throw BadAlloc, h).
Proof.
  intros Hb. unfold create. rewrite create_bytes. unfold new_blob. destruct (Z.leb_spec ((size_of dt * size_prod ss) mod 2 ^ 64) alloc_max); [lia|]. done.
Qed.
Lemma too_large_throws h o dt ss : requested o = Some (dt, ss) -> alloc_max < (size_of dt * size_prod ss) mod 2 ^ 64 ->
  exists h', exec o h = (Throw BadAlloc, h') /\ extends h h'.
Proof.
  intros Ho Hb.
  assert (forall A (k : nat -> E A) h, bind (create dt (contig ss) true) k h = (Throw BadAlloc, h)) as Hc.
  { intros A k h1. unfold bind. by rewrite create_too_large. }
  assert (forall nt v, exists h', new_handle (let! tmp := create_scalar nt v in fill_new ss dt tmp nt) h = (Throw BadAlloc, h') /\ extends h h') as Hf.
  { intros nt v. rewrite new_handle_eq. erewrite bind_ok by apply create_scalar_ok. unfold fill_new. rewrite Hc. eexists. split; [done|]. apply alloc_extends. }
  destruct o; cbn [requested] in Ho; try done; try (injection Ho as <- <-); cbn [exec].
  - rewrite new_handle_eq, create_too_large by done. by exists h.
  - exists h. split; [|done]. rewrite new_handle_eq. unfold zeros. by rewrite Hc.
  - apply Hf.
  - apply Hf.
  - apply Hf.
  - exists h. split; [|done]. rewrite new_handle_eq. unfold eye. by rewrite Hc.
  - exists h. split; [|done]. rewrite new_handle_eq. unfold from_blob. by rewrite Hc.
  - destruct dt0; try done. injection Ho as <- <-. exists h. split; [|done]. rewrite new_handle_eq. unfold op_randn.
    erewrite bind_ok by reflexivity. by rewrite Hc.
Qed.
(** otherwise the buffer has the remainder of the bytes *)
Lemma new_wraps h dt ss : (size_of dt * size_prod ss) mod 2 ^ 64 <= alloc_max ->
  exists t h' r x cs, exec (ONew ss dt) h = (Ok (RHandle (Some t)), h') /\ h_ten h' !! t = Some r /\ shape r = ss /\
    h_sto h' !! t_sto r = Some x /\ sto_blob x = Some cs /\
    Z.of_nat (length cs) = (size_of dt * size_prod ss) mod 2 ^ 64 / size_of dt.
Proof.
  intros Hb. pose proof (size_of_pos dt). cbn [exec]. rewrite new_handle_eq. unfold create. rewrite create_bytes. unfold new_blob.
  destruct (Z.leb_spec ((size_of dt * size_prod ss) mod 2 ^ 64) alloc_max); [|lia]. cbn.
  eexists _, _, _, _, _. split; [reflexivity|]. cbn. split; [by rewrite lookup_app_r, Nat.sub_diag by lia|]. split; [done|].
  split; [cbn; by rewrite lookup_app_r, Nat.sub_diag by lia|]. split; [done|]. unfold fresh_cells. rewrite replicate_length, Z2Nat.id; [done|].
  apply Z.div_pos; [apply Z.mod_pos_bound|]; lia.
Qed.
End with_fops.
