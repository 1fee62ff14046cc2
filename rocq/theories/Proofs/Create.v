(** Fresh tensors, and loops that fill them. *)
From Verif.Proofs Require Export ElemLemmas.

Section with_fops.
Context {fo : FOps}.

(** [h] with one more storage and one more tensor on it *)
Definition fresh_rec (h : heap) (dt : dtype) (lay : layout) (rg : bool) (fn : option gradfn)
    : tensor := Ten dt lay (length (h_sto h)) None rg false fn.
Definition alloc_heap (h : heap) (dt : dtype) (lay : layout) (cs : list cell)
    (rg : bool) (fn : option gradfn) : heap :=
  Hp (h_sto h ++ [Sto dt (size_of dt * size_prod (sizes lay)) (Some cs)])
     (h_ten h ++ [fresh_rec h dt lay rg fn]) (h_ver h).

Lemma size_of_pos dt : 0 < size_of dt.
Proof. by destruct dt. Qed.
Lemma size_of_le dt : size_of dt <= 8.
Proof. by destruct dt. Qed.
Lemma alloc_max_lt : alloc_max < two63.
Proof. done. Qed.

(** what a shape must satisfy for its tensor to be allocated *)
Definition allocable (dt : dtype) (ss : list Z) : Prop :=
  Forall (fun n => 0 <= n < two64) ss /\ size_of dt * size_prod ss <= alloc_max.

Lemma allocable_nonneg dt ss : allocable dt ss -> Forall (fun n => 0 <= n) ss.
Proof. intros [H _]. eapply Forall_impl; [exact H|]. simpl. lia. Qed.
Lemma allocable_prod dt ss : allocable dt ss -> 0 <= size_prod ss <= alloc_max.
Proof.
  intros H. pose proof (allocable_nonneg _ _ H) as Hn. apply size_prod_nonneg in Hn.
  destruct H as [_ H]. pose proof (size_of_pos dt). nia.
Qed.
Lemma allocable_numel dt ss : allocable dt ss -> numel_of ss = size_prod ss.
Proof.
  intros H. pose proof (allocable_prod _ _ H). pose proof alloc_max_lt.
  apply numel_of_exact; [by eapply allocable_nonneg|]. pose proof two63_64. unfold two63 in *. lia.
Qed.

Lemma create_ok h dt lay :
  allocable dt (sizes lay) ->
  create dt lay true h =
    (Ok (length (h_ten h)),
     alloc_heap h dt lay (replicate (Z.to_nat (size_prod (sizes lay))) None) false None).
Proof.
  intros Ha. pose proof (allocable_prod _ _ Ha). pose proof (size_of_pos dt).
  unfold create, lnumel. rewrite (allocable_numel _ _ Ha).
  assert (0 <= size_of dt * size_prod (sizes lay) <= alloc_max) as Hb by (destruct Ha; nia).
  rewrite u64_id by (unfold alloc_max, two64 in *; lia).
  unfold new_blob, bind, lift. destruct (Z.leb_spec (size_of dt * size_prod (sizes lay)) alloc_max); [|lia].
  unfold mret, new_sto, create_view, new_ten, alloc_heap, fresh_rec, fresh_cells. simpl.
  replace (size_of dt * size_prod (sizes lay) / size_of dt) with (size_prod (sizes lay)); [done|].
  rewrite Z.mul_comm, Z.div_mul by lia. done.
Qed.

Lemma alloc_ten h dt lay cs rg fn :
  h_ten (alloc_heap h dt lay cs rg fn) !! length (h_ten h) = Some (fresh_rec h dt lay rg fn).
Proof. simpl. rewrite lookup_app_r, Nat.sub_diag by lia. done. Qed.
Lemma alloc_ten_old h dt lay cs rg fn t r :
  h_ten h !! t = Some r -> h_ten (alloc_heap h dt lay cs rg fn) !! t = Some r.
Proof. intros. simpl. by apply lookup_app_l_Some. Qed.
Lemma alloc_sto h dt lay cs rg fn :
  h_sto (alloc_heap h dt lay cs rg fn) !! length (h_sto h) =
    Some (Sto dt (size_of dt * size_prod (sizes lay)) (Some cs)).
Proof. simpl. rewrite lookup_app_r, Nat.sub_diag by lia. done. Qed.
Lemma alloc_sto_old h dt lay cs rg fn s x :
  h_sto h !! s = Some x -> h_sto (alloc_heap h dt lay cs rg fn) !! s = Some x.
Proof. intros. simpl. by apply lookup_app_l_Some. Qed.
Lemma alloc_extends h dt lay cs rg fn : extends h (alloc_heap h dt lay cs rg fn).
Proof. apply extends_app. Qed.
Lemma alloc_put h dt lay cs rg fn cs' :
  put (alloc_heap h dt lay cs rg fn) (length (h_sto h))
    (Sto dt (size_of dt * size_prod (sizes lay)) (Some cs')) = alloc_heap h dt lay cs' rg fn.
Proof.
  unfold put, alloc_heap. simpl. f_equal.
  rewrite insert_app_r_alt, Nat.sub_diag by lia. done.
Qed.
Lemma alloc_track h dt lay cs rg fn k ins :
  track (length (h_ten h)) k ins (alloc_heap h dt lay cs rg fn) =
    (Ok tt, alloc_heap h dt lay cs true (Some (Gfn k ins 0 0 0))).
Proof.
  unfold track. erewrite bind_ok by (apply get_ten_ok, alloc_ten).
  unfold set_ten, alloc_heap. simpl. do 2 f_equal.
  rewrite insert_app_r_alt, Nat.sub_diag by lia. done.
Qed.
Lemma alloc_track_bind {B} h dt lay cs rg fn k ins (f : unit -> E B) :
  bind (track (length (h_ten h)) k ins) f (alloc_heap h dt lay cs rg fn) =
    f tt (alloc_heap h dt lay cs true (Some (Gfn k ins 0 0 0))).
Proof. erewrite bind_ok; [done|apply alloc_track]. Qed.

(** the cells of a row-major array *)
Definition rm_cells (ss : list Z) (w : list Z -> val) : list cell :=
  map (fun idx => Some (w idx)) (indices ss).
Lemma rm_cells_length ss w :
  Forall (fun n => 0 <= n) ss -> length (rm_cells ss w) = Z.to_nat (size_prod ss).
Proof.
  intros. unfold rm_cells. rewrite map_length.
  rewrite <- (length_indices ss) by done. lia.
Qed.
Lemma rm_cells_lookup ss w idx :
  in_range ss idx -> rm_cells ss w !! Z.to_nat (row_major ss idx) = Some (Some (w idx)).
Proof.
  intros H. unfold rm_cells. rewrite list_lookup_fmap, (indices_lookup ss idx) by done. done.
Qed.
Lemma rm_cells_ext ss w w' :
  (forall idx, in_range ss idx -> w idx = w' idx) -> rm_cells ss w = rm_cells ss w'.
Proof.
  intros H. apply map_ext_in. intros idx Hi. rewrite (H idx); [done|].
  by apply elem_of_indices, elem_of_list_In.
Qed.

Lemma contig_lay_ok ss : Forall (fun n => 0 <= n < two64) ss -> lay_ok (contig ss).
Proof. intros. split; [|done]. simpl. by rewrite length_contig_strides. Qed.
Lemma contig_lay_in ss :
  size_prod ss < two63 -> lay_in (contig ss) (size_prod ss).
Proof. intros Hs idx Hi. simpl in Hi. rewrite pos_contig by done. by apply row_major_bounds. Qed.
Lemma contig_lay_inj ss : size_prod ss < two63 -> lay_inj (contig ss).
Proof.
  intros Hs i j Hi Hj. simpl in Hi, Hj. rewrite !pos_contig by done. by apply row_major_inj.
Qed.

Lemma allocable_lt63 dt ss : allocable dt ss -> size_prod ss < two63.
Proof. intros H. pose proof (allocable_prod _ _ H). pose proof alloc_max_lt. lia. Qed.

Lemma alloc_backed h dt ss cs rg fn :
  allocable dt ss -> length cs = Z.to_nat (size_prod ss) ->
  backed (alloc_heap h dt (contig ss) cs rg fn) (fresh_rec h dt (contig ss) rg fn) cs.
Proof.
  intros Ha Hl. pose proof (allocable_prod _ _ Ha). pose proof (allocable_lt63 _ _ Ha).
  split; [eexists; apply alloc_sto|]. split; [by apply contig_lay_ok, Ha|].
  rewrite Hl, Z2Nat.id by lia. split; [|lia]. by apply contig_lay_in.
Qed.

Lemma alloc_holds h dt ss w rg fn :
  allocable dt ss -> (forall idx, in_range ss idx -> has_ty dt (w idx)) ->
  holds (alloc_heap h dt (contig ss) (rm_cells ss w) rg fn) (fresh_rec h dt (contig ss) rg fn) w.
Proof.
  intros Ha Hw. pose proof (allocable_nonneg _ _ Ha) as Hn.
  assert (backed (alloc_heap h dt (contig ss) (rm_cells ss w) rg fn)
    (fresh_rec h dt (contig ss) rg fn) (rm_cells ss w)) as Hb.
  { apply alloc_backed; [done|]. by apply rm_cells_length. }
  split; [by exists (rm_cells ss w)|]. simpl. intros idx Hi. split; [|by apply Hw].
  apply elem_lookup. exists (rm_cells ss w). split; [by eapply backed_cells|].
  change (t_lay (fresh_rec h dt (contig ss) rg fn)) with (contig ss).
  rewrite pos_contig by (done || by eapply allocable_lt63).
  split; [by apply row_major_bounds|]. by apply rm_cells_lookup.
Qed.

(** the cells a loop over a fresh buffer starts from *)
Definition raw_cells (ss : list Z) : list cell := replicate (Z.to_nat (size_prod ss)) None.

(** A loop over the indices of a fresh tensor that writes element [idx] of it from
    [g idx], for arbitrary previous contents. *)
Lemma fresh_loop h dt ss rg fn (body : list Z -> E unit) (g : list Z -> outcome val) cs0 :
  allocable dt ss -> length cs0 = Z.to_nat (size_prod ss) ->
  (forall idx cs, in_range ss idx -> length cs = Z.to_nat (size_prod ss) ->
     body idx (alloc_heap h dt (contig ss) cs rg fn) =
       match g idx with
       | Ok w => (Ok tt, alloc_heap h dt (contig ss)
                           (<[Z.to_nat (row_major ss idx) := Some w]> cs) rg fn)
       | Throw e => (Throw e, alloc_heap h dt (contig ss) cs rg fn)
       | UB u => (UB u, alloc_heap h dt (contig ss) cs rg fn)
       | Diverge => (Diverge, alloc_heap h dt (contig ss) cs rg fn)
       end) ->
  (exists w, (forall idx, in_range ss idx -> g idx = Ok (w idx)) /\
     for_each_sizevec ss body (alloc_heap h dt (contig ss) cs0 rg fn) =
       (Ok tt, alloc_heap h dt (contig ss) (rm_cells ss w) rg fn)) \/
  (exists o cs idx,
     for_each_sizevec ss body (alloc_heap h dt (contig ss) cs0 rg fn) =
       (o, alloc_heap h dt (contig ss) cs rg fn) /\
     in_range ss idx /\ same_err (g idx) o).
Proof.
  intros Ha Hl Hb. pose proof (allocable_nonneg _ _ Ha) as Hn.
  pose proof (allocable_prod _ _ Ha) as Hp.
  rewrite for_each_run by done.
  set (P := fun idx => Z.to_nat (row_major ss idx)).
  pose proof (loop_cells body (accf P (fun x _ => g x)) (alloc_heap h dt (contig ss) cs0 rg fn)
    (length (h_sto h)) dt (size_of dt * size_prod ss) (Z.to_nat (size_prod ss)) (indices ss))
    as Hloop.
  assert (forall cs, put (alloc_heap h dt (contig ss) cs0 rg fn) (length (h_sto h))
    (Sto dt (size_of dt * size_prod ss) (Some cs)) = alloc_heap h dt (contig ss) cs rg fn) as Hput.
  { intros cs. apply (alloc_put h dt (contig ss)). }
  assert (mapM_ body (indices ss) (alloc_heap h dt (contig ss) cs0 rg fn) =
    (fst (cfold (accf P (fun x _ => g x)) (indices ss) cs0),
     alloc_heap h dt (contig ss) (snd (cfold (accf P (fun x _ => g x)) (indices ss) cs0)) rg fn)) as Heq.
  { rewrite <- (Hput (snd _)). rewrite <- (Hput cs0) at 1.
    lazymatch goal with |- mapM_ _ _ (put ?a _ _) = _ =>
      change a with (alloc_heap h dt (contig ss) cs0 rg fn) end.
    rewrite Hloop; [done| | |done].
    - intros idx cs Hi Hc. rewrite !Hput. rewrite Hb; [|by apply elem_of_indices|done].
      unfold accf. destruct (g idx); simpl; try done. by rewrite Hput.
    - intros idx cs cs' _ Hc. unfold accf. destruct (g idx); simpl; try done.
      intros [= <-]. by rewrite insert_length. }
  rewrite Heq. clear Heq Hloop Hput.
  destruct (mapf_spec P g (indices ss) cs0) as [(cs' & Hf & Hlc & Hw & _)|(o & cs' & x & Hf & _ & Hx & He)].
  - apply NoDup_indices.
  - intros idx Hi%elem_of_indices. pose proof (row_major_bounds ss idx Hi). unfold P. lia.
  - intros x y Hx%elem_of_indices Hy%elem_of_indices Hxy. apply (row_major_inj ss); try done.
    pose proof (row_major_bounds ss x Hx). pose proof (row_major_bounds ss y Hy).
    unfold P in Hxy. lia.
  - left. exists (fun idx => match g idx with Ok w => w | _ => VI 0 end). split.
    { intros idx Hi%elem_of_indices. destruct (Hw idx Hi) as (w & -> & _). done. }
    rewrite Hf. simpl. f_equal. f_equal.
    apply list_eq. intros i. destruct (decide (i < length cs0)%nat) as [Hi|Hi].
    + destruct (lookup_lt_is_Some_2 (indices ss) i) as [idx Hidx].
      { rewrite Hl in Hi. pose proof (length_indices ss Hn). lia. }
      destruct (indices_lookup_inv ss i idx Hn Hidx) as [Hr Hrm].
      unfold rm_cells. rewrite list_lookup_fmap, Hidx. simpl.
      destruct (Hw idx) as (w & Hg & Hlk); [by apply elem_of_indices|].
      unfold P in Hlk. rewrite Hrm, Nat2Z.id in Hlk. by rewrite Hlk, Hg.
    + rewrite !lookup_ge_None_2; [done| |lia].
      rewrite rm_cells_length by done. lia.
  - right. exists o, cs', x. rewrite Hf. simpl. split; [done|]. split; [|done].
    by apply elem_of_indices.
Qed.
End with_fops.
