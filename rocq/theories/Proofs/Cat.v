(** cat *)
From Verif.Proofs Require Export Abs.
From Verif.Spec Require Export Cat.

Lemma total_nonneg ns : Forall (fun n => 0 <= n) ns -> 0 <= total_len ns.
Proof. induction 1; simpl; lia. Qed.
Lemma owner_prefix pre n post i :
  Forall (fun n => 0 <= n) pre -> 0 <= i < n -> owner (pre ++ n :: post) (total_len pre + i) = (length pre, i).
Proof.
  induction 1 as [|m pre Hm Hp IH]; intros Hi; cbn [app owner total_len fold_right length].
  - destruct (Z.ltb_spec (0 + i) n); [f_equal; lia|lia].
  - pose proof (total_nonneg _ Hp). fold (total_len pre).
    destruct (Z.ltb_spec (m + total_len pre + i) m); [lia|].
    replace (m + total_len pre + i - m) with (total_len pre + i) by lia. by rewrite IH.
Qed.
Lemma owner_spec ns i :
  Forall (fun n => 0 <= n) ns -> 0 <= i < total_len ns ->
  exists n, ns !! (owner ns i).1 = Some n /\ 0 <= (owner ns i).2 < n /\
    i = total_len (take (owner ns i).1 ns) + (owner ns i).2.
Proof.
  intros H. revert i. induction H as [|n ns Hn Hns IH]; intros i Hi; cbn [owner]; [simpl in Hi; lia|].
  simpl in Hi. fold (total_len ns) in Hi.
  destruct (Z.ltb_spec i n) as [Hl|Hl]; [exists n; simpl; split; [done|lia]|].
  destruct (IH (i - n)) as (m & H1 & H2 & H3); [lia|]. destruct (owner ns (i - n)) as [k j].
  exists m. simpl in *. split; [done|]. split; [done|]. fold (total_len (take k ns)). lia.
Qed.
Lemma total_app a b : total_len (a ++ b) = total_len a + total_len b.
Proof. induction a; simpl; [done|]. fold (total_len (a0 ++ b)). fold (total_len a0). lia. Qed.

Lemma dot_shift st idx d s i :
  (d < length st)%nat -> idx !! d = Some i ->
  dot st (<[d := i + s]> idx) = dot st idx + nth d st 0 * s.
Proof.
  revert idx d. induction st as [|x st IH]; intros idx d Hd Hi; [simpl in Hd; lia|].
  destruct idx as [|y idx]; [done|]. destruct d as [|d].
  - simpl in Hi. injection Hi as ->. simpl. lia.
  - simpl in Hi, Hd. change (<[S d := i + s]> (y :: idx)) with (y :: <[d := i + s]> idx).
    cbn [dot nth]. rewrite (IH idx d) by (done || lia). lia.
Qed.

Section with_fops.
Context {fo : FOps}.

Lemma get_all_ok h ts rs :
  Forall2 (fun t r => h_ten h !! t = Some r) ts rs -> get_all ts h = (Ok rs, h).
Proof.
  induction 1 as [|t r ts rs Ht _ IH]; [done|]. cbn [get_all].
  erewrite bind_ok by (by apply get_ten_ok). erewrite bind_ok by exact IH. done.
Qed.

Lemma cat_compatible_spec d s0 s : cat_compatible d s0 s = true <-> same_but d s0 s.
Proof.
  unfold cat_compatible, same_but. rewrite andb_true_iff, Nat.eqb_eq, forallb_forall. split.
  - intros [Hl H]. split; [done|]. intros j Hj. destruct (decide (j < length s0)%nat) as [Hlt|Hge].
    + specialize (H j). rewrite in_seq, orb_true_iff, Nat.eqb_eq, Z.eqb_eq in H.
      destruct H as [?|H]; [lia|done|].
      destruct (lookup_lt_is_Some_2 s0 j Hlt) as [x Hx].
      destruct (lookup_lt_is_Some_2 s j) as [y Hy]; [lia|].
      rewrite (nth_lookup_Some _ _ _ _ Hx), (nth_lookup_Some _ _ _ _ Hy) in H. congruence.
    + rewrite !lookup_ge_None_2; [done|lia..].
  - intros [Hl H]. split; [done|]. intros j Hj%in_seq. rewrite orb_true_iff, Nat.eqb_eq, Z.eqb_eq.
    destruct (decide (j = d)) as [->|Hne]; [by left|right].
    rewrite !nth_lookup. by rewrite H.
Qed.

Lemma cpp_cvt_up S D v : has_ty S v -> dt_join S D = D -> exists w, cpp_cvt S D v = Some w.
Proof.
  unfold cpp_cvt. intros Hv Hj. destruct (floating D) eqn:E; [by eexists|].
  destruct v as [z|f]; [by eexists|]. apply has_ty_float in Hv. by destruct S, D.
Qed.

Lemma laid_rm dt ss w (cs : list cell) :
  allocable dt ss -> length cs = Z.to_nat (size_prod ss) ->
  (forall idx, in_range ss idx -> cs !! Z.to_nat (row_major ss idx) = Some (Some (w idx))) ->
  cs = rm_cells ss w.
Proof.
  intros Ha Hl H. pose proof (allocable_nonneg _ _ Ha) as Hn.
  apply list_eq. intros i. destruct (decide (i < length cs)%nat) as [Hi|Hi].
  - destruct (lookup_lt_is_Some_2 (indices ss) i) as [idx Hidx].
    { rewrite Hl in Hi. pose proof (length_indices ss Hn). lia. }
    destruct (indices_lookup_inv ss i idx Hn Hidx) as [Hr Hrm].
    unfold rm_cells. rewrite list_lookup_fmap, Hidx. simpl.
    rewrite <- (H idx Hr), Hrm, Nat2Z.id. done.
  - rewrite !lookup_ge_None_2; [done| |lia]. rewrite rm_cells_length by done. lia.
Qed.

Lemma insert_in_range d ss idx n i :
  in_range ss idx -> 0 <= i < n -> in_range (<[d := n]> ss) (<[d := i]> idx).
Proof.
  intros H Hi. unfold in_range in *. revert d. induction H as [|a b ss idx Hab Hr IH]; intros d.
  - destruct d; constructor.
  - destruct d as [|d]; simpl; constructor; auto.
Qed.
Lemma same_but_insert d s0 s n : same_but d s0 s -> (d < length s0)%nat ->
  nth d s 0 = n -> s = <[d := n]> s0.
Proof.
  intros [Hl H] Hd Hn. apply list_eq. intros j. destruct (decide (j = d)) as [->|Hne].
  - rewrite list_lookup_insert by done. destruct (lookup_lt_is_Some_2 s d) as [x Hx]; [lia|].
    rewrite Hx. by rewrite (nth_lookup_Some _ _ _ _ Hx) in Hn; subst.
  - rewrite list_lookup_insert_ne by done. auto.
Qed.

(** ** copying the inputs *)
Section copy.
Variable (h : heap) (D : dtype) (d : nat) (ss : list Z) (w : list Z -> val).
Notation H cs := (alloc_heap h D (contig ss) cs false None).

(** positions below [soff] along [d] are done *)
Definition cat_inv (soff : Z) (cs : list cell) : Prop :=
  length cs = Z.to_nat (size_prod ss) /\
  forall idx i, in_range ss idx -> idx !! d = Some i -> i < soff ->
    cs !! Z.to_nat (row_major ss idx) = Some (Some (w idx)).

Lemma cat_one r v soff n tot cs :
  allocable D ss -> (d < length ss)%nat -> ss !! d = Some tot ->
  holds h r v -> sizes (t_lay r) = <[d := n]> ss -> 0 <= soff -> 0 <= n -> soff + n <= tot ->
  (forall sv i, in_range (sizes (t_lay r)) sv -> sv !! d = Some i ->
     cpp_cvt (t_dt r) D (v sv) = Some (w (<[d := i + soff]> sv))) ->
  cat_inv soff cs ->
  exists cs', cat_inv (soff + n) cs' /\
    tensor_cat D (t_dt r) (fresh_rec h D (contig ss) false None) r
      (u64 (soff * nth d (contig_strides ss) 0)) (H cs) = (Ok tt, H cs').
Proof.
  intros Ha Hd Htot Hh Hs Hsoff Hn Hle Hw [Hlen Hinv].
  pose proof (allocable_lt63 _ _ Ha) as H63. pose proof (allocable_prod _ _ Ha) as Hp.
  unfold tensor_cat. rewrite for_each_run by (by eapply holds_nonneg).
  set (shift := fun sv => <[d := nth d sv 0 + soff]> sv).
  assert (forall sv, in_range (sizes (t_lay r)) sv ->
    exists i, sv !! d = Some i /\ 0 <= i < n /\ shift sv = <[d := i + soff]> sv /\
      in_range ss sv /\ in_range ss (shift sv) /\
      row_major ss (shift sv) = row_major ss sv + nth d (contig_strides ss) 0 * soff) as Hsv.
  { intros sv Hi. pose proof (in_range_length _ _ Hi) as Hl. rewrite Hs, insert_length in Hl.
    destruct (lookup_lt_is_Some_2 sv d) as [i Hdi]; [lia|].
    assert (0 <= i < n).
    { eapply (in_range_lookup _ _ d n i Hi); [|done]. rewrite Hs. by apply list_lookup_insert. }
    assert (shift sv = <[d := i + soff]> sv) as Hsh.
    { unfold shift. by rewrite (nth_lookup_Some _ _ _ _ Hdi). }
    assert (in_range ss sv) as Hr1.
    { replace sv with (<[d := i]> sv) by (by apply list_insert_id).
      replace ss with (<[d := tot]> (<[d := n]> ss)) by (rewrite list_insert_insert; by apply list_insert_id).
      apply insert_in_range; [by rewrite <- Hs|lia]. }
    assert (in_range ss (shift sv)) as Hr2.
    { rewrite Hsh. replace ss with (<[d := tot]> ss) by (by apply list_insert_id).
      apply insert_in_range; [done|lia]. }
    exists i. do 5 (split; [done|]). rewrite <- (pos_contig ss (shift sv)), <- (pos_contig ss sv) by done.
    unfold pos. rewrite Hsh. cbn [strides contig].
    rewrite (dot_shift _ _ _ _ _ ltac:(by rewrite length_contig_strides) Hdi). lia. }
  lazymatch goal with |- exists _, _ /\ mapM_ ?b ?l ?s = _ =>
    destruct (mapM_run b (fun pre hh => exists cs', hh = H cs' /\ length cs' = Z.to_nat (size_prod ss) /\
      (forall idx i, in_range ss idx -> idx !! d = Some i -> i < soff \/ (exists sv, sv ∈ pre /\ idx = shift sv) ->
        cs' !! Z.to_nat (row_major ss idx) = Some (Some (w idx)))) (fun _ => True) (fun _ _ _ => False) l s)
      as [(_ & s' & Hr & cs' & -> & Hl' & Hc)|(? & ? & ? & _ & _ & _ & [])]
  end.
  - exists cs. split; [done|]. split; [done|]. intros idx i Hi Hd' [Hlt|(sv & Hsv' & _)]; [eauto|].
    inversion Hsv'.
  - intros pre x post s Hspl (c & -> & Hlc & Hc). left. split; [done|].
    destruct (elem_in_split _ _ _ _ Hspl) as [Hpre Hx].
    destruct (Hsv x Hx) as (i & Hdi & Hi & Hsh & Hr1 & Hr2 & Hrm).
    exists (H (<[Z.to_nat (row_major ss (shift x)) := Some (w (shift x))]> c)). split.
    + erewrite bind_ok.
      2:{ eapply holds_exact; [|exact Hx]. eapply holds_extends; [apply alloc_extends|exact Hh]. }
      erewrite bind_ok.
      2:{ eapply (proj1 (backed_idx _ _ c x (alloc_backed h D ss c false None Ha Hlc) Hr1)). }
      cbn [t_lay fresh_rec]. rewrite pos_contig by done.
      assert (u64 (u64 (soff * nth d (contig_strides ss) 0) + row_major ss x) = row_major ss (shift x)) as ->.
      { unfold u64. rewrite Zplus_mod_idemp_l. fold (u64 (soff * nth d (contig_strides ss) 0 + row_major ss x)).
        rewrite Hrm. rewrite <- (u64_id (row_major ss x + nth d (contig_strides ss) 0 * soff)).
        - f_equal. ring.
        - rewrite <- Hrm. pose proof (row_major_bounds _ _ Hr2). unfold two63, two64 in *. lia. }
      erewrite store_cvt_eq.
      2:{ apply alloc_sto. } 2:{ pose proof (row_major_bounds _ _ Hr2). lia. }
      rewrite cvt_cpp, (Hw x i Hx Hdi). rewrite <- Hsh. f_equal.
      apply (alloc_put h D (contig ss)).
    + eexists. split; [done|]. split; [by rewrite insert_length|].
      intros idx j Hidx Hj Hor.
      destruct (decide (idx = shift x)) as [->|Hne].
      * apply list_lookup_insert. pose proof (row_major_bounds _ _ Hr2). lia.
      * rewrite list_lookup_insert_ne.
        -- apply (Hc idx j); [done..|]. destruct Hor as [?|(sv & Hsv' & ->)]; [by left|].
           right. apply elem_of_app in Hsv' as [?|Hsv'%elem_of_list_singleton]; [by eauto|]. by subst.
        -- intros Heq. apply Hne. apply (row_major_inj ss); [done..|].
           pose proof (row_major_bounds _ _ Hr2). pose proof (row_major_bounds _ _ Hidx). lia.
  - exists cs'. split; [|exact Hr]. split; [done|]. intros idx i Hidx Hi Hlt.
    apply (Hc idx i Hidx Hi). destruct (Z.lt_ge_cases i soff) as [?|Hge]; [by left|]. right.
    exists (<[d := i - soff]> idx). split.
    + apply elem_of_indices. rewrite Hs. apply insert_in_range; [done|lia].
    + unfold shift. pose proof (lookup_lt_Some _ _ _ Hi).
      rewrite (nth_lookup_Some _ _ 0 (i - soff)) by (by apply list_lookup_insert).
      rewrite list_insert_insert. symmetry. apply list_insert_id. rewrite Hi. f_equal. lia.
Qed.

Lemma cat_many (rs : list tensor) (vs : list (list Z -> val)) soff tot cs :
  allocable D ss -> (d < length ss)%nat -> ss !! d = Some tot -> tot < two64 -> 0 <= soff ->
  Forall2 (fun r v => holds h r v /\ exists n, 0 <= n /\ sizes (t_lay r) = <[d := n]> ss) rs vs ->
  soff + total_len (sizes_along d rs) <= tot ->
  (forall k r v sv i, rs !! k = Some r -> vs !! k = Some v -> in_range (sizes (t_lay r)) sv -> sv !! d = Some i ->
     cpp_cvt (t_dt r) D (v sv) =
       Some (w (<[d := i + (soff + total_len (take k (sizes_along d rs)))]> sv))) ->
  cat_inv soff cs ->
  exists cs', cat_inv (soff + total_len (sizes_along d rs)) cs' /\
    cat_copy D d (fresh_rec h D (contig ss) false None) rs soff (H cs) = (Ok tt, H cs').
Proof.
  intros Ha Hd Htot H64 Hs0 Hrs. revert soff cs Hs0.
  induction Hrs as [|r v rs vs (Hh & n & Hn & Hsz) Hrs IH]; intros soff cs Hs0 Hle Hw Hinv.
  - exists cs. simpl. rewrite Z.add_0_r. done.
  - cbn [cat_copy sizes_along map total_len fold_right] in *.
    fold (sizes_along d rs) in *. fold (total_len (sizes_along d rs)) in *.
    assert (nth d (shape r) 0 = n) as Hnd.
    { unfold shape. rewrite Hsz. apply nth_lookup_Some. by apply list_lookup_insert. }
    rewrite Hnd in Hle.
    assert (0 <= total_len (sizes_along d rs)) as Htl.
    { apply total_nonneg. unfold sizes_along. apply Forall_map. apply Forall_forall. intros r' Hr'.
      apply elem_of_list_lookup in Hr' as [k Hk]. destruct (Forall2_lookup_l _ _ _ _ _ Hrs Hk) as (v' & _ & _ & m & Hm & Hs).
      unfold shape. rewrite Hs. rewrite (nth_lookup_Some _ _ _ m); [done|]. by apply list_lookup_insert. }
    destruct (cat_one r v soff n tot cs) as (cs1 & Hinv1 & Hrun); try done; [lia| |].
    { intros sv i Hi Hsv. rewrite (Hw 0%nat r v sv i eq_refl eq_refl Hi Hsv). do 3 f_equal. simpl. lia. }
    cbn [strides t_lay fresh_rec contig]. erewrite bind_ok by exact Hrun.
    unfold shape in Hnd. rewrite Hnd. rewrite u64_id by lia.
    destruct (IH (soff + n) cs1) as (cs2 & Hinv2 & Hrun2); [lia|lia| |done|].
    { intros k r' v' sv i Hk Hkv Hi Hsv. rewrite (Hw (S k) r' v' sv i Hk Hkv Hi Hsv). do 3 f_equal.
      simpl. fold (total_len (take k (sizes_along d rs))). unfold shape. rewrite Hnd. lia. }
    exists cs2. split; [|exact Hrun2]. unfold shape. rewrite Hnd. by rewrite Z.add_assoc.
Qed.
End copy.

Lemma fold_join_le (l : list tensor) a :
  dt_join a (fold_left (fun t r => dt_join t (t_dt r)) l a) = fold_left (fun t r => dt_join t (t_dt r)) l a /\
  forall r, r ∈ l -> dt_join (t_dt r) (fold_left (fun t r => dt_join t (t_dt r)) l a) = fold_left (fun t r => dt_join t (t_dt r)) l a.
Proof.
  revert a. induction l as [|x l IH]; intros a; cbn [fold_left].
  - split; [by destruct a|]. intros r Hr. inversion Hr.
  - destruct (IH (dt_join a (t_dt x))) as [H1 H2].
    set (f := fold_left _ _ _) in *. clearbody f. split.
    + destruct a, (t_dt x), f; done.
    + intros r [->|Hr]%elem_of_cons; [|auto]. destruct a, (t_dt x), f; done.
Qed.

Definition cat_fn (rg : bool) (dim : Z) (ts : list nat) : option gradfn :=
  if rg then Some (Gfn (CatBack dim) ts 0 0 0) else None.

Lemma fold_u64_total (rs : list tensor) d a :
  0 <= a -> Forall (fun n => 0 <= n) (sizes_along d rs) -> a + total_len (sizes_along d rs) < two64 ->
  fold_left (fun n r => u64 (n + nth d (sizes (t_lay r)) 0)) rs a = a + total_len (sizes_along d rs).
Proof.
  revert a. induction rs as [|r rs IH]; intros a Ha Hf Hlt; cbn [fold_left]; [simpl; lia|].
  cbn [sizes_along map total_len fold_right] in *. fold (sizes_along d rs) in *. fold (total_len (sizes_along d rs)) in *.
  apply Forall_cons_1 in Hf as [H0 Hf]. pose proof (total_nonneg _ Hf). unfold shape in *.
  rewrite u64_id by lia. rewrite IH by (done || lia). lia.
Qed.
Lemma fold_larger (l : list tensor) a :
  fold_left (fun t r => larger_type t (t_dt r)) l a = fold_left (fun t r => dt_join t (t_dt r)) l a.
Proof. revert a. induction l as [|r l IH]; intros a; cbn [fold_left]; [done|]. by rewrite larger_join. Qed.

(** the element of the concatenation at [idx] *)
Definition cat_elem (D : dtype) (d : nat) (rs : list tensor) (vs : list (list Z -> val)) (idx : list Z) : option val :=
  let '(k, j) := owner (sizes_along d rs) (nth d idx 0) in
  match rs !! k, vs !! k with
  | Some r, Some v => cpp_cvt (t_dt r) D (v (<[d := j]> idx))
  | _, _ => None
  end.

Lemma cat_ok h ts rs vs r0 rest dim (d := Z.to_nat dim) :
  Forall2 (fun t r => h_ten h !! t = Some r) ts rs -> Forall2 (holds h) rs vs -> rs = r0 :: rest ->
  0 <= dim < Z.of_nat (length (shape r0)) ->
  Forall (fun r => same_but d (shape r0) (shape r)) rs ->
  Forall (fun n => n < two64) (cat_shape d r0 rs) -> fits (cat_type r0 rs) (cat_shape d r0 rs) ->
  exists w,
    (forall idx, in_range (cat_shape d r0 rs) idx -> cat_elem (cat_type r0 rs) d rs vs idx = Some (w idx)) /\
    op_cat ts dim h = (Ok (length (h_ten h)),
      alloc_heap h (cat_type r0 rs) (contig (cat_shape d r0 rs)) (rm_cells (cat_shape d r0 rs) w)
        (existsb t_rg rs) (cat_fn (existsb t_rg rs) dim ts)).
Proof.
  intros Hts Hvs Hrs Hdim Hsame H64 Hf.
  set (D := cat_type r0 rs) in *. set (ss := cat_shape d r0 rs) in *. set (tot := total_len (sizes_along d rs)) in *.
  assert (d < length (shape r0))%nat as Hd by (unfold d; lia).
  assert (length ss = length (shape r0)) as Hlss by (unfold ss, cat_shape; apply insert_length).
  assert (ss !! d = Some tot) as Hssd by (unfold ss, cat_shape; by apply list_lookup_insert).
  assert (forall r, r ∈ rs -> exists v, holds h r v) as Hhold.
  { intros r [k Hk]%elem_of_list_lookup. destruct (Forall2_lookup_l _ _ _ _ _ Hvs Hk) as (v & _ & Hv). eauto. }
  assert (forall r, r ∈ rs -> 0 <= nth d (shape r) 0) as Hnn.
  { intros r Hr. destruct (Hhold r Hr) as [v Hv]. apply holds_nonneg in Hv.
    rewrite Forall_forall in Hsame. destruct (Hsame r Hr) as [Hl _].
    destruct (lookup_lt_is_Some_2 (shape r) d) as [x Hx]; [lia|]. rewrite (nth_lookup_Some _ _ _ _ Hx).
    rewrite Forall_lookup in Hv. by eapply Hv. }
  assert (Forall (fun n => 0 <= n) (sizes_along d rs)) as Hnns.
  { unfold sizes_along. apply Forall_map, Forall_forall. done. }
  pose proof (total_nonneg _ Hnns) as Ht0. fold tot in Ht0.
  assert (tot < two64) as Htot64. { rewrite Forall_lookup in H64. by eapply H64. }
  assert (r0 ∈ rs) as Hr0 by (rewrite Hrs; left).
  assert (allocable D ss) as Ha.
  { split; [|done]. apply Forall_lookup. intros k n Hk. split.
    - destruct (decide (k = d)) as [->|Hne]; [rewrite Hssd in Hk; injection Hk as <-; done|].
      unfold ss, cat_shape in Hk. rewrite list_lookup_insert_ne in Hk by done.
      destruct (Hhold r0 Hr0) as [v Hv]. apply holds_nonneg in Hv. rewrite Forall_lookup in Hv. by eapply Hv.
    - rewrite Forall_lookup in H64. by eapply H64. }
  assert (forall r, r ∈ rs -> sizes (t_lay r) = <[d := nth d (shape r) 0]> ss) as Hsz.
  { intros r Hr. unfold ss, cat_shape. rewrite list_insert_insert. rewrite Forall_forall in Hsame.
    apply (same_but_insert d (shape r0) (shape r)); [by apply Hsame|done|done]. }
  (* the values *)
  assert (exists w, forall idx, in_range ss idx -> cat_elem D d rs vs idx = Some (w idx)) as [w Hw].
  { exists (fun idx => match cat_elem D d rs vs idx with Some v => v | None => VI 0 end).
    intros idx Hi. pose proof (in_range_length _ _ Hi) as Hl.
    destruct (lookup_lt_is_Some_2 idx d) as [i Hdi]; [lia|].
    assert (0 <= i < tot) as Hit by (by eapply (in_range_lookup _ _ d)).
    assert (is_Some (cat_elem D d rs vs idx)) as [x Hx].
    { unfold cat_elem. rewrite (nth_lookup_Some _ _ _ _ Hdi).
      destruct (owner_spec _ _ Hnns Hit) as (n & Hn & Hj & _). destruct (owner _ i) as [k j]. cbn [fst snd] in *.
      unfold sizes_along in Hn. rewrite list_lookup_fmap in Hn. destruct (rs !! k) as [r|] eqn:Hk; [|done].
      simpl in Hn. injection Hn as Hn.
      destruct (Forall2_lookup_l _ _ _ _ _ Hvs Hk) as (v & Hvk & Hv). rewrite Hvk.
      apply elem_of_list_lookup_2 in Hk. apply cpp_cvt_up.
      - eapply Hv. rewrite (Hsz r Hk). apply insert_in_range; [done|lia].
      - by apply fold_join_le. }
    by rewrite Hx. }
  exists w. split; [done|].
  unfold op_cat. erewrite bind_ok by (by apply get_all_ok). subst rs.
  assert ((0 <=? dim) && (dim <? Z.of_nat (length (sizes (t_lay r0)))) = true) as Hc.
  { unfold shape in Hdim. lia. }
  rewrite Hc. erewrite bind_ok by done. fold d.
  assert (forallb (fun r => cat_compatible d (sizes (t_lay r0)) (sizes (t_lay r))) rest = true) as Hcc.
  { apply forallb_forall. intros r Hr. apply cat_compatible_spec. rewrite Forall_forall in Hsame.
    apply Hsame. right. by apply elem_of_list_In. }
  rewrite Hcc. erewrite bind_ok by done.
  rewrite fold_u64_total by (done || fold tot; lia). rewrite fold_larger.
  fold (cat_type r0 (r0 :: rest)). fold D. rewrite Z.add_0_l.
  change (<[d := total_len (sizes_along d (r0 :: rest))]> (sizes (t_lay r0))) with ss.
  erewrite bind_ok by (by apply create_ok). erewrite bind_ok by (apply get_ten_ok, alloc_ten).
  destruct (cat_many h D d ss w (r0 :: rest) vs 0 tot (raw_cells ss)) as (cs' & [Hlc Hcs] & Hrun); try done.
  - lia.
  - apply Forall2_same_length_lookup. split; [by eapply Forall2_length|].
    intros k r v Hk Hkv. destruct (Forall2_lookup_lr _ _ _ _ _ _ Hvs Hk Hkv). split; [done|].
    exists (nth d (shape r) 0). apply elem_of_list_lookup_2 in Hk. split; [by apply Hnn|]. by apply Hsz.
  - intros k r v sv i Hk Hkv Hi Hsv. rewrite Z.add_0_l.
    pose proof (elem_of_list_lookup_2 _ _ _ Hk) as Hrk.
    assert (sizes_along d (r0 :: rest) !! k = Some (nth d (shape r) 0)) as Hnk.
    { unfold sizes_along. by rewrite list_lookup_fmap, Hk. }
    set (pre := take k (sizes_along d (r0 :: rest))).
    assert (sizes_along d (r0 :: rest) = pre ++ nth d (shape r) 0 :: drop (S k) (sizes_along d (r0 :: rest))) as Hsp.
    { symmetry. by apply take_drop_middle. }
    assert (Forall (fun n => 0 <= n) pre) as Hpre by (by apply Forall_take).
    assert (0 <= i < nth d (shape r) 0) as Hin.
    { eapply (in_range_lookup _ _ d); [exact Hi| |exact Hsv]. rewrite (Hsz r Hrk). apply list_lookup_insert. lia. }
    pose proof (total_nonneg _ Hpre) as Htp.
    assert (total_len pre + nth d (shape r) 0 <= tot) as Hle.
    { unfold tot. rewrite Hsp, total_app. cbn [total_len fold_right].
      assert (0 <= total_len (drop (S k) (sizes_along d (r0 :: rest)))) by (by apply total_nonneg, Forall_drop).
      unfold total_len in *. lia. }
    assert (in_range ss (<[d := i + total_len pre]> sv)) as Hr.
    { replace ss with (<[d := tot]> (<[d := nth d (shape r) 0]> ss))
        by (rewrite list_insert_insert; by apply list_insert_id).
      apply insert_in_range; [by rewrite <- (Hsz r Hrk)|lia]. }
    rewrite <- (Hw _ Hr). unfold cat_elem.
    pose proof (lookup_lt_Some _ _ _ Hsv).
    rewrite (nth_lookup_Some _ _ 0 (i + total_len pre)) by (by apply list_lookup_insert).
    rewrite Hsp, Z.add_comm, owner_prefix by done.
    assert (length pre = k) as ->. { unfold pre. rewrite take_length. apply lookup_lt_Some in Hnk. lia. }
    rewrite Hk, Hkv. do 2 f_equal. rewrite list_insert_insert. symmetry. by apply list_insert_id.
  - split; [apply replicate_length|]. intros idx i Hi Hdi Hlt.
    exfalso. assert (0 <= i < tot) by (by eapply (in_range_lookup _ _ d)). lia.
  - erewrite bind_ok by exact Hrun.
    rewrite (laid_rm D ss w cs' Ha Hlc).
    2:{ intros idx Hi. pose proof (in_range_length _ _ Hi) as Hl.
        destruct (lookup_lt_is_Some_2 idx d) as [i Hdi]; [lia|].
        apply (Hcs idx i Hi Hdi). assert (0 <= i < tot) by (by eapply (in_range_lookup _ _ d)). fold tot. lia. }
    unfold cat_fn. destruct (existsb t_rg (r0 :: rest)) eqn:E.
    + by rewrite alloc_track_bind.
    + done.
Qed.
End with_fops.
