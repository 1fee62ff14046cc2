(** The pieces of a concatenation: summing over them, and reading one through a view. *)
From Verif.Proofs Require Export Bgeom Cat.
From Verif.Model Require Export Exact Api.
#[local] Existing Instance Exact.

Lemma sum_over_cons n ss f : sum_over (n :: ss) f = sumq (map (fun i => sum_over ss (fun idx => f (i :: idx))) (seqZ 0 n)).
Proof.
  unfold sum_over. cbn [indices]. induction (seqZ 0 n) as [|i l IH]; [done|]. cbn [flat_map map].
  rewrite map_app, sumq_app, IH, map_map. done.
Qed.
Lemma seqZ_split m n : 0 <= m -> 0 <= n -> seqZ 0 (m + n) = seqZ 0 m ++ map (fun i => i + m) (seqZ 0 n).
Proof.
  intros Hm Hn. rewrite (seqZ_app 0 m n) by done. f_equal. rewrite Z.add_0_l. unfold seqZ.
  change (map (fun i => i + m) ((fun k : nat => Z.of_nat k + 0) <$> seq 0 (Z.to_nat n))) with (map (fun i => i + m) (map (fun k : nat => Z.of_nat k + 0) (seq 0 (Z.to_nat n)))).
  rewrite map_map. apply map_ext. intros i. lia.
Qed.
Lemma sum_over_split dm ss m n f : (dm < length ss)%nat -> 0 <= m -> 0 <= n ->
  sum_over (<[dm := m + n]> ss) f = (sum_over (<[dm := m]> ss) f + sum_over (<[dm := n]> ss) (fun idx => f (<[dm := (nth dm idx 0 + m)%Z]> idx)))%Qc.
Proof.
  revert dm f. induction ss as [|k ss IH]; intros dm f Hd Hm Hn; [simpl in Hd; lia|]. destruct dm as [|dm].
  - cbn [insert list_insert]. rewrite !sum_over_cons, seqZ_split, map_app, sumq_app, map_map by done. done.
  - cbn [insert list_insert]. rewrite !sum_over_cons, <- sumq_add. apply sumq_ext. intros i _. cbv beta.
    etrans; [apply (IH dm (fun idx => f (i :: idx))); [simpl in Hd; lia|done..]|]. f_equal.
Qed.
Lemma sum_over_empty dm ss f : (dm < length ss)%nat -> sum_over (<[dm := 0]> ss) f = 0%Qc.
Proof.
  revert dm f. induction ss as [|k ss IH]; intros dm f Hd; [simpl in Hd; lia|]. destruct dm as [|dm].
  - cbn [insert list_insert]. by rewrite sum_over_cons.
  - cbn [insert list_insert]. rewrite sum_over_cons. apply sumq_zero. intros i _. apply (IH dm). simpl in Hd. lia.
Qed.
(** the sums over the pieces, the first starting at position [s] *)
Fixpoint pieces (dm : nat) (ss : list Z) (ns : list Z) (s : Z) (f : list Z -> Qc) : Qc :=
  match ns with
  | [] => 0%Qc
  | n :: r => (sum_over (<[dm := n]> ss) (fun idx => f (<[dm := (nth dm idx 0 + s)%Z]> idx)) + pieces dm ss r (s + n)%Z f)%Qc
  end.
Lemma pieces_sum dm ss ns s f : (dm < length ss)%nat -> 0 <= s -> Forall (fun n => 0 <= n) ns ->
  pieces dm ss ns s f = sum_over (<[dm := total_len ns]> ss) (fun idx => f (<[dm := (nth dm idx 0 + s)%Z]> idx)).
Proof.
  intros Hd Hs Hn. revert s Hs. induction Hn as [|n ns Hn Hns IH]; intros s Hs; cbn [pieces total_len fold_right].
  - by rewrite sum_over_empty.
  - rewrite IH by lia. fold (total_len ns). rewrite sum_over_split by (done || by apply total_nonneg). f_equal. apply sum_over_ext.
    intros idx Hi. f_equal. assert (dm < length idx)%nat as Hl. { rewrite (in_range_length _ _ Hi), insert_length. done. }
    rewrite (nth_lookup_Some (<[dm := nth dm idx 0 + n]> idx) dm 0 (nth dm idx 0 + n)) by (by apply list_lookup_insert).
    rewrite list_insert_insert. f_equal. lia.
Qed.
Lemma pieces_all dm ss ns f : (dm < length ss)%nat -> Forall (fun n => 0 <= n) ns ->
  pieces dm ss ns 0 f = sum_over (<[dm := total_len ns]> ss) f.
Proof.
  intros Hd Hn. rewrite pieces_sum by done. apply sum_over_ext. intros idx Hi. f_equal.
  assert (dm < length idx)%nat as Hl. { rewrite (in_range_length _ _ Hi), insert_length. done. }
  destruct (lookup_lt_is_Some_2 idx dm Hl) as [i Hi']. rewrite (nth_lookup_Some _ _ _ _ Hi'). apply list_insert_id. rewrite Hi'. f_equal. lia.
Qed.

(** index [idx] of the piece that starts at [s] *)
Lemma piece_index dm ss tot s n idx : (dm < length ss)%nat -> ss !! dm = Some tot -> 0 <= s -> s + n <= tot ->
  in_range (<[dm := n]> ss) idx -> in_range ss idx /\ in_range ss (<[dm := (nth dm idx 0 + s)%Z]> idx) /\ 0 <= nth dm idx 0 < n /\ (dm < length idx)%nat.
Proof.
  intros Hd Ht Hs Hle Hi. pose proof (in_range_length _ _ Hi) as Hl. rewrite insert_length in Hl. destruct (lookup_lt_is_Some_2 idx dm) as [i Hdi]; [lia|].
  assert (0 <= i < n). { eapply (in_range_lookup _ _ dm n i Hi); [|done]. by apply list_lookup_insert. }
  rewrite (nth_lookup_Some _ _ _ _ Hdi). assert (ss = <[dm := tot]> (<[dm := n]> ss)) as Ess by (rewrite list_insert_insert; symmetry; by apply list_insert_id).
  split; [|split; [|split; [done|lia]]].
  - rewrite Ess. replace idx with (<[dm := i]> idx) by (by apply list_insert_id). apply insert_in_range; [done|lia].
  - rewrite Ess. apply insert_in_range; [done|lia].
Qed.
Lemma sub_view h gr v dm ss tot s n : holds h gr v -> t_lay gr = contig ss -> size_prod ss < two63 -> (dm < length ss)%nat -> ss !! dm = Some tot ->
  Forall (fun k => 0 <= k < two64) (<[dm := n]> ss) -> 0 <= s -> s + n <= tot ->
  holds h (Ten (t_dt gr) (Lay (<[dm := n]> ss) (contig_strides ss) (u64 (s * nth dm (contig_strides ss) 0))) (t_sto gr) None false false None)
    (fun idx => v (<[dm := (nth dm idx 0 + s)%Z]> idx)).
Proof.
  intros [[cs (Hsto & Hlo & Hli & H63)] Hv] El Hp Hd Ht Hnn Hs Hle.
  set (L := Lay (<[dm := n]> ss) (contig_strides ss) (u64 (s * nth dm (contig_strides ss) 0))).
  assert (forall idx, in_range (<[dm := n]> ss) idx -> pos L idx = pos (contig ss) (<[dm := (nth dm idx 0 + s)%Z]> idx)) as Hpos.
  { intros idx Hi. destruct (piece_index dm ss tot s n idx) as (I1 & I2 & I3 & I4); [done..|].
    assert (in_range ss (map (fun _ => 0) ss)) as Iz.
    { pose proof (in_range_pos _ _ I1) as Hpos. clear -Hpos. induction Hpos; constructor; [lia|done]. }
    assert (map (fun _ => 0) ss !! dm = Some 0) as Hz by (etrans; [exact (list_lookup_fmap _ _ _)|by rewrite Ht]).
    assert (in_range ss (<[dm := 0 + s]> (map (fun _ => 0) ss))) as Iz'.
    { replace ss with (<[dm := tot]> ss) at 1 by (by apply list_insert_id). apply insert_in_range; [done|lia]. }
    pose proof (row_major_bounds _ _ Iz') as Hb. rewrite <- pos_contig in Hb by done. unfold pos in Hb. cbn [contig offset strides] in Hb.
    rewrite (dot_shift (contig_strides ss) _ dm s 0 ltac:(by rewrite length_contig_strides) Hz) in Hb.
    assert (forall st (l : list Z), dot st (map (fun _ => 0) l) = 0) as Hdz.
    { clear. intros st l. revert st. induction l as [|y l IH]; intros [|z st]; cbn [map dot]; [done..|]. rewrite IH. lia. }
    rewrite Hdz in Hb. destruct (lookup_lt_is_Some_2 idx dm I4) as [i Hi']. rewrite (nth_lookup_Some _ _ _ _ Hi').
    unfold pos, L. cbn [contig offset strides]. rewrite (dot_shift (contig_strides ss) _ dm s i ltac:(by rewrite length_contig_strides) Hi').
    rewrite u64_id by (unfold two63, two64 in *; lia). lia. }
  assert (forall idx, in_range (<[dm := n]> ss) idx -> in_range (sizes (t_lay gr)) (<[dm := (nth dm idx 0 + s)%Z]> idx)) as Hin.
  { intros idx Hi. rewrite El. cbn [contig sizes]. by apply (piece_index dm ss tot s n idx). }
  split.
  - exists cs. split; [done|]. split; [|split; [|done]].
    + split; [unfold L; cbn [t_lay sizes strides]; rewrite insert_length, length_contig_strides; done|]. split; [done|]. apply u64_range.
    + intros idx Hi. cbn [t_lay] in *. rewrite Hpos by done. rewrite <- El. apply Hli, Hin, Hi.
  - intros idx Hi. destruct (Hv _ (Hin idx Hi)) as [Hv1 Hv2]. split; [|done]. rewrite <- Hv1. unfold elem. cbn [t_sto t_lay].
    by rewrite Hpos, <- El.
Qed.
