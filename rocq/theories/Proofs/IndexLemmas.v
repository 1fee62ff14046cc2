(** Facts about shapes and multi-indices. *)
From Verif.Spec Require Export Index.

Lemma size_prod_nonneg ss : Forall (fun n => 0 <= n) ss -> 0 <= size_prod ss.
Proof. induction 1; simpl; nia. Qed.
Lemma size_prod_pos ss : Forall (fun n => 0 < n) ss -> 0 < size_prod ss.
Proof. induction 1; simpl; nia. Qed.
Lemma size_prod_app a b : size_prod (a ++ b) = size_prod a * size_prod b.
Proof. induction a as [|x a IH]; cbn [app size_prod]; [ring|rewrite IH; ring]. Qed.

Lemma in_range_length ss idx : in_range ss idx -> length idx = length ss.
Proof. intros H. symmetry. by eapply Forall2_length. Qed.
Lemma in_range_nil : in_range [] [].
Proof. constructor. Qed.
Lemma in_range_cons n ss i idx :
  in_range (n :: ss) (i :: idx) <-> 0 <= i < n /\ in_range ss idx.
Proof. unfold in_range. by rewrite Forall2_cons. Qed.
Lemma in_range_nil_inv idx : in_range [] idx -> idx = [].
Proof. inversion 1; auto. Qed.
Lemma in_range_app ss ss' idx idx' :
  length ss = length idx ->
  in_range (ss ++ ss') (idx ++ idx') <-> in_range ss idx /\ in_range ss' idx'.
Proof.
  intros Hl. unfold in_range. split.
  - intros H. apply Forall2_app_inv in H; tauto.
  - intros []. by apply Forall2_app.
Qed.
Lemma in_range_pos ss idx : in_range ss idx -> Forall (fun n => 0 < n) ss.
Proof. induction 1; constructor; auto; lia. Qed.

Lemma elem_of_indices ss idx : idx ∈ indices ss <-> in_range ss idx.
Proof.
  revert idx. induction ss as [|n ss IH]; intros idx; simpl.
  - rewrite elem_of_list_singleton. split; [intros ->; constructor|apply in_range_nil_inv].
  - rewrite elem_of_list_In, in_flat_map. split.
    + intros (i & Hi & Hm). apply in_map_iff in Hm as (k & <- & Hk).
      apply in_range_cons. apply elem_of_list_In, elem_of_seqZ in Hi.
      apply elem_of_list_In, IH in Hk. split; auto; lia.
    + intros H. destruct idx as [|i k]; [inversion H|].
      apply in_range_cons in H as [Hi Hk]. exists i. split.
      * apply elem_of_list_In, elem_of_seqZ. lia.
      * apply in_map. apply elem_of_list_In. by apply IH.
Qed.

Lemma indices_empty ss : 0 ∈ ss -> indices ss = [].
Proof.
  intros H. destruct (indices ss) as [|x l] eqn:E; [done|].
  assert (Hx : x ∈ indices ss) by (rewrite E; left).
  apply elem_of_indices, in_range_pos in Hx.
  rewrite Forall_forall in Hx. specialize (Hx 0 H). lia.
Qed.

Lemma flat_map_const_length {A B} (f : A -> list B) l k :
  (forall x, length (f x) = k) -> length (flat_map f l) = (length l * k)%nat.
Proof. intros H. induction l; simpl; auto. rewrite app_length, H, IHl. lia. Qed.

Lemma length_indices ss :
  Forall (fun n => 0 <= n) ss -> Z.of_nat (length (indices ss)) = size_prod ss.
Proof.
  induction 1 as [|n ss Hn Hs IH]; cbn [indices size_prod]; [done|].
  rewrite (flat_map_const_length _ _ (length (indices ss))).
  - rewrite seqZ_length. lia.
  - intros. apply map_length.
Qed.

(** lookup in a flat_map with constant block length *)
Lemma flat_map_block {A B} (f : A -> list B) l k i j :
  (forall x, length (f x) = k) -> (j < k)%nat ->
  flat_map f l !! (i * k + j)%nat = l !! i ≫= fun x => f x !! j.
Proof.
  intros H Hj. revert i. induction l as [|x l IH]; intros i; [done|].
  cbn [flat_map]. destruct i as [|i]; simpl.
  - rewrite lookup_app_l; [done|]. rewrite H. lia.
  - rewrite lookup_app_r; [|rewrite H; lia]. rewrite H.
    replace (k + i * k + j - k)%nat with (i * k + j)%nat by lia. apply IH.
Qed.

Lemma row_major_bounds ss idx :
  in_range ss idx -> 0 <= row_major ss idx < size_prod ss.
Proof.
  induction 1 as [|n i ss idx Hi H IH]; simpl; [lia|].
  assert (0 < size_prod ss) by (eapply size_prod_pos, in_range_pos; exact H). nia.
Qed.

(** The k-th index visited is the one with row-major position k. *)
Lemma indices_lookup ss idx :
  in_range ss idx -> indices ss !! Z.to_nat (row_major ss idx) = Some idx.
Proof.
  induction 1 as [|n i ss idx Hi H IH]; cbn [row_major indices]; [done|].
  assert (Hp : Forall (fun n => 0 <= n) ss).
  { eapply Forall_impl; [eapply in_range_pos; exact H|]. simpl; lia. }
  pose proof (row_major_bounds _ _ H) as Hb. pose proof (length_indices _ Hp) as Hl.
  replace (Z.to_nat (i * size_prod ss + row_major ss idx))
    with (Z.to_nat i * length (indices ss) + Z.to_nat (row_major ss idx))%nat by nia.
  rewrite flat_map_block; [|intros; apply map_length|lia].
  rewrite lookup_seqZ_lt by lia. simpl.
  rewrite list_lookup_fmap. fold (indices ss).
  change (list_fmap _ _ ?f) with (map f).
  rewrite IH. simpl. repeat f_equal. lia.
Qed.

Lemma row_major_inj ss i j :
  in_range ss i -> in_range ss j -> row_major ss i = row_major ss j -> i = j.
Proof.
  intros Hi Hj E. apply indices_lookup in Hi, Hj. rewrite E in Hi. congruence.
Qed.

Lemma indices_lookup_inv ss k idx :
  Forall (fun n => 0 <= n) ss ->
  indices ss !! k = Some idx -> in_range ss idx /\ row_major ss idx = Z.of_nat k.
Proof.
  intros Hss. revert k idx. induction Hss as [|n ss Hn Hs IH]; intros k idx Hk.
  - destruct k; simpl in Hk; inversion Hk. split; [constructor|done].
  - pose proof (length_indices _ Hs) as Hl. cbn [indices] in Hk.
    assert (Hlen : (k < length (flat_map (fun i => map (cons i) (indices ss)) (seqZ 0 n)))%nat)
      by (eapply lookup_lt_Some; exact Hk).
    rewrite (flat_map_const_length _ _ (length (indices ss))) in Hlen by (intros; apply map_length).
    set (m := length (indices ss)) in *.
    assert (Hm : (0 < m)%nat) by lia.
    rewrite (Nat.div_mod_eq k m), Nat.mul_comm in Hk.
    rewrite flat_map_block in Hk; [|intros; apply map_length|apply Nat.mod_upper_bound; lia].
    apply bind_Some in Hk as (i & Hi & Hj).
    apply lookup_seqZ in Hi as [-> Hi].
    fold m in Hj. rewrite list_lookup_fmap in Hj.
    apply fmap_Some in Hj as (r & Hr & ->).
    apply IH in Hr as [Hr Hv]. split.
    + apply in_range_cons. split; [lia|done].
    + cbn [row_major]. rewrite Hv. pose proof (Nat.div_mod_eq k m). nia.
Qed.

Lemma NoDup_indices ss : NoDup (indices ss).
Proof.
  destruct (decide (Forall (fun n => 0 <= n) ss)) as [H|H].
  - apply NoDup_alt. intros i j x Hi Hj.
    apply (indices_lookup_inv _ _ _ H) in Hi as [_ ?], Hj as [_ ?]. lia.
  - assert (indices ss = []) as ->; [|constructor].
    destruct (indices ss) as [|x l] eqn:E; [done|].
    assert (Hx : x ∈ indices ss) by (rewrite E; left).
    apply elem_of_indices, in_range_pos in Hx. destruct H.
    eapply Forall_impl; [exact Hx|]. simpl; lia.
Qed.

(** row-major order is lexicographic order *)
Lemma row_major_lex ss i j :
  in_range ss i -> in_range ss j -> (row_major ss i < row_major ss j <-> lex_lt i j).
Proof.
  intros Hi. revert j. induction Hi as [|n x ss i Hx Hi IH]; intros j Hj.
  - apply in_range_nil_inv in Hj as ->. simpl. lia.
  - destruct j as [|y j]; [inversion Hj|]. apply in_range_cons in Hj as [Hy Hj].
    pose proof (row_major_bounds _ _ Hi). pose proof (row_major_bounds _ _ Hj).
    specialize (IH _ Hj). simpl. split.
    + intros Hlt. destruct (Z.lt_trichotomy x y) as [?|[->|?]]; [by left| |nia].
      right. split; [done|]. apply IH. lia.
    + intros [?|[-> Hl]]; [nia|]. apply IH in Hl. lia.
Qed.
