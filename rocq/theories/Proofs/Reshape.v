(** reshape. *)
From Verif.Spec Require Export Reshape.
From Verif.Proofs Require Export Track Inplace.

(** ** ranks *)
Lemma same_rank_spec ss ss' idx :
  Forall (fun n => 0 <= n) ss' -> size_prod ss = size_prod ss' -> in_range ss idx ->
  in_range ss' (same_rank ss ss' idx) /\ row_major ss' (same_rank ss ss' idx) = row_major ss idx.
Proof.
  intros Hn Hp Hi. pose proof (row_major_bounds _ _ Hi) as Hb. unfold same_rank.
  pose proof (length_indices _ Hn) as Hl.
  destruct (lookup_lt_is_Some_2 (indices ss') (Z.to_nat (row_major ss idx))) as [x Hx]; [lia|].
  rewrite nth_lookup, Hx. simpl. destruct (indices_lookup_inv _ _ _ Hn Hx) as [H1 H2].
  split; [done|]. lia.
Qed.
Lemma same_rank_inj ss ss' i j :
  Forall (fun n => 0 <= n) ss' -> size_prod ss = size_prod ss' -> in_range ss i -> in_range ss j ->
  same_rank ss ss' i = same_rank ss ss' j -> i = j.
Proof.
  intros Hn Hp Hi Hj E. apply (row_major_inj ss); [done..|].
  rewrite <- (proj2 (same_rank_spec ss ss' i Hn Hp Hi)), E.
  by apply same_rank_spec.
Qed.
Lemma same_rank_sequence {A} (v : list Z -> A) ss ss' :
  Forall (fun n => 0 <= n) ss -> Forall (fun n => 0 <= n) ss' -> size_prod ss = size_prod ss' ->
  map (fun idx => v (same_rank ss ss' idx)) (indices ss) = map v (indices ss').
Proof.
  intros Hs Hn Hp. apply list_eq. intros k. rewrite !list_lookup_fmap.
  pose proof (length_indices _ Hn). pose proof (length_indices _ Hs).
  destruct (decide (k < length (indices ss))%nat) as [Hk|Hk].
  - destruct (lookup_lt_is_Some_2 (indices ss) k Hk) as [x Hx].
    destruct (lookup_lt_is_Some_2 (indices ss') k) as [y Hy]; [lia|].
    rewrite Hx, Hy. simpl. do 2 f_equal.
    destruct (indices_lookup_inv _ _ _ Hs Hx) as [Hix Hrx].
    destruct (indices_lookup_inv _ _ _ Hn Hy) as [Hiy Hry].
    destruct (same_rank_spec ss ss' x Hn Hp Hix) as [H1 H2].
    apply (row_major_inj ss'); [done..|]. congruence.
  - rewrite !lookup_ge_None_2 by lia. done.
Qed.

(** ** evenly spaced layouts *)
Lemma isometry_dot ss : forall sts b, length sts = length ss -> isometry ss sts = Ok b -> b = true ->
  Forall (fun n => 0 <= n < two63) ss -> ss <> [] ->
  exists l, last sts = Some l /\ nth 0 sts 0 = l * size_prod (tail ss) /\
    forall idx, in_range ss idx -> dot sts idx = l * row_major ss idx.
Proof.
  induction ss as [|n ss IH]; intros sts b Hl Hiso Hb Hpos Hne; [done|].
  destruct sts as [|st0 sts]; [done|]. apply Forall_cons in Hpos as [Hn Hpos].
  destruct ss as [|m ss].
  - destruct sts; [|done]. exists st0. split; [done|]. split; [simpl; lia|].
    intros idx Hi. destruct idx as [|i [|]]; try by (inversion Hi as [|? ? ? ? ? Hi']; inversion Hi').
    simpl. lia.
  - destruct sts as [|st sts]; [done|]. cbn [isometry] in Hiso.
    apply obind_ok_inv in Hiso as (p & Hp & Hiso). apply obind_ok_inv in Hiso as (b' & Hr & Hiso).
    injection Hiso as Hiso. rewrite Hb in Hiso. apply andb_true_iff in Hiso as [H1 H2].
    apply Z.eqb_eq in H1.
    destruct (IH (st :: sts) b') as (l & Hlast & Hhd & Hdot); [simpl in *; lia|done|done|done|done|].
    apply Forall_cons in Hpos as [Hm Hpos].
    exists l. split; [done|].
    assert (Hst0 : st0 = l * size_prod (m :: ss)).
    { unfold schk in Hp. destruct (fits_s64 _); [|done]. injection Hp as <-.
      rewrite (s64_id m) in H1 by lia. simpl in Hhd |- *. rewrite H1, Hhd. ring. }
    split; [done|]. intros idx Hi. destruct idx as [|i idx]; [inversion Hi|].
    apply in_range_cons in Hi as [_ Hi]. 
    change (st0 * i + dot (st :: sts) idx = l * (i * size_prod (m :: ss) + row_major (m :: ss) idx)).
    rewrite (Hdot _ Hi), Hst0. ring.
Qed.

Lemma strides_from_length l ss : length (strides_from l ss) = length ss.
Proof. induction ss as [|n [|m ss] IH]; [done..|]. cbn [strides_from length] in *. by rewrite IH. Qed.
Lemma strides_from_head l n ss :
  nth 0 (strides_from l (n :: ss)) 0 mod two64 = (l * size_prod ss) mod two64.
Proof.
  revert n. induction ss as [|m ss IH]; intros n.
  - simpl. f_equal. lia.
  - change (nth 0 (strides_from l (n :: m :: ss)) 0)
      with (s64 (u64 (nth 0 (strides_from l (m :: ss)) 0 * m))).
    rewrite s64_u64, s64_mod. rewrite <- Zmult_mod_idemp_l, IH, Zmult_mod_idemp_l.
    simpl. f_equal. ring.
Qed.
Lemma strides_from_dot l ss : forall idx, in_range ss idx -> Z.abs l * (size_prod ss - 1) < two63 ->
  dot (strides_from l ss) idx = l * row_major ss idx.
Proof.
  induction ss as [|n ss IH]; intros idx Hi Hb.
  - apply in_range_nil_inv in Hi as ->. simpl. lia.
  - destruct idx as [|i idx]; [inversion Hi|]. apply in_range_cons in Hi as [Hn Hi].
    assert (Hp : 0 < size_prod ss) by (eapply size_prod_pos, in_range_pos; exact Hi).
    cbn [size_prod] in Hb. destruct ss as [|m ss].
    + apply in_range_nil_inv in Hi as ->. simpl. lia.
    + set (r := m :: ss) in *.
      change (strides_from l (n :: r)) with
        (s64 (u64 (nth 0 (strides_from l r) 0 * m)) :: strides_from l r).
      change (s64 (u64 (nth 0 (strides_from l r) 0 * m)) * i + dot (strides_from l r) idx =
        l * (i * size_prod r + row_major r idx)).
      rewrite IH by (done || nia).
      destruct (Z.eq_dec i 0) as [->|Hi0]; [lia|].
      assert (s64 (u64 (nth 0 (strides_from l r) 0 * m)) = l * size_prod r) as ->; [|ring].
      rewrite <- (s64_id (l * size_prod r)).
      2:{ assert (Z.abs (l * size_prod r) < two63); [|lia].
          rewrite Z.abs_mul, (Z.abs_eq (size_prod r)) by lia.
          assert (size_prod r <= n * size_prod r - 1) by nia.
          assert (Z.abs l * size_prod r <= Z.abs l * (n * size_prod r - 1)) by nia. lia. }
      rewrite <- s64_u64, <- (s64_u64 (l * _)). f_equal. unfold u64. rewrite Zmod_mod.
      rewrite <- Zmult_mod_idemp_l. unfold r. rewrite strides_from_head, Zmult_mod_idemp_l.
      simpl. f_equal. ring.
Qed.

(** the last index *)
Lemma in_range_last ss : Forall (fun n => 0 < n) ss -> in_range ss (map (fun k => k - 1) ss).
Proof. induction 1; [apply Forall2_nil_2|]. simpl. apply Forall2_cons_2; [lia|done]. Qed.
Lemma row_major_last ss : row_major ss (map (fun k => k - 1) ss) = size_prod ss - 1.
Proof. induction ss as [|k ss IHs]; [done|]. simpl. rewrite IHs. ring. Qed.
Lemma row_major_zeros ss : row_major ss (map (fun _ => 0) ss) = 0.
Proof. induction ss as [|k ss IHs]; [done|]. simpl. rewrite IHs. ring. Qed.
Lemma size_prod_ge ss n : Forall (fun n => 0 < n) ss -> n ∈ ss -> n <= size_prod ss.
Proof.
  induction 1 as [|m ss Hm Hss IH]; [inversion 1|].
  assert (0 < size_prod ss) by (by apply size_prod_pos).
  intros [->|H']%elem_of_cons; simpl.
  - clear IH. nia.
  - specialize (IH H'). nia.
Qed.

(** what a layout that passes the test denotes, and the reshaped one *)
Lemma isometry_reshape lay n ss :
  lay_ok lay -> lay_in lay n -> n < two63 -> length (strides lay) = length (sizes lay) ->
  isometry (sizes lay) (strides lay) = Ok true -> size_prod (sizes lay) < two63 ->
  sizes lay <> [] -> Forall (fun n => 0 <= n) ss -> size_prod ss = size_prod (sizes lay) ->
  exists l, last (strides lay) = Some l /\
    forall idx, in_range ss idx ->
      in_range (sizes lay) (same_rank ss (sizes lay) idx) /\
      offset lay + dot (strides_from l ss) idx = pos lay (same_rank ss (sizes lay) idx).
Proof.
  intros (Hl & Hpos & Ho) Hin Hn Hlen Hiso Hlt Hne Hss Hp.
  destruct (last (strides lay)) as [l|] eqn:Hlast.
  2:{ apply last_None in Hlast. destruct (sizes lay); [done|]. by rewrite Hlast in Hlen. }
  exists l. split; [done|]. intros idx Hi.
  assert (Hnn : Forall (fun n => 0 <= n) (sizes lay)) by (eapply Forall_impl; [done|]; simpl; lia).
  destruct (same_rank_spec ss (sizes lay) idx Hnn Hp Hi) as [H1 H2]. split; [done|].
  pose proof (in_range_pos _ _ H1) as Hgt.
  destruct (isometry_dot (sizes lay) (strides lay) true) as (l' & Hlast' & _ & Hdot); try done.
  { apply Forall_forall. intros k Hk. rewrite Forall_forall in Hgt. pose proof (Hgt k Hk).
    pose proof (size_prod_ge _ _ ltac:(rewrite Forall_forall; exact Hgt) Hk). lia. }
  assert (l' = l) as -> by congruence.
  unfold pos. rewrite (Hdot _ H1), H2. f_equal. apply strides_from_dot; [done|]. rewrite Hp.
  (* the first and the last element *)
  pose proof (Hin _ (in_range_zeros _ Hgt)) as Ha. pose proof (Hin _ (in_range_last _ Hgt)) as Hb.
  unfold pos in Ha, Hb. rewrite (Hdot _ (in_range_zeros _ Hgt)), row_major_zeros in Ha.
  rewrite (Hdot _ (in_range_last _ Hgt)), row_major_last in Hb.
  assert (0 < size_prod (sizes lay)) by (by apply size_prod_pos).
  destruct (Z.abs_spec l) as [[_ ->]|[_ ->]]; lia.
Qed.

Lemma size_prod_one ss : Forall (fun n => 0 <= n) ss -> size_prod ss = 1 -> Forall (fun n => n = 1) ss.
Proof.
  induction 1 as [|n ss Hn Hss IH]; [done|]. simpl. intros H.
  pose proof (size_prod_nonneg _ Hss). destruct (Z.eq_mul_1_nonneg n (size_prod ss) Hn H) as [-> ?].
  constructor; auto.
Qed.
Lemma in_range_ones ss idx : Forall (fun n => n = 1) ss -> in_range ss idx -> idx = map (fun _ => 0) ss.
Proof.
  intros H Hi. induction Hi as [|n i ss idx Hn Hi IH]; [done|]. apply Forall_cons in H as [-> H].
  simpl. rewrite IH by done. f_equal. lia.
Qed.

Section with_fops.
Context {fo : FOps}.

(** the part of reshape after the test for one element *)
Definition reshape_tail (t : nat) (r : tensor) (ss : list Z) : E nat :=
  let v := t_lay r in
  (if Nat.ltb (ldim v) (length (strides v)) then mub OutOfBounds else mret tt) ;;;
  let! iso := lift (isometry (sizes v) (strides v)) in
  let! p := (if iso : bool then
      let! sts := (match ss with
                   | [] => mret (strides v)
                   | _ => match last (strides v) with
                          | None => mub OutOfBounds
                          | Some st => mret (strides_from st ss)
                          end
                   end) in
      let! tf := create_view (t_dt r) (Lay ss sts (offset v)) (t_sto r) in
      mret (tf, t)
    else
      let! m := op_clone t in
      let! mr := get_ten m in
      let! tf := create_view (t_dt r) (contig ss) (t_sto mr) in
      mret (tf, m)) in
  let '(tf, last_node) := p in
  let! i := get_ten t in
  if negb (t_rg i) then mret tf
  else
    track tf NoBack [last_node] ;;;
    share_grad_storage tf last_node ;;;
    mret tf.

(** what the result of a reshape is *)
Definition resh (h h' : heap) (r : tensor) (v : list Z -> val) (tf : nat) (ss : list Z) (r' : tensor) : Prop :=
  (length (h_ten h) <= tf)%nat /\ h_ten h' !! tf = Some r' /\ t_dt r' = t_dt r /\ shape r' = ss /\
  t_rg r' = t_rg r /\ holds h' r' (fun idx => v (same_rank ss (shape r) idx)) /\
  (lay_inj (t_lay r) -> lay_inj (t_lay r')) /\
  (ss = [] \/ length (strides (t_lay r')) = length ss).

Lemma finish_keeps h t r lay x h' :
  finish_view (length (h_ten h)) t (view_heap h r lay) = (x, h') -> data_kept h h'.
Proof.
  intros E. pose proof (fr_finish_view (fun _ => True) h (length (h_ten h)) t (view_heap h r lay)) as H.
  assert (kept (fun _ => True) h (view_heap h r lay)) as Hk.
  { apply kept_new_ten. apply kept_refl. }
  specialize (H Hk). unfold fr, wp in H. rewrite E in H.
  apply kept_data. destruct x; try done. by destruct H.
Qed.
Lemma data_kept_holds h h' r v : data_kept h h' -> holds h r v -> holds h' r v.
Proof.
  intros [Hs _] H. destruct (holds_some _ _ _ H) as [x Hx].
  eapply holds_sto; [|exact H]. rewrite Hx. by apply Hs.
Qed.

Lemma holds_ok h r v : holds h r v ->
  lay_ok (t_lay r) /\ exists n, lay_in (t_lay r) n /\ n < two63.
Proof. intros [(cs & _ & H1 & H2 & H3) _]. eauto. Qed.

(** a view whose elements are elements of [r] *)
Lemma resh_view h h' r r1 v ss lay tf r' :
  same_data r r1 -> holds h r v -> data_kept h h' ->
  (length (h_ten h) <= tf)%nat -> h_ten h' !! tf = Some r' -> t_dt r' = t_dt r -> t_lay r' = lay ->
  t_sto r' = t_sto r -> t_rg r' = t_rg r -> sizes lay = ss -> lay_ok lay ->
  Forall (fun n => 0 <= n) (shape r) -> size_prod ss = size_prod (shape r) ->
  (ss = [] \/ length (strides lay) = length ss) ->
  (forall idx, in_range ss idx -> pos lay idx = pos (t_lay r) (same_rank ss (shape r) idx)) ->
  resh h h' r v tf ss r'.
Proof.
  intros Hsd Hh Hk Htf Hr' Hdt Hlay Hsto Hrg Hss Hok Hnn Hp Hlen Hpos.
  assert (Hf : forall idx, in_range (sizes lay) idx ->
    in_range (shape r) (same_rank ss (shape r) idx) /\ pos lay idx = pos (t_lay r) (same_rank ss (shape r) idx)).
  { intros idx Hi. rewrite Hss in Hi. split; [by apply same_rank_spec|auto]. }
  split_and!; try done.
  - unfold shape. by rewrite Hlay.
  - by eapply (view_holds h h' r r' v lay).
  - intros Hinj. rewrite Hlay. intros i j Hi Hj E. rewrite Hss in Hi, Hj.
    rewrite !Hpos in E by done. apply Hinj in E; [|by apply same_rank_spec..].
    by apply (same_rank_inj ss (shape r)).
  - by rewrite Hlay.
Qed.

Lemma reshape_tail_ok h t r r1 v ss b :
  h_ten h !! t = Some r1 -> same_data r r1 -> t_rg r1 = t_rg r -> grad_ok h r1 -> holds h r v ->
  length (strides (t_lay r)) = length (shape r) -> isometry (shape r) (strides (t_lay r)) = Ok b ->
  Forall (fun n => 0 <= n < two64) ss -> size_prod ss = size_prod (shape r) ->
  (shape r = [] -> ss = []) -> fits (t_dt r) (shape r) ->
  exists tf h' r', reshape_tail t r ss h = (Ok tf, h') /\ resh h h' r v tf ss r'.
Proof.
  intros Ht Hsd Hrg Hg Hh Hlen Hiso Hss Hp Hne Hfit.
  destruct (holds_ok _ _ _ Hh) as (Hok & n & Hin & Hn).
  pose proof (holds_allocable _ _ _ _ Hh Hfit) as Ha.
  pose proof (allocable_lt63 _ _ Ha) as Hlt. fold (shape r) in *.
  assert (Hnn : Forall (fun n => 0 <= n) (shape r)) by (by eapply holds_nonneg).
  assert (Hss0 : Forall (fun n => 0 <= n) ss) by (eapply Forall_impl; [done|]; simpl; lia).
  unfold reshape_tail, ldim. change (sizes (t_lay r)) with (shape r). rewrite Hlen, Nat.ltb_irrefl.
  rewrite bind_ret, bind_lift, Hiso. destruct b.
  - (* evenly spaced: a view *)
    assert (exists lay sts, lay = Lay ss sts (offset (t_lay r)) /\
      (match ss with [] => mret (strides (t_lay r))
       | _ => match last (strides (t_lay r)) with None => mub OutOfBounds
              | Some st => mret (strides_from st ss) end end) h = (Ok sts, h) /\
      lay_ok lay /\ (ss = [] \/ length sts = length ss) /\
      forall idx, in_range ss idx -> pos lay idx = pos (t_lay r) (same_rank ss (shape r) idx))
      as (lay & sts & -> & Hsts & Hlok & Hl2 & Hpos).
    { destruct ss as [|k ss].
      - eexists _, _. split; [done|]. split; [done|]. split.
        { split; [simpl; lia|]. split; [done|]. apply Hok. }
        split; [by left|]. intros idx Hi. unfold pos. simpl.
        destruct (same_rank_spec [] (shape r) idx Hnn Hp Hi) as [H1 _].
        pose proof (size_prod_one _ Hnn (eq_sym Hp)) as Hone.
        rewrite (in_range_ones _ _ Hone H1), dot_zeros.
        apply in_range_nil_inv in Hi as ->. destruct (strides (t_lay r)); simpl; lia.
      - destruct (isometry_reshape (t_lay r) n (k :: ss)) as (l & Hlast & Hx); try done.
        { intros E. specialize (Hne E). done. }
        exists (Lay (k :: ss) (strides_from l (k :: ss)) (offset (t_lay r))), (strides_from l (k :: ss)). split; [done|]. rewrite Hlast. split; [done|].
        split. { split; [cbn [sizes strides]; by rewrite strides_from_length|]. split; [done|]. apply Hok. }
        split; [right; apply strides_from_length|]. intros idx Hi. by apply Hx. }
    rewrite bind_assoc. erewrite bind_ok by exact Hsts. rewrite bind_assoc.
    erewrite bind_ok by apply create_view_eq. rewrite bind_ret.
    destruct Hsd as (S1 & S2 & S3).
    assert (view_heap h r (Lay ss sts (offset (t_lay r))) = view_heap h r1 (Lay ss sts (offset (t_lay r)))) as ->.
    { unfold view_heap, view_rec. by rewrite S1, S3. }
    destruct (finish_view_ok h t r1 (Lay ss sts (offset (t_lay r))) Ht Hg)
      as (h' & r' & E & Hr' & H1 & H2 & H3 & H4 & _).
    exists (length (h_ten h)), h', r'. split; [exact E|].
    apply (resh_view h h' r r1 v ss (Lay ss sts (offset (t_lay r)))); try done.
    + by eapply finish_keeps. + congruence. + congruence. + congruence.
  - (* a copy *)
    assert (Hh1 : holds h r1 v) by (by eapply holds_same).
    destruct Hsd as (S1 & S2 & S3).
    assert (Hsh : sizes (t_lay r1) = shape r) by (unfold shape; by rewrite S2).
    rewrite bind_assoc. erewrite bind_ok.
    2:{ apply (clone_ok h t r1 v); [done..|]. rewrite Hsh, <- S1. done. }
    rewrite bind_assoc. erewrite bind_ok by (apply get_ten_ok, alloc_ten). rewrite Hsh, <- S1.
    set (fn := clone_fn _ t). set (h1 := alloc_heap _ _ _ _ _ _).
    set (m := fresh_rec h (t_dt r) (contig (shape r)) (t_rg r1) fn).
    rewrite bind_assoc. change (t_dt r) with (t_dt m) at 1. erewrite bind_ok by apply create_view_eq.
    rewrite bind_ret.
    assert (Hm : h_ten h1 !! length (h_ten h) = Some m) by apply alloc_ten.
    assert (Ht1 : h_ten (view_heap h1 m (contig ss)) !! t = Some r1).
    { apply lookup_app_l_Some. by apply alloc_ten_old. }
    assert (Hgm : grad_ok h1 m) by done.
    destruct (finish_view_ok h1 (length (h_ten h)) m (contig ss) Hm Hgm)
      as (h' & r' & E & Hr' & H1 & H2 & H3 & H4 & _).
    exists (length (h_ten h1)), h', r'.
    assert (Hm' : h_ten (view_heap h1 m (contig ss)) !! length (h_ten h) = Some m)
      by (by apply lookup_app_l_Some).
    split.
    { rewrite <- E. unfold finish_view. erewrite bind_ok by (by apply get_ten_ok).
      erewrite (bind_ok (get_ten (length (h_ten h)))) by (by apply get_ten_ok). done. }
    pose proof (finish_keeps _ _ _ _ _ _ E) as Hk.
    assert (Hhm : holds h1 m v).
    { apply alloc_holds; [done|]. intros idx Hi. destruct Hh as [_ Hh]. by apply Hh. }
    pose proof (data_kept_holds _ _ _ _ Hk Hhm) as Hhm'.
    assert (Hlt' : size_prod ss < two63) by lia.
    assert (Hpos : forall idx, in_range ss idx -> pos (contig ss) idx = pos (t_lay m) (same_rank ss (shape r) idx)).
    { intros idx Hi. destruct (same_rank_spec ss (shape r) idx Hnn Hp Hi) as [Ha1 Ha2].
      cbn [m fresh_rec t_lay]. rewrite !pos_contig by done. by rewrite Ha2. }
    assert (resh h1 h' m v (length (h_ten h1)) ss r') as Hres.
    { apply (resh_view h1 h' m m v ss (contig ss)); try done.
      - by apply contig_lay_ok. 
      - right. apply length_contig_strides. }
    destruct Hres as (A1 & A2 & A3 & A4 & A5 & A6 & A7 & A8).
    split_and!; try done.
    + cbn [h1 alloc_heap h_ten]. rewrite app_length. lia.
    + rewrite A5. exact Hrg.
    + intros _. apply A7. by apply contig_lay_inj.
Qed.

(** the source after its gradient has been shared *)
Lemma share_from h to from rt rf : to <> from ->
  h_ten h !! to = Some rt -> h_ten h !! from = Some rf -> grad_ok h rf ->
  exists h' rf', share_grad_storage to from h = (Ok tt, h') /\ h_ten h' !! from = Some rf' /\
    same_data rf rf' /\ t_rg rf' = t_rg rf /\ grad_ok h' rf' /\ (length (h_ten h) <= length (h_ten h'))%nat.
Proof.
  intros Hne Ht Hf Hg. unfold share_grad_storage.
  erewrite bind_ok by (by apply get_ten_ok).
  assert (exists h1 rf1 g gr, (match t_grad rf with
    | Some _ => mret tt
    | None => let! g := create (t_dt rf) (t_lay rf) false in set_ten from (with_grad rf (Some g)) end) h = (Ok tt, h1) /\
    h_ten h1 !! from = Some rf1 /\ t_grad rf1 = Some g /\ h_ten h1 !! g = Some gr /\ h_ten h1 !! to = Some rt /\
    same_data rf rf1 /\ t_rg rf1 = t_rg rf /\ (length (h_ten h) <= length (h_ten h1))%nat)
    as (h1 & rf1 & g & gr & E & H1 & H2 & H3 & H4 & H5 & H6 & H7).
  { destruct (t_grad rf) as [g|] eqn:Eg.
    - destruct (Hg g Eg) as [gr Hgr]. by exists h, rf, g, gr.
    - erewrite bind_ok by apply create_noalloc. rewrite set_ten_eq.
      eexists _, _, _, _. split; [done|]. cbn [h_ten].
      assert (from < length (h_ten h))%nat as Hl by (by eapply lookup_lt_Some).
      assert (from <> length (h_ten h)) by lia.
      split; [rewrite list_lookup_insert by (rewrite app_length; simpl; lia); done|].
      split; [done|]. split; [|split].
      + rewrite list_lookup_insert_ne by done. apply lookup_snoc.
      + rewrite list_lookup_insert_ne by done. by apply lookup_app_l_Some.
      + split; [done|]. split; [done|]. rewrite insert_length, app_length. lia. }
  erewrite bind_ok by exact E. erewrite bind_ok by (by apply get_ten_ok). rewrite H2.
  erewrite bind_ok by (by apply get_ten_ok). erewrite bind_ok by (by apply get_ten_ok).
  erewrite bind_ok by done. cbn [h_sto h_ten h_ver].
  erewrite bind_ok by (apply get_ten_ok; simpl; by apply lookup_app_l_Some).
  rewrite set_ten_eq. eexists _, rf1. split; [done|]. cbn [h_ten].
  split. { rewrite list_lookup_insert_ne by done. simpl. by apply lookup_app_l_Some. }
  split; [done|]. split; [done|]. split.
  - intros g' Hg'. assert (g' = g) as -> by congruence. cbn [h_ten]. apply lookup_lt_is_Some.
    rewrite insert_length. simpl. rewrite app_length. apply lookup_lt_Some in H3. lia.
  - rewrite insert_length. simpl. rewrite app_length. lia.
Qed.

Lemma op_reshape_sv_eq t ss h r :
  h_ten h !! t = Some r -> numel_of ss = lnumel (t_lay r) ->
  op_reshape_sv t ss h =
    (if numel_of ss =? 1 then
      let! tf := create_view (t_dt r) (Lay ss (map (fun _ => 1) ss) (offset (t_lay r))) (t_sto r) in
      if negb (t_rg r) then mret tf
      else track tf NoBack [t] ;;; share_grad_storage tf t ;;; reshape_tail t r ss
    else reshape_tail t r ss) h.
Proof.
  intros Ht Hn. unfold op_reshape_sv. erewrite bind_ok by (by apply get_ten_ok).
  assert ((numel_of ss =? lnumel (t_lay r)) = true) as -> by lia. erewrite bind_ok by done.
  destruct (numel_of ss =? 1).
  - rewrite bind_assoc. erewrite bind_ok by apply create_view_eq.
    symmetry. erewrite bind_ok by apply create_view_eq. symmetry.
    destruct (t_rg r); cbn [negb]; [|done]. unfold bind.
    destruct (track _ _ _ _) as [[[]|?|?|] h1]; try done.
    destruct (share_grad_storage _ _ _) as [[[]|?|?|] h2]; try done.
  - by rewrite bind_ret.
Qed.

Lemma reshape_sv_ok h t r v ss b :
  h_ten h !! t = Some r -> grad_ok h r -> holds h r v ->
  length (strides (t_lay r)) = length (shape r) -> isometry (shape r) (strides (t_lay r)) = Ok b ->
  Forall (fun n => 0 <= n < two64) ss -> size_prod ss = size_prod (shape r) ->
  (t_rg r = true -> shape r = [] -> ss = []) -> fits (t_dt r) (shape r) ->
  exists tf h' r', op_reshape_sv t ss h = (Ok tf, h') /\ resh h h' r v tf ss r'.
Proof.
  intros Ht Hg Hh Hlen Hiso Hss Hp Hne Hfit.
  destruct (holds_ok _ _ _ Hh) as (Hok & n & Hin & Hn).
  pose proof (holds_allocable _ _ _ _ Hh Hfit) as Ha.
  pose proof (allocable_lt63 _ _ Ha) as Hlt. fold (shape r) in *.
  assert (Hnn : Forall (fun n => 0 <= n) (shape r)) by (by eapply holds_nonneg).
  assert (Hss0 : Forall (fun n => 0 <= n) ss) by (eapply Forall_impl; [done|]; simpl; lia).
  assert (Hnum : numel_of ss = size_prod ss) by (apply numel_of_exact; [done|unfold two63, two64 in *; lia]).
  assert (Hnum' : lnumel (t_lay r) = size_prod (shape r)) by (apply numel_of_exact; [done|unfold two63, two64 in *; lia]).
  rewrite (op_reshape_sv_eq t ss h r) by (done || congruence).
  rewrite Hnum. destruct (Z.eqb_spec (size_prod ss) 1) as [H1|H1].
  2:{ apply (reshape_tail_ok h t r r v ss b); try done. intros E. rewrite E in Hp. simpl in Hp. lia. }
  set (lay := Lay ss (map (fun _ => 1) ss) (offset (t_lay r))).
  erewrite bind_ok by apply create_view_eq. destruct (t_rg r) eqn:Erg; cbn [negb].
  - (* tracked: the view is made and dropped *)
    assert (t < length (h_ten h))%nat as Hl by (by eapply lookup_lt_Some).
    unfold track. rewrite bind_assoc. erewrite bind_ok by (apply get_ten_ok, lookup_snoc).
    erewrite bind_ok by apply set_ten_eq.
    match goal with |- context [bind _ _ ?x] => set (h2 := x) end. set (rv := with_fn _ _) in h2.
    assert (h_ten h2 !! length (h_ten h) = Some rv) as Hv.
    { apply list_lookup_insert. simpl. rewrite app_length. simpl. lia. }
    assert (h_ten h2 !! t = Some r) as Hr2.
    { cbn [h2 h_ten]. rewrite list_lookup_insert_ne by lia. by apply lookup_app_l_Some. }
    assert (Hl2 : (length (h_ten h) <= length (h_ten h2))%nat).
    { cbn [h2 h_ten view_heap]. rewrite insert_length, app_length. lia. }
    destruct (share_from h2 (length (h_ten h)) t rv r) as (h3 & r3 & E & H3 & Hsd & Hrg3 & Hg3 & Hl3); try done; [lia| |].
    { intros g Eg. destruct (Hg g Eg) as [x Hx]. cbn [h2 h_ten]. apply lookup_lt_is_Some.
      rewrite insert_length. cbn [view_heap h_ten]. rewrite app_length. apply lookup_lt_Some in Hx. lia. }
    erewrite bind_ok by exact E.
    assert (Hk : kept (fun _ => True) h h3).
    { pose proof (fr_share (fun _ => True) h (length (h_ten h)) t h2) as Hf.
      assert (kept (fun _ => True) h h2) as Hk2.
      { eapply kept_set with (h := view_heap h r lay); [apply kept_new_ten, kept_refl|apply lookup_snoc|done]. }
      specialize (Hf Hk2). unfold fr, wp in Hf. rewrite E in Hf. by destruct Hf. }
    destruct (reshape_tail_ok h3 t r r3 v ss b) as (tf & h' & r' & E' & R); try done.
    + eapply data_kept_holds; [by apply kept_data|done].
    + intros E0. by apply Hne.
    + exists tf, h', r'. split; [done|]. destruct R as (R1 & R2). split; [lia|done].
  - (* untracked *)
    eexists _, _, (view_rec r lay). split; [done|].
    assert (H1' : size_prod (shape r) = 1) by lia.
    apply (resh_view h _ r r v ss lay); try done.
    + apply kept_data. apply kept_new_ten, kept_refl.
    + apply lookup_snoc.
    + split; [cbn [lay sizes strides]; by rewrite map_length|]. split; [done|]. apply Hok.
    + right. apply map_length.
    + intros idx Hi. unfold pos. simpl.
      destruct (same_rank_spec ss (shape r) idx Hnn Hp Hi) as [Hr1 _].
      rewrite (in_range_ones _ _ (size_prod_one _ Hnn H1') Hr1), dot_zeros.
      rewrite (in_range_ones _ _ (size_prod_one _ Hss0 H1) Hi), dot_zeros. done.
Qed.
End with_fops.
