(** Queries, null handles and released buffers. *)
From Verif.Spec Require Import Query.
From Verif.Proofs Require Import Basics Cells Create Creation Binary Reduce Api1 Odometer Track BroadcastLemmas Text Cat.
From Verif.Proofs Require Bytes.
From Verif.Model Require Import Api.

(** ** contiguity *)
Lemma wsteps_exact ss : Forall (fun n => 0 <= n) ss -> (forall k, size_prod (drop k ss) < two63) -> wsteps 1 (rev ss) = size_prod ss.
Proof.
  induction ss as [|n ss IH]; intros Hn Hk; [done|]. apply Forall_cons in Hn as [Hn Hns]. simpl rev.
  rewrite wsteps_app, IH; [|done|intros k; apply (Hk (S k))]. rewrite s64_u64. pose proof (Hk 0%nat) as H0. cbn [drop size_prod] in *.
  pose proof (size_prod_nonneg ss Hns). rewrite Z.mul_comm. apply s64_id. unfold two63 in *. nia.
Qed.
Lemma contiguous_iff ss : forall st, length st = length ss -> Forall (fun n => 0 <= n) ss ->
  (forall k, size_prod (drop (S k) ss) < two63) ->
  contiguous_rev 1 (rev st) (rev ss) = true <-> forall k, (k < length ss)%nat -> st !! k = Some (size_prod (drop (S k) ss)).
Proof.
  induction ss as [|n ss IH]; intros [|s st] Hl Hn Hk; try done.
  - split; [|done]. intros _ k H. cbn in H. lia.
  - injection Hl as Hl. apply Forall_cons in Hn as [Hn Hns]. simpl rev.
    rewrite contiguous_rev_app by (by rewrite !rev_length). rewrite andb_true_iff, Z.eqb_eq, wsteps_exact; [|done|exact Hk].
    rewrite IH; [|done|done|intros k; apply (Hk (S k))]. split.
    + intros [H <-] [|k] Hlt; [done|]. apply H. cbn in Hlt. lia.
    + intros H. split.
      * intros k Hlt. apply (H (S k)). cbn. lia.
      * specialize (H 0%nat ltac:(cbn; lia)). cbn in H. by injection H.
Qed.

Section with_fops.
Context {fo : FOps}.
Lemma query_eq h t r f : h_ten h !! t = Some r -> query (Some t) f h = (Ok (f r), h).
Proof. intros H. unfold query, deref. rewrite bind_ret. by erewrite bind_ok by (by apply get_ten_ok). Qed.
Lemma is_contiguous_packed l : lay_ok l -> (forall k, size_prod (drop (S k) (sizes l)) < two63) ->
  is_contiguous l = true <-> packed l.
Proof.
  intros (Hl & Hs & _) Hk. unfold is_contiguous, packed, ldim. rewrite contiguous_iff.
  - split; intros H k Hlt; specialize (H k Hlt); [by rewrite lookup_take in H by done|by rewrite lookup_take by done].
  - rewrite firstn_length. lia.
  - eapply Forall_impl; [exact Hs|]. simpl. lia.
  - done.
Qed.
Lemma query_answers h t r : h_ten h !! t = Some r -> Forall (fun n => 0 <= n) (shape r) ->
  exec (QSize (Some t)) h = (Ok (RSizes (shape r)), h) /\
  exec (QNumel (Some t)) h = (Ok (RInt (Z.of_nat (length (indices (shape r))) mod 2 ^ 64)), h) /\
  exec (QType (Some t)) h = (Ok (RType (t_dt r)), h) /\
  exec (QRequires (Some t)) h = (Ok (RBool (t_rg r)), h) /\
  exec (QRetain (Some t)) h = (Ok (RBool (t_ret r)), h) /\
  exec (OGrad (Some t)) h = (Ok (RHandle (t_grad r)), h).
Proof.
  intros Ht Hn. cbn [exec]. rewrite !(query_eq h t r) by done. split_and!; try done.
  do 3 f_equal. rewrite length_indices by done. unfold lnumel. rewrite numel_of_mod. by unfold u64, shape.
Qed.
Lemma contiguous_answer h t r : h_ten h !! t = Some r -> lay_ok (t_lay r) -> (forall k, size_prod (drop (S k) (shape r)) < 2 ^ 63) ->
  exists b, exec (QContiguous (Some t)) h = (Ok (RBool b), h) /\ (b = true <-> packed (t_lay r)).
Proof.
  intros Ht Hl Hk. exists (is_contiguous (t_lay r)). cbn [exec]. rewrite (query_eq h t r) by done. split; [done|].
  by apply is_contiguous_packed.
Qed.

(** positions determine the strides of dimensions with two elements *)
Lemma dot_unit st k (ss : list Z) : dot st (<[k := 1]> (map (fun _ => 0) ss)) = if decide (k < length ss)%nat then nth k st 0 else 0.
Proof.
  revert st ss. induction k as [|k IH]; intros [|s st] [|n ss]; cbn; rewrite ?dot_zeros, ?IH; repeat case_decide; cbn in *; try lia.
Qed.
Lemma row_unit ss k : (k < length ss)%nat -> row_major ss (<[k := 1]> (map (fun _ => 0) ss)) = size_prod (drop (S k) ss).
Proof.
  assert (forall l : list Z, row_major l (map (fun _ => 0) l) = 0) as Hz by (induction l as [|? ? IHl]; [done|]; cbn; rewrite IHl; lia).
  revert k. induction ss as [|n ss IH]; intros [|k] Hk; cbn in Hk; try lia; cbn.
  - rewrite Hz. rewrite drop_0. lia.
  - rewrite IH by lia. done.
Qed.
Lemma unit_in_range ss k : Forall (fun n => 2 <= n) ss -> in_range ss (<[k := 1]> (map (fun _ => 0) ss)).
Proof.
  intros H. apply Forall2_same_length_lookup. split; [by rewrite insert_length, map_length|].
  intros i n j Hi Hj. pose proof (proj1 (Forall_lookup _ _) H i n Hi) as Hn. cbn in Hn.
  destruct (decide (i = k)) as [->|Hne].
  - rewrite list_lookup_insert in Hj; [injection Hj as <-; lia|]. rewrite map_length. by eapply lookup_lt_Some.
  - rewrite list_lookup_insert_ne in Hj by done. rewrite list_lookup_fmap in Hj. rewrite Hi in Hj. injection Hj as <-. lia.
Qed.
Lemma contiguous_complete h t r cs : h_ten h !! t = Some r -> backed h r cs -> Forall (fun n => 2 <= n) (shape r) ->
  exec (QContiguous (Some t)) h = (Ok (RBool true), h) <->
  forall idx, in_range (shape r) idx -> pos (t_lay r) idx = offset (t_lay r) + row_major (shape r) idx.
Proof.
  intros Ht Hb H2. split.
  - intros E idx Hi. cbn [exec] in E. rewrite (query_eq h t r) in E by done. injection E as E. by eapply is_contiguous_sound.
  - intros Hp. pose proof Hb as (_ & Hl & Hin & Hn). cbn [exec]. rewrite (query_eq h t r) by done. do 3 f_equal.
    assert (Forall (fun n => 0 < n) (shape r)) as H0 by (eapply Forall_impl; [exact H2|]; cbn; lia).
    assert (size_prod (shape r) < two63) as Hsz.
    { set (lst := map (fun k => k - 1) (shape r)).
      assert (in_range (shape r) lst) as Hlast.
      { unfold lst. clear -H0. induction H0; [apply Forall2_nil_2|]. simpl. apply Forall2_cons_2; [lia|done]. }
      assert (row_major (shape r) lst = size_prod (shape r) - 1) as Hrm.
      { unfold lst. clear. induction (shape r) as [|k ss IHs]; [done|]. simpl. rewrite IHs. ring. }
      specialize (Hin _ Hlast). rewrite (Hp _ Hlast), Hrm in Hin. destruct Hl as (_ & _ & Ho). unfold two63 in *. lia. }
    apply is_contiguous_packed; [done| |].
    { intros k. eapply Z.le_lt_trans; [|exact Hsz]. fold (shape r). generalize (S k). clear -H0.
      induction H0 as [|n ss Hn H0 IH]; intros [|j]; cbn [drop size_prod]; try lia. specialize (IH j).
      assert (0 < size_prod ss) by (clear -H0; induction H0; cbn; nia). nia. }
    intros k Hk. pose proof (Hp _ (unit_in_range _ k H2)) as E. unfold pos in E. fold (shape r) in Hk. rewrite dot_unit, decide_True, row_unit in E by done.
    assert (nth k (strides (t_lay r)) 0 = size_prod (drop (S k) (shape r))) as E' by lia.
    fold (shape r). rewrite <- E'. destruct Hl as [Hl _]. fold (shape r) in Hl.
    destruct (lookup_lt_is_Some_2 (strides (t_lay r)) k) as [s Hs]; [lia|]. rewrite Hs. f_equal. symmetry. by apply nth_lookup_Some.
Qed.

(** ** null handles *)
Lemma null_call h o : None ∈ passed o -> (forall a, o <> QToString a) -> (forall ts dim, o <> OCat ts dim) -> exec o h = (UB NullDeref, h).
Proof.
  intros Hn Ht Hc.
  destruct o; cbn [passed] in Hn; try (by apply elem_of_nil in Hn); cbn [exec]; try (by edestruct Ht); try (by edestruct Hc);
    try (apply elem_of_list_singleton in Hn as <-; done);
    (apply elem_of_cons in Hn as [<-|Hn%elem_of_list_singleton]; [done|]; subst; unfold bin; destruct a as [x|]; [|done]; cbn [deref]; by rewrite bind_ret).
Qed.

Lemma deref_null xs ys ts dim h :
  deref_all xs (map Some ys ++ None :: ts) dim h = bind (before_null (xs ++ ys) dim) (fun _ => mub NullDeref) h.
Proof.
  revert xs. induction ys as [|y ys IH]; intros xs; cbn [map app deref_all]; [by rewrite app_nil_r|]. by rewrite IH, <- app_assoc.
Qed.
Lemma null_cat h xs rs ts dim : Forall2 (fun t r => h_ten h !! t = Some r) xs rs ->
  (cat_agree dim rs -> exec (OCat (map Some xs ++ None :: ts) dim) h = (UB NullDeref, h)) /\
  (~ cat_agree dim rs -> exec (OCat (map Some xs ++ None :: ts) dim) h = (Throw RuntimeError, h)).
Proof.
  intros Hx. cbn [exec].
  assert (forall o : outcome unit, before_null xs dim h = (o, h) ->
    bind (deref_all [] (map Some xs ++ None :: ts) dim) (fun l => new_handle (op_cat l dim)) h =
    (match o with Ok _ => UB NullDeref | Throw e => Throw e | UB u => UB u | Diverge => Diverge end, h)) as Hb.
  { intros o Ho. unfold bind at 1. rewrite deref_null. unfold bind. cbn [app]. rewrite Ho. by destruct o. }
  unfold before_null in Hb. erewrite bind_ok in Hb by (by apply get_all_ok). destruct rs as [|r0 rest]; cbn [cat_agree].
  { split; [|done]. intros _. apply (Hb (Ok tt)). done. }
  cbv zeta in Hb. destruct ((0 <=? dim) && (dim <? Z.of_nat (length (sizes (t_lay r0))))) eqn:Hc.
  - erewrite bind_ok in Hb by done. destruct (forallb (fun r => cat_compatible (Z.to_nat dim) (sizes (t_lay r0)) (sizes (t_lay r))) rest) eqn:Hf.
    + split; [intros _; by apply (Hb (Ok tt))|]. intros []. split; [unfold shape; lia|]. rewrite forallb_forall in Hf. constructor; [done|].
      apply Forall_forall. intros r Hr. apply cat_compatible_spec, Hf. by apply elem_of_list_In.
    + split; [|intros _; by apply (Hb (Throw RuntimeError))]. intros [_ [_ Hall]%Forall_cons]. rewrite <- not_true_iff_false in Hf. destruct Hf.
      apply forallb_forall. intros r Hr%elem_of_list_In. rewrite Forall_forall in Hall. by apply cat_compatible_spec, Hall.
  - split; [|intros _; by apply (Hb (Throw RuntimeError))]. intros [Hd _]. unfold shape in Hd. lia.
Qed.

(** ** released buffers *)
Lemma released_extends h h' r : extends h h' -> released h r -> released h' r.
Proof. intros [Hs _] (x & Hx & Hb). exists x. split; [by apply Hs|done]. Qed.
Lemma released_load h r T p : released h r -> load T (t_sto r) p h = (UB NullDeref, h).
Proof. intros (x & Hx & Hb). unfold load. erewrite bind_ok by (unfold get_sto; by rewrite Hx). by rewrite Hb. Qed.
Lemma idx_exact_some l idx : lay_ok l -> in_range (sizes l) idx -> exists p, cnt_from_index l idx = Ok p.
Proof.
  intros (Hlen & _ & Ho) Hr%in_range_length. unfold cnt_from_index, ldim. rewrite Hr, Nat.eqb_refl. cbn [orun_expect obind].
  rewrite cnt_loop_ok; [by eexists|done|lia].
Qed.
Lemma released_exact h r T idx : lay_ok (t_lay r) -> released h r -> in_range (sizes (t_lay r)) idx -> load_exact T r idx h = (UB NullDeref, h).
Proof.
  intros Hl Hr Hi. unfold load_exact, idx_exact. rewrite bind_lift. destruct (idx_exact_some _ _ Hl Hi) as [p ->]. by apply released_load.
Qed.
Lemma released_aug h r T idx : lay_ok (t_lay r) -> released h r -> (length (sizes (t_lay r)) <= length idx)%nat ->
  in_range (sizes (t_lay r)) (bidx (sizes (t_lay r)) idx) -> load_aug T r idx h = (UB NullDeref, h).
Proof.
  intros Hl Hr Hlen Hi. unfold load_aug, idx_aug. rewrite bind_lift.
  destruct (idx_exact_some _ _ Hl Hi) as [p Hp].
  assert (cnt_from_aug_index (t_lay r) idx = Ok p) as ->; [|by apply released_load].
  unfold cnt_from_aug_index. rewrite aug_rev_ok.
  - rewrite bidx_rev_eq by done. cbn [obind]. by rewrite rev_involutive.
  - by rewrite !rev_length.
  - intros k m i H1 H2. apply in_range_rev in Hi. rewrite <- bidx_rev_eq in Hi by done.
    destruct (decide (m = 1)); [by left|right].
    assert (bidx_rev (rev (sizes (t_lay r))) (rev idx) !! k = Some i) as H3.
    { unfold bidx_rev. rewrite lookup_zip_with, H1. simpl. rewrite H2. simpl. by rewrite (proj2 (Z.eqb_neq m 1)). }
    pose proof (in_range_lookup _ _ _ _ _ Hi H1 H3). lia.
Qed.
Lemma release_frees h t r x : h_ten h !! t = Some r -> h_sto h !! t_sto r = Some x ->
  exists h', exec (ORelease (Some t)) h = (Ok RUnit, h') /\ h_ten h' = h_ten h /\
    (forall s, s <> t_sto r -> h_sto h' !! s = h_sto h !! s) /\
    (forall u ru, h_ten h !! u = Some ru -> t_sto ru = t_sto r -> released h' ru).
Proof.
  intros Ht Hx. cbn [exec]. unfold deref. rewrite bind_ret. erewrite bind_ok by (by apply get_ten_ok). unfold no_result, sto_release.
  rewrite bind_assoc. erewrite bind_ok by (unfold get_sto; by rewrite Hx). eexists. split; [done|]. split_and!; [done| |].
  - intros s Hs. cbn. by rewrite list_lookup_insert_ne by done.
  - intros u ru _ E. rewrite <- E in *. exists (Sto (sto_ty x) (sto_bytes x) None). split; [|done]. cbn. apply list_lookup_insert. by eapply lookup_lt_Some.
Qed.

Lemma for_each_ub {S} range (op : list Z -> M S unit) h u h' : Forall (fun n => 0 < n) range ->
  op (map (fun _ => 0) range) h = (UB u, h') -> for_each_sizevec range op h = (UB u, h').
Proof.
  intros Hp Ho. rewrite for_each_run by (eapply Forall_impl; [exact Hp|]; cbn; lia).
  destruct (Bytes.indices_first range Hp) as [l ->]. cbn [mapM_]. by erewrite bind_ub by exact Ho.
Qed.
Lemma odometer_ub {S R} range (op : list Z -> M S (option R)) h u h' : range <> [] -> Forall (fun n => 0 < n) range ->
  op (map (fun _ => 0) range) h = (UB u, h') -> odometer range op h = (UB u, h').
Proof.
  intros Hne Hp Ho. rewrite odometer_run by done. destruct (Bytes.indices_first range Hp) as [l ->]. cbn [run_idx]. by erewrite bind_ub by exact Ho.
Qed.

Section one.
Context (h : heap) (t : nat) (r : tensor) (Ht : h_ten h !! t = Some r) (Hr : released h r) (Hl : lay_ok (t_lay r))
  (Hp : Forall (fun n => 0 < n) (shape r)) (Hf : fits (t_dt r) (shape r)).
#[local] Definition z0 := map (fun _ : Z => 0) (shape r).
Lemma z0_in : in_range (sizes (t_lay r)) z0.
Proof. by apply in_range_zeros. Qed.
Lemma lay_shape : Forall (fun n => 0 <= n < two64) (shape r).
Proof. apply Hl. Qed.
Lemma gone h' T : extends h h' -> load_exact T r z0 h' = (UB NullDeref, h').
Proof. intros He. apply released_exact; [done|by eapply released_extends|apply z0_in]. Qed.
Lemma gone_numel : lnumel (t_lay r) =? 0 = false.
Proof.
  unfold lnumel. rewrite (allocable_numel (t_dt r)) by (split; [apply lay_shape|exact Hf]).
  apply Z.eqb_neq. assert (0 < size_prod (shape r)); [|unfold shape in *; lia]. clear -Hp. induction Hp; cbn; nia.
Qed.
Lemma copy_gone h' dst To From : extends h h' -> sizes (t_lay dst) = shape r ->
  for_each_sizevec (sizes (t_lay dst)) (copy_body To From dst r) h' = (UB NullDeref, h').
Proof. intros He ->. apply for_each_ub; [done|]. unfold copy_body. erewrite bind_ub by (by apply gone). done. Qed.
Lemma sum_gone h' dst To From : extends h h' -> shape r <> [] -> odometer (shape r) (plain (sum_body To From dst r)) h' = (UB NullDeref, h').
Proof. intros He Hne. apply odometer_ub; [done|done|]. unfold plain, sum_body. rewrite bind_assoc. erewrite bind_ub by (by apply gone). done. Qed.
Lemma abs_gone h' dst To From g : extends h h' -> sizes (t_lay dst) = shape r ->
  tensor_abs To From dst r g h' = (UB NullDeref, h').
Proof. intros He Hs. unfold tensor_abs. rewrite Hs. apply for_each_ub; [done|]. cbv beta. erewrite bind_ub by (by apply gone). done. Qed.
Lemma extends_refl' : extends h h. Proof. by split. Qed.
Lemma alloc_r : allocable (t_dt r) (shape r).
Proof. split; [apply lay_shape|exact Hf]. Qed.
Lemma mul_off n m : n mod size_of (t_dt r) = 0 -> s64 (u64 (n + m * size_of (t_dt r))) mod size_of (t_dt r) = 0.
Proof.
  intros Hn. rewrite s64_u64. unfold s64.
  assert (exists k, two64 = size_of (t_dt r) * k /\ exists j, two63 = size_of (t_dt r) * j) as (k & Ek & j & Ej).
  { destruct (t_dt r); [exists two64|exists (two64 / 2)|exists (two64 / 4)|exists (two64 / 8)|exists (two64 / 4)|exists (two64 / 8)]; (split; [done|]);
      [exists two63|exists (two63 / 2)|exists (two63 / 4)|exists (two63 / 8)|exists (two63 / 4)|exists (two63 / 8)]; done. }
  pose proof (size_of_pos (t_dt r)) as Hs. rewrite (Z.mod_eq _ two64) by (unfold two64; lia).
  assert (n = size_of (t_dt r) * (n / size_of (t_dt r))) as En by (apply Z_div_exact_full_2; lia).
  set (q := (n + m * size_of (t_dt r) + two63) / two64).
  replace (n + m * size_of (t_dt r) + two63 - two64 * q - two63) with ((n / size_of (t_dt r) + m - k * q) * size_of (t_dt r)).
  - apply Z_mod_mult.
  - rewrite Ek. replace n with (size_of (t_dt r) * (n / size_of (t_dt r))) at 2 by lia. ring.
Qed.
Lemma text_gone ss sts off : Forall (fun n => 0 < n) ss -> (length ss <= length sts)%nat -> off mod size_of (t_dt r) = 0 ->
  to_string_helper (t_dt r) (t_sto r) ss sts off h = (UB NullDeref, h).
Proof.
  intros Hss. revert sts off. induction Hss as [|n ss Hn Hss IH]; intros sts off Hlen Ho; cbn [to_string_helper].
  - unfold load_byte_off. rewrite Ho. cbn [Z.eqb]. by erewrite bind_ub by (by apply released_load).
  - destruct sts as [|st sts]; [cbn in Hlen; lia|]. rewrite seqZ_cons by lia. cbn [collect]. rewrite bind_assoc.
    erewrite bind_ub; [done|]. apply IH; [cbn in Hlen; lia|]. by apply mul_off.
Qed.
Lemma shape_case : shape r = [] \/ exists n ss, shape r = n :: ss.
Proof. destruct (shape r) as [|n ss]; [by left|right; by exists n, ss]. Qed.
Lemma clone_gone : exists h', new_handle (op_clone t) h = (UB NullDeref, h') /\ extends h h'.
Proof.
  unfold new_handle, op_clone. rewrite bind_assoc. erewrite bind_ok by (by apply get_ten_ok). rewrite bind_assoc. erewrite bind_ok by (apply create_ok, alloc_r).
  rewrite bind_assoc. erewrite bind_ok by (apply get_ten_ok, alloc_ten). rewrite bind_assoc.
  eexists. split; [|apply alloc_extends]. erewrite bind_ub; [done|]. apply copy_gone; [apply alloc_extends|done].
Qed.
Lemma extremum_gone c : exists h', new_handle (op_extremum c t) h = (UB NullDeref, h') /\ extends h h'.
Proof.
  unfold new_handle, op_extremum. rewrite bind_assoc. erewrite bind_ok by (by apply get_ten_ok). rewrite bind_assoc. erewrite bind_ok by apply zeros_nil.
  rewrite bind_assoc. erewrite bind_ok by (apply get_ten_ok, alloc_ten). destruct (negb (t_rg r)).
  - eexists. split; [|apply alloc_extends]. rewrite bind_assoc. erewrite bind_ub; [done|]. unfold tensor_extremum.
    erewrite bind_ub by (apply released_load; eapply released_extends; [apply alloc_extends|done]). done.
  - unfold zeros_like. rewrite !bind_assoc. erewrite bind_ok by (apply get_ten_ok, alloc_ten_old, Ht). rewrite ?bind_assoc. erewrite bind_ok by (apply zeros_ok, alloc_r).
    rewrite ?bind_assoc. erewrite bind_ok by (apply get_ten_ok, alloc_ten). rewrite ?bind_assoc.
    eexists. split; [|eapply extends_trans; apply alloc_extends]. erewrite bind_ub; [done|]. unfold tensor_extremum.
    erewrite bind_ub by (apply released_load; eapply released_extends; [eapply extends_trans; apply alloc_extends|done]). done.
Qed.
Lemma looks_gone o : looks_at t r o -> exists h', exec o h = (UB NullDeref, h') /\ extends h h'.
Proof.
  intros Ho. destruct Ho; cbn [exec]; unfold un, deref; rewrite ?bind_ret.
  - unfold new_handle, op_sum. rewrite bind_assoc. erewrite bind_ok by (by apply get_ten_ok). rewrite bind_assoc. erewrite bind_ok by apply zeros_nil.
    rewrite bind_assoc. erewrite bind_ok by (apply get_ten_ok, alloc_ten). rewrite bind_assoc.
    eexists. split; [|apply alloc_extends]. erewrite bind_ub; [done|]. unfold tensor_sum. rewrite gone_numel. fold (shape r). 
    destruct shape_case as [E|(n & ss & E)]; rewrite E; [erewrite bind_ub by (apply released_load; eapply released_extends; [apply alloc_extends|done]); done|].
    rewrite <- E. erewrite bind_ub by (apply sum_gone; [apply alloc_extends|congruence]). done.
  - unfold new_handle, op_mean. rewrite bind_assoc. erewrite bind_ok by (by apply get_ten_ok). rewrite bind_assoc. erewrite bind_ok by apply zeros_nil.
    rewrite bind_assoc. erewrite bind_ok by (apply get_ten_ok, alloc_ten). rewrite bind_assoc.
    eexists. split; [|apply alloc_extends]. erewrite bind_ub; [done|]. unfold tensor_mean. rewrite gone_numel. fold (shape r). rewrite bind_lift.
    unfold cvt. destruct (is_int _);
    (destruct shape_case as [E|(n & ss & E)]; rewrite E; [erewrite bind_ub by (apply released_load; eapply released_extends; [apply alloc_extends|done]); done|];
    rewrite <- E; erewrite bind_ub by (apply sum_gone; [apply alloc_extends|congruence]); done).
  - by apply extremum_gone.
  - by apply extremum_gone.
  - unfold new_handle, op_abs. rewrite bind_assoc. erewrite bind_ok by (by apply get_ten_ok). rewrite bind_assoc. erewrite bind_ok by (apply create_ok, alloc_r).
    rewrite bind_assoc. erewrite bind_ok by (apply get_ten_ok, alloc_ten). destruct (negb (t_rg r)).
    + eexists. split; [|apply alloc_extends]. rewrite bind_assoc. erewrite bind_ub; [done|]. apply abs_gone; [apply alloc_extends|done].
    + rewrite bind_assoc. erewrite bind_ok by (apply create_ok, alloc_r). rewrite bind_assoc. erewrite bind_ok by (apply get_ten_ok, alloc_ten).
      eexists. split; [|eapply extends_trans; apply alloc_extends]. rewrite bind_assoc. erewrite bind_ub; [done|].
      apply abs_gone; [eapply extends_trans; apply alloc_extends|done].
  - apply clone_gone.
  - apply clone_gone.
  - unfold new_handle, to_dtype. rewrite bind_assoc. erewrite bind_ok by (by apply get_ten_ok). rewrite H0. rewrite bool_decide_eq_false_2 by done.
    rewrite bind_assoc. erewrite bind_ok by (apply create_ok; split; [apply lay_shape|exact H1]).
    rewrite bind_assoc. erewrite bind_ok by (apply get_ten_ok, alloc_ten). rewrite bind_assoc.
    eexists. split; [|apply alloc_extends]. erewrite bind_ub; [done|]. apply copy_gone; [apply alloc_extends|done].
  - exists h. split; [|apply extends_refl']. unfold op_all. rewrite bind_assoc. erewrite bind_ok by (by apply get_ten_ok). fold (shape r).
    assert (existsb (Z.eqb 0) (shape r) = false) as ->.
    { revert Hp. generalize (shape r). clear. intros l H. induction H as [|n ss Hn _ IH]; [done|]. cbn [existsb]. rewrite IH. by rewrite (proj2 (Z.eqb_neq 0 n)) by lia. }
    assert (forall p, load_bool_byte (t_sto r) p h = (UB NullDeref, h)) as Hb.
    { intros p. destruct Hr as (x & Hx & Hb). unfold load_bool_byte. erewrite bind_ok by (unfold get_sto; by rewrite Hx). by rewrite Hb. }
    pose proof z0_in as Hz. destruct (idx_exact_some _ _ Hl Hz) as [p Hpp]. unfold z0 in Hpp.
    destruct shape_case as [E|(n & ss & E)]; rewrite E.
    + rewrite bind_assoc. unfold idx_exact. rewrite bind_lift. rewrite E in Hpp. cbn in Hpp. rewrite Hpp. by erewrite bind_ub by apply Hb.
    + rewrite <- E, bind_assoc. erewrite bind_ub; [done|]. apply odometer_ub; [congruence|done|]. cbv beta.
      unfold idx_exact. rewrite bind_lift, Hpp. by erewrite bind_ub by apply Hb.
  - exists h. split; [|apply extends_refl']. unfold impl_to_string. rewrite bind_assoc. erewrite bind_ok by (by apply get_ten_ok).
    erewrite bind_ub; [done|]. apply text_gone; [done|apply Hl|].
    replace (offset (t_lay r) * size_of (t_dt r)) with (0 + offset (t_lay r) * size_of (t_dt r)) by lia. apply mul_off. apply Z.mod_0_l. pose proof (size_of_pos (t_dt r)). lia.
Qed.
End one.

(** two operands *)
Section two.
Context (h : heap) (a b : nat) (ra rb : tensor) (Ha : h_ten h !! a = Some ra) (Hb : h_ten h !! b = Some rb)
  (Ga : gone_or_there h ra) (Gb : gone_or_there h rb) (Hg : released h ra \/ released h rb)
  (Hc : compatible (shape ra) (shape rb)) (Pa : Forall (fun n => 0 < n) (shape ra)) (Pb : Forall (fun n => 0 < n) (shape rb)).
Notation ss := (bshape (shape ra) (shape rb)).
Lemma there_shape r : gone_or_there h r -> Forall (fun n => 0 <= n < two64) (shape r).
Proof. intros [[Hl _]|[v Hv]]; [apply Hl|by eapply holds_shape]. Qed.
Lemma both_nz : no_zero_one (shape ra) (shape rb).
Proof.
  intros k x y Hx Hy. assert (0 < x) by (eapply (proj1 (Forall_lookup (fun n => 0 < n) (rev (shape ra)))); [by apply Forall_rev|exact Hx]).
  assert (0 < y) by (eapply (proj1 (Forall_lookup (fun n => 0 < n) (rev (shape rb)))); [by apply Forall_rev|exact Hy]). lia.
Qed.
Lemma both_max : bmax (sizes (t_lay ra)) (sizes (t_lay rb)) = ss.
Proof. apply bmax_bshape; [| |done|apply both_nz]; (eapply Forall_impl; [eassumption|]; cbn; lia). Qed.
Lemma both_pos : Forall (fun n => 0 < n) ss.
Proof. by apply bshape_Forall. Qed.
Lemma both_alloc dt : fits dt ss -> allocable dt ss.
Proof. split; [|done]. apply bshape_Forall; by apply there_shape. Qed.
Lemma load_or r h' idx : gone_or_there h r -> extends h h' -> (length (shape r) <= length idx)%nat -> in_range (shape r) (bidx (shape r) idx) ->
  load_aug (t_dt r) r idx h' = (UB NullDeref, h') \/ ~ released h r /\ exists v, load_aug (t_dt r) r idx h' = (Ok v, h').
Proof.
  intros [[Hl Hr]|[v Hv]] He Hlen Hi.
  - left. apply released_aug; [done|by eapply released_extends|done|done].
  - right. split.
    + intros (x & Hx & Hn). destruct Hv as [(cs & (b0 & Hs) & _) _]. rewrite Hs in Hx. injection Hx as <-. done.
    + eexists. apply holds_aug; [by eapply holds_extends|done|done].
Qed.
(** whichever operand is read first *)
Lemma pair_gone {B} h' (k : val -> val -> E B) : extends h h' -> let z := map (fun _ : Z => 0) ss in
  (let! x := load_aug (t_dt ra) ra z in let! y := load_aug (t_dt rb) rb z in k x y) h' = (UB NullDeref, h') /\
  (let! x := load_aug (t_dt rb) rb z in let! y := load_aug (t_dt ra) ra z in k x y) h' = (UB NullDeref, h').
Proof.
  intros He z. assert (in_range ss z) as Hz by apply in_range_zeros, both_pos.
  pose proof (in_range_length _ _ Hz) as Hlen. rewrite bshape_length in Hlen.
  assert (in_range (shape ra) (bidx (shape ra) z)) as Ia by (by eapply bidx_in_l).
  assert (in_range (shape rb) (bidx (shape rb) z)) as Ib by (by eapply bidx_in_r).
  destruct (load_or ra h' z Ga He ltac:(lia) Ia) as [Ea|(Na & va & Ea)]; destruct (load_or rb h' z Gb He ltac:(lia) Ib) as [Eb|(Nb & vb & Eb)].
  - split; [by erewrite bind_ub by exact Ea|by erewrite bind_ub by exact Eb].
  - split; [by erewrite bind_ub by exact Ea|]. erewrite bind_ok by exact Eb. by erewrite bind_ub by exact Ea.
  - split; [|by erewrite bind_ub by exact Eb]. erewrite bind_ok by exact Ea. by erewrite bind_ub by exact Eb.
  - by destruct Hg.
Qed.
Lemma looks_both_gone o : looks_at_both a b ra rb o -> exists h', exec o h = (UB NullDeref, h') /\ extends h h'.
Proof.
  intros Ho. destruct Ho as [o Hf|c Hf|Hr].
  - rewrite exec_arith_eq. set (D := dt_join (t_dt ra) (t_dt rb)) in *.
    exists (alloc_heap h D (contig ss) (replicate (Z.to_nat (size_prod ss)) None) false None). split; [|apply alloc_extends].
    unfold new_handle. rewrite op_arith_eq. unfold apply_binary_operator, apply_no_grad_binary_op.
    rewrite !bind_assoc. erewrite bind_ok by (by apply get_ten_ok).
    rewrite !bind_assoc. erewrite bind_ok by (by apply get_ten_ok).
    rewrite !bind_assoc, bind_lift, broadcast_range_max, both_max.
    rewrite !bind_assoc. rewrite larger_join. fold D. erewrite bind_ok by (apply create_ok, both_alloc, Hf). simpl sizes.
    rewrite !bind_assoc. erewrite bind_ok by (apply get_ten_ok, alloc_ten). rewrite !bind_assoc.
    assert (forall D', for_each_sizevec ss (binary_body o D' (t_dt ra) (t_dt rb) (fresh_rec h D (contig ss) false None) ra rb)
      (alloc_heap h D (contig ss) (replicate (Z.to_nat (size_prod ss)) None) false None) =
      (UB NullDeref, alloc_heap h D (contig ss) (replicate (Z.to_nat (size_prod ss)) None) false None)) as K1.
    { intros D'. apply for_each_ub; [apply both_pos|]. apply pair_gone, alloc_extends. }
    assert (forall D', for_each_sizevec ss (binary_body o D' (t_dt rb) (t_dt ra) (fresh_rec h D (contig ss) false None) rb ra)
      (alloc_heap h D (contig ss) (replicate (Z.to_nat (size_prod ss)) None) false None) =
      (UB NullDeref, alloc_heap h D (contig ss) (replicate (Z.to_nat (size_prod ss)) None) false None)) as K2.
    { intros D'. apply for_each_ub; [apply both_pos|]. apply pair_gone, alloc_extends. }
    erewrite bind_ub; [done|].
    destruct (order_of o) eqn:Eo; [|destruct (bool_decide (t_dt ra = D))];
      (erewrite kernel_loop; [| |done|done]); try (by apply K1); try (by apply K2);
      rewrite broadcast_range_max; try (by rewrite both_max). by rewrite bmax_comm, both_max.
  - cbn [exec]. unfold bin, deref. rewrite !bind_ret. unfold new_handle, op_cmp.
    exists (alloc_heap h I8 (contig ss) (replicate (Z.to_nat (size_prod ss)) None) false None). split; [|apply alloc_extends].
    rewrite !bind_assoc. erewrite bind_ok by (by apply get_ten_ok).
    rewrite !bind_assoc. erewrite bind_ok by (by apply get_ten_ok).
    rewrite !bind_assoc, bind_lift, broadcast_range_max, both_max.
    rewrite !bind_assoc. erewrite bind_ok by (apply create_ok, both_alloc, Hf). simpl sizes.
    rewrite !bind_assoc. erewrite bind_ok by (apply get_ten_ok, alloc_ten). rewrite !bind_assoc.
    erewrite bind_ub; [done|]. unfold tensor_cmp. apply for_each_ub; [apply both_pos|]. apply pair_gone, alloc_extends.
  - cbn [exec]. unfold deref. rewrite !bind_ret. unfold no_result, op_addeq. exists h. split; [|by split].
    rewrite !bind_assoc. erewrite bind_ok by (by apply get_ten_ok).
    rewrite !bind_assoc. erewrite bind_ok by (by apply get_ten_ok). rewrite Hr. cbn [negb run_expect]. rewrite !bind_assoc, bind_ret.
    unfold tensor_add. rewrite !bind_assoc, bind_lift, broadcast_range_max, both_max. erewrite bind_ub; [done|].
    apply for_each_ub; [apply both_pos|]. apply pair_gone. by split.
Qed.
End two.
End with_fops.
