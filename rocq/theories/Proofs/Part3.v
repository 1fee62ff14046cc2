(** abs of a slice; all() on every type. *)
From Verif.Spec Require Export Part.
From Verif.Proofs Require Export Api4.
From Verif.Model Require Import Api.

Section with_fops.
Context {fo : FOps}.

(** ** abs *)
Lemma store_at h s T b cs p v : h_sto h !! s = Some (Sto T b (Some cs)) -> 0 <= p ->
  store T s p v h = if p <? Z.of_nat (length cs) then (Ok tt, put h s (Sto T b (Some (<[Z.to_nat p := Some v]> cs)))) else (UB OutOfBounds, h).
Proof.
  intros Hs Hp. destruct (Z.ltb_spec p (Z.of_nat (length cs))).
  - by apply store_ok.
  - unfold store. rewrite (bind_ok _ _ _ _ _ (get_sto_ok _ _ _ Hs)). simpl. rewrite bool_decide_true by done.
    destruct (Z.leb_spec 0 p); [|lia]. destruct (Z.ltb_spec p (Z.of_nat (length cs))); [lia|]. done.
Qed.
Definition buf (h : heap) (d : tensor) (T : dtype) (n : Z) : Prop := exists b cs, h_sto h !! t_sto d = Some (Sto T b (Some cs)) /\ Z.of_nat (length cs) = n.
Definition abs_inv (r d : tensor) (grad : option tensor) (v : list Z -> val) (n : Z) (h : heap) : Prop :=
  holds h r v /\ buf h d (t_dt r) n /\ match grad with Some g => buf h g (t_dt r) n | None => True end.
Lemma buf_put h d s T n b cs cs' x : h_sto h !! s = Some (Sto T b (Some cs)) -> length cs' = length cs -> buf h d x n -> buf (put h s (Sto T b (Some cs'))) d x n.
Proof.
  intros Hs Hl (b1 & cs1 & H1 & H2). destruct (decide (s = t_sto d)) as [->|Hne].
  - rewrite Hs in H1. simplify_eq. exists b1, cs'. split; [by eapply put_lookup|]. lia.
  - exists b1, cs1. split; [by rewrite put_lookup_ne|done].
Qed.
Lemma abs_loop r d grad v n l h :
  abs_inv r d grad v n h -> t_lay d = t_lay r -> t_sto d <> t_sto r ->
  match grad with Some g => t_lay g = t_lay r /\ t_sto g <> t_sto r | None => True end ->
  (forall idx, idx ∈ l -> in_range (shape r) idx) ->
  (forall idx, in_range (shape r) idx -> is_Some (abs_val (t_dt r) (v idx))) ->
  Exists (fun idx => n <= pos (t_lay r) idx) l ->
  exists h', mapM_ (fun sv =>
    let! tmp := load_exact (t_dt r) r sv in
    let! ge := lift (cmpop CGe (t_dt r) I32 tmp (VI 0)) in
    let put (T : dtype) (v : val) : E unit :=
      let! p := idx_exact d sv in store_cvt T (t_dt r) (t_sto d) p v in
    let putg (z : Z) : E unit :=
      match grad with
      | None => mret tt
      | Some g => let! p := idx_exact g sv in store_cvt I32 (t_dt r) (t_sto g) p (VI z)
      end in
    if ge : bool then putg 1 ;;; put (t_dt r) tmp
    else
      putg (-1) ;;;
      let! m := lift (negop (t_dt r) tmp) in put (prom (t_dt r) I32) m) l h = (UB OutOfBounds, h').
Proof.
  intros Hinv Hld Hsd Hg Hl Hab. revert h Hinv. induction l as [|idx l IH]; intros h Hinv Hex; [by apply Exists_nil in Hex|].
  assert (in_range (shape r) idx) as Hi by (apply Hl; left).
  destruct (Hab idx Hi) as [w Hw].
  assert (forall h1, holds h1 r v -> has_ty (t_dt r) (v idx) /\ 0 <= pos (t_lay r) idx /\ forall x h2, t_lay x = t_lay r -> idx_exact x idx h2 = (Ok (pos (t_lay r) idx), h2)) as Hpos.
  { intros h1 [(cs & Hb) He]. split; [by apply He|]. destruct (backed_idx _ _ _ idx Hb Hi) as [Hx Hp]. split; [lia|].
    intros x h2 Hlx. unfold idx_exact, lift in *. rewrite Hlx. injection Hx as ->. done. }
  destruct (Hpos h ltac:(apply Hinv)) as (Hty & Hp0 & Hix).
  assert (forall x S z y h1, abs_inv r d grad v n h1 -> t_lay x = t_lay r -> t_sto x <> t_sto r -> buf h1 x (t_dt r) n -> cvt S (t_dt r) z = Ok y ->
    exists h2, (let! p := idx_exact x idx in store_cvt S (t_dt r) (t_sto x) p z) h1 =
      (if pos (t_lay r) idx <? n then (Ok tt, h2) else (UB OutOfBounds, h2)) /\ abs_inv r d grad v n h2) as Hst.
  { intros x S z y h1 (I1 & I2 & I3) Hlx Hsx (b & cs & Hs & Hn) Hc. erewrite bind_ok by (by apply Hix). unfold store_cvt. rewrite bind_lift, Hc.
    erewrite store_at by done. rewrite Hn. destruct (pos (t_lay r) idx <? n); [|by exists h1].
    eexists. split; [done|]. split; [by apply holds_put|]. split.
    - by eapply buf_put; [|apply insert_length|].
    - destruct grad; [|done]. by eapply buf_put; [|apply insert_length|]. }
  assert (forall (b : bool) h1, abs_inv r d grad v n h1 ->
    exists h2, (match grad with
      | None => mret tt
      | Some g => let! p := idx_exact g idx in store_cvt I32 (t_dt r) (t_sto g) p (VI (if b then 1 else -1))
      end) h1 = (if decide (is_Some grad /\ n <= pos (t_lay r) idx) then (UB OutOfBounds, h2) else (Ok tt, h2)) /\ abs_inv r d grad v n h2) as Hsg.
  { intros b h1 Hi1. destruct grad as [g|].
    - destruct Hg as [Hlg Hsg]. destruct (Hst g I32 (VI (if b then 1 else -1)) _ h1 Hi1 Hlg Hsg ltac:(apply Hi1) (sign_cvt (t_dt r) b)) as (h2 & E & H2).
      exists h2. split; [|done]. rewrite E. destruct (Z.ltb_spec (pos (t_lay r) idx) n); [rewrite decide_False by (intros []; lia)|rewrite decide_True by eauto]; done.
    - exists h1. split; [|done]. rewrite decide_False; [done|]. by intros [[] _]. }
  assert (exists h2, (let! tmp := load_exact (t_dt r) r idx in
    let! ge := lift (cmpop CGe (t_dt r) I32 tmp (VI 0)) in
    let put (T : dtype) (v : val) : E unit :=
      let! p := idx_exact d idx in store_cvt T (t_dt r) (t_sto d) p v in
    let putg (z : Z) : E unit :=
      match grad with
      | None => mret tt
      | Some g => let! p := idx_exact g idx in store_cvt I32 (t_dt r) (t_sto g) p (VI z)
      end in
    if ge : bool then putg 1 ;;; put (t_dt r) tmp
    else
      putg (-1) ;;;
      let! m := lift (negop (t_dt r) tmp) in put (prom (t_dt r) I32) m) h =
     (if pos (t_lay r) idx <? n then (Ok tt, h2) else (UB OutOfBounds, h2)) /\ abs_inv r d grad v n h2) as (h2 & Hb & Hinv2).
  { erewrite bind_ok by (apply holds_exact; [apply Hinv|done]). rewrite bind_lift, abs_cmp by done. cbv zeta.
    destruct (match v idx with VI x => _ | VF x => _ end) eqn:Es.
    - destruct (abs_pos _ _ Hty Es) as [_ Hc]. destruct (Hsg true h Hinv) as (h1 & E1 & I1). case_decide as D.
      + erewrite bind_ub by exact E1. exists h1. destruct (Z.ltb_spec (pos (t_lay r) idx) n); [|done]. destruct D; lia.
      + erewrite bind_ok by exact E1. destruct (Hst d (t_dt r) (v idx) _ h1 I1 Hld Hsd ltac:(apply I1) Hc) as (h2 & E2 & I2). exists h2. done.
    - pose proof (abs_neg _ _ Hty Es) as Hn. rewrite Hw in Hn. destruct (Hsg false h Hinv) as (h1 & E1 & I1). case_decide as D.
      + erewrite bind_ub by exact E1. exists h1. destruct (Z.ltb_spec (pos (t_lay r) idx) n); [|done]. destruct D; lia.
      + erewrite bind_ok by exact E1. rewrite bind_lift. destruct (negop (t_dt r) (v idx)) as [m| | |]; try done. cbn [obind] in Hn.
        destruct (Hst d (prom (t_dt r) I32) m _ h1 I1 Hld Hsd ltac:(apply I1) Hn) as (h2 & E2 & I2). exists h2. done. }
  cbn [mapM_]. destruct (Z.ltb_spec (pos (t_lay r) idx) n).
  - erewrite bind_ok by exact Hb. apply IH; [intros; apply Hl; by right|done|]. apply Exists_cons in Hex as [?|?]; [lia|done].
  - exists h2. by erewrite bind_ub by exact Hb.
Qed.
Lemma abs_outside h t r v :
  tensor_at h t r v -> fits (t_dt r) (shape r) ->
  (forall idx, in_range (shape r) idx -> is_Some (abs_val (t_dt r) (v idx))) ->
  (exists idx, in_range (shape r) idx /\ size_prod (shape r) <= pos (t_lay r) idx) ->
  exists h', exec (OAbs (Some t)) h = (UB OutOfBounds, h').
Proof.
  intros [Ht Hh] Hf Hab (idx & Hi & Hp). pose proof (holds_allocable _ _ _ _ Hh Hf) as Ha. pose proof (allocable_prod _ _ Ha) as Hn.
  assert (Exists (fun idx => size_prod (shape r) <= pos (t_lay r) idx) (indices (shape r))) as Hex.
  { apply Exists_exists. exists idx. split; [by apply elem_of_indices|done]. }
  assert (t_sto r < length (h_sto h))%nat as Hlt. { destruct (holds_some _ _ _ Hh) as [x Hx]. by eapply lookup_lt_Some. }
  cbn [exec]. rewrite un_some, new_handle_eq. unfold op_abs. erewrite bind_ok by (by apply get_ten_ok).
  erewrite bind_ok by (by apply create_ok). erewrite bind_ok by (apply get_ten_ok, alloc_ten).
  set (cs := replicate _ None).
  assert (Z.of_nat (length cs) = size_prod (shape r)) as Hcs by (unfold cs; rewrite replicate_length; unfold shape in *; lia).
  destruct (t_rg r); cbn [negb].
  - erewrite bind_ok by (by apply create_ok). fold cs. erewrite bind_ok by (apply get_ten_ok, alloc_ten). unfold tensor_abs.
    rewrite bind_for_each by exact (holds_nonneg _ _ _ Hh). cbn [sizes t_lay fresh_rec].
    destruct (abs_loop r (fresh_rec h (t_dt r) (t_lay r) false None) (Some (fresh_rec (alloc_heap h (t_dt r) (t_lay r) cs false None) (t_dt r) (t_lay r) false None)) v (size_prod (shape r)) (indices (sizes (t_lay r)))
      (alloc_heap (alloc_heap h (t_dt r) (t_lay r) cs false None) (t_dt r) (t_lay r) cs false None)) as [h' E]; try done.
    + split; [eapply holds_extends; [|exact Hh]; eapply extends_trans; apply alloc_extends|]. split.
      * eexists _, cs. split; [|done]. apply alloc_sto_old, alloc_sto.
      * eexists _, cs. split; [|done]. cbn [t_sto fresh_rec]. apply alloc_sto.
    + cbn. lia.
    + split; [done|]. cbn. rewrite app_length. lia.
    + by intros i ?%elem_of_indices.
    + exists h'. by erewrite bind_ub by exact E.
  - unfold tensor_abs. rewrite bind_for_each by exact (holds_nonneg _ _ _ Hh). cbn [sizes t_lay fresh_rec].
    destruct (abs_loop r (fresh_rec h (t_dt r) (t_lay r) false None) None v (size_prod (shape r)) (indices (sizes (t_lay r)))
      (alloc_heap h (t_dt r) (t_lay r) cs false None)) as [h' E]; try done.
    + split; [eapply holds_extends; [|exact Hh]; apply alloc_extends|]. split; [|done].
      eexists _, cs. split; [|done]. apply alloc_sto.
    + cbn. lia.
    + by intros i ?%elem_of_indices.
    + exists h'. by erewrite bind_ub by exact E.
Qed.

(** ** all() *)
Lemma le_bytes_nth n k z : (k < n)%nat -> 0 <= z -> nth k (le_bytes n z) 0 = z / 256 ^ Z.of_nat k mod 256.
Proof.
  revert k z. induction n as [|n IH]; intros k z Hk Hz; [lia|]. cbn [le_bytes]. destruct k as [|k]; cbn [nth].
  - by rewrite Z.pow_0_r, Z.div_1_r.
  - rewrite IH by (lia || (apply Z.div_pos; lia)). rewrite Nat2Z.inj_succ, Z.pow_succ_r by lia.
    rewrite Z.div_div by (pose proof (Z.pow_pos_nonneg 256 (Z.of_nat k)); lia). done.
Qed.
Lemma byte_load h r v p b : holds h r v -> floating (t_dt r) = false -> 0 <= p < two63 -> byte_at h r p = Some b -> b = 0 \/ b = 1 ->
  load_bool_byte (t_sto r) p h = (Ok (b =? 1), h).
Proof.
  intros [(cs & (bt & Hs) & _ & _ & Hlen) _] Hf Hp Hb H01. pose proof (size_of_pos (t_dt r)) as Hw.
  unfold byte_at, cells in Hb. rewrite Hs in Hb. cbn [sto_blob] in Hb.
  destruct (cs !! Z.to_nat (p / size_of (t_dt r))) as [[[z|]|]|] eqn:Hc; try done. injection Hb as Hb.
  unfold load_bool_byte. erewrite bind_ok by (by apply get_sto_ok). cbn [sto_blob sto_ty]. rewrite Hc.
  pose proof (lookup_lt_Some _ _ _ Hc) as Hlt. pose proof (Z.div_pos p (size_of (t_dt r)) ltac:(lia) ltac:(lia)).
  pose proof (Z.mul_succ_div_gt p (size_of (t_dt r)) ltac:(lia)) as Hg.
  destruct (Z.leb_spec 0 p); [|lia]. destruct (Z.ltb_spec p (size_of (t_dt r) * Z.of_nat (length cs))); [|nia]. cbn [andb].
  unfold val_bytes. pose proof (Z.mod_pos_bound p (size_of (t_dt r)) ltac:(lia)) as Hm.
  assert (bits_of (t_dt r) = width (t_dt r)) as -> by (by destruct (t_dt r)).
  rewrite le_bytes_nth; [|lia|apply Z.mod_pos_bound; destruct (t_dt r); done]. rewrite Z2Nat.id by lia. rewrite Hb.
  by destruct H01 as [->| ->].
Qed.
Lemma run_all_bytes h r v b l :
  holds h r v -> floating (t_dt r) = false ->
  (forall idx, idx ∈ l -> in_range (sizes (t_lay r)) idx) ->
  (forall idx, in_range (sizes (t_lay r)) idx -> byte_at h r (pos (t_lay r) idx) = Some (b idx) /\ (b idx = 0 \/ b idx = 1)) ->
  run_idx (fun sv =>
             let! p := idx_exact r sv in
             let! b := load_bool_byte (t_sto r) p in
             mret (if b : bool then None else Some false)) l h =
  (Ok (if forallb (fun idx => b idx =? 1) l then None else Some false), h).
Proof.
  intros Hh Ht Hl Hv. induction l as [|idx l IH]; [done|].
  assert (in_range (sizes (t_lay r)) idx) as Hi by (apply Hl; left).
  destruct (Hh) as [(cs & Hb) _]. destruct (backed_idx _ _ _ idx Hb Hi) as [Hp Hp'].
  destruct (Hv idx Hi) as [Hby H01].
  cbn [run_idx]. rewrite bind_assoc. erewrite bind_ok by exact Hp.
  rewrite bind_assoc. erewrite bind_ok by (eapply byte_load; try done; destruct Hb as (_ & _ & _ & ?); lia).
  rewrite bind_ret. cbn [forallb]. destruct (b idx =? 1); cbn [andb]; [|done].
  apply IH. intros idx' Hi'. apply Hl. by right.
Qed.
Lemma all_bytes h t r v b :
  tensor_at h t r v -> floating (t_dt r) = false ->
  (forall idx, in_range (shape r) idx -> byte_at h r (pos (t_lay r) idx) = Some (b idx) /\ (b idx = 0 \/ b idx = 1)) ->
  exists x, exec (QAll (Some t)) h = (Ok (RBool x), h) /\ (x = true <-> forall idx, in_range (shape r) idx -> b idx = 1).
Proof.
  intros [Ht Hh] Hty Hv. unfold shape in *.
  exists (forallb (fun idx => b idx =? 1) (indices (sizes (t_lay r)))). split.
  - cbn [exec deref]. rewrite bind_ret. unfold op_all. rewrite bind_assoc.
    erewrite bind_ok by (by apply get_ten_ok).
    pose proof (holds_nonneg _ _ _ Hh) as Hn.
    destruct (existsb (Z.eqb 0) (sizes (t_lay r))) eqn:Hz.
    { apply existsb_zero_true in Hz. rewrite indices_empty by done. done. }
    pose proof (existsb_zero_false _ Hn Hz) as Hp.
    pose proof (run_all_bytes h r v b (indices (sizes (t_lay r))) Hh Hty
      ltac:(by intros ? ?%elem_of_indices) Hv) as Hrun.
    destruct (sizes (t_lay r)) as [|n ss] eqn:Hs.
    + destruct (Hh) as [(cs & Hb) _].
      destruct (backed_idx _ _ _ [] Hb) as [Hpos Hpr]; [rewrite Hs; constructor|].
      rewrite bind_assoc. erewrite bind_ok by exact Hpos.
      destruct (Hv [] ltac:(constructor)) as [Hby H01].
      erewrite bind_ok. 2:{ eapply byte_load; try done. destruct Hb as (_ & _ & _ & ?). lia. }
      cbn. by destruct (b [] =? 1).
    + rewrite bind_assoc. erewrite bind_ok.
      2:{ rewrite odometer_run by done. exact Hrun. }
      rewrite bind_ret. by destruct (forallb _ _).
  - rewrite forallb_forall. split.
    + intros H idx Hi. specialize (H idx). rewrite <- elem_of_list_In, elem_of_indices in H. by apply Z.eqb_eq, H.
    + intros H idx Hi. rewrite <- elem_of_list_In, elem_of_indices in Hi. by apply Z.eqb_eq, H.
Qed.
(** a packed tensor of ones *)
Lemma all_wide h t r v :
  tensor_at h t r v -> floating (t_dt r) = false -> t_dt r <> I8 -> row_major_lay (t_lay r) -> 2 <= size_prod (shape r) ->
  (forall idx, in_range (shape r) idx -> v idx = VI 1) ->
  exec (QAll (Some t)) h = (Ok (RBool false), h).
Proof.
  intros Ta Hf H8 Hlay H2 Hv. pose proof Ta as [Ht Hh]. pose proof (holds_nonneg _ _ _ Hh) as Hnn. pose proof (size_of_pos (t_dt r)) as Hw.
  assert (forall idx, in_range (shape r) idx -> pos (t_lay r) idx = row_major (shape r) idx) as Hpos.
  { intros idx Hi. by apply Hlay. }
  assert (forall k, (k < Z.to_nat (size_prod (shape r)))%nat -> exists idx, in_range (shape r) idx /\ row_major (shape r) idx = Z.of_nat k) as Hk.
  { intros k Hk. destruct (lookup_lt_is_Some_2 (indices (shape r)) k) as [idx Hi].
    { pose proof (length_indices (shape r) Hnn). lia. }
    apply indices_lookup_inv in Hi as [Hi Hr]; [|done]. by exists idx. }
  destruct (all_bytes h t r v (fun idx => if pos (t_lay r) idx mod size_of (t_dt r) =? 0 then 1 else 0)) as (x & E & Hx); [done|done| |].
  - intros idx Hi. split; [|by destruct (_ =? 0); auto].
    destruct Hh as [(cs & Hb) Hel]. destruct (backed_idx _ _ _ idx Hb Hi) as [_ Hp].
    assert (row_major (shape r) idx < size_prod (shape r)) as Hlt by (by apply row_major_bounds).
    rewrite Hpos in * by done.
    assert (0 <= row_major (shape r) idx / size_of (t_dt r) <= row_major (shape r) idx) as Hq.
    { split; [apply Z.div_pos; lia|]. apply Z.div_le_upper_bound; [lia|]. nia. }
    destruct (Hk (Z.to_nat (row_major (shape r) idx / size_of (t_dt r)))) as (j & Hj & Hrj); [lia|].
    destruct (Hel j Hj) as [He _]. rewrite Hv in He by done.
    apply elem_lookup in He as (cs' & Hc & _ & Hl). rewrite Hpos, Hrj, Z2Nat.id in Hl by (done || lia).
    unfold byte_at. rewrite Hc, Hl.
    pose proof (Z.mod_pos_bound (row_major (shape r) idx) (size_of (t_dt r)) ltac:(lia)) as Hm.
    set (m := row_major (shape r) idx mod size_of (t_dt r)) in *. clearbody m.
    rewrite (Z.mod_small 1) by (by destruct (t_dt r)).
    destruct (Z.eqb_spec m 0) as [->|Hne]; [done|].
    rewrite Z.div_small; [done|]. split; [done|]. apply Z.pow_gt_1; lia.
  - rewrite E. destruct x; [|done]. exfalso. destruct (Hk 1%nat) as (idx & Hi & Hr); [lia|].
    destruct Hx as [Hx _]. specialize (Hx eq_refl idx Hi). cbv beta in Hx. rewrite Hpos, Hr in Hx by done.
    destruct (t_dt r); done.
Qed.
End with_fops.
