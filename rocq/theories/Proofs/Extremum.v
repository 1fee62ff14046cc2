(** max() and min() of any tensor: the loop starts from the first cell of the buffer. *)
From Verif.Spec Require Export Part.
From Verif.Proofs Require Export Api4.
From Verif.Model Require Import Api.
Import Verif.Proofs.Reduce.

Section with_fops.
Context {fo : FOps}.

Lemma bind_eq {A B} (m m' : E A) (f : A -> E B) s s' : m s = m' s' -> bind m f s = bind m' f s'.
Proof. intros E. unfold bind. by rewrite E. Qed.

(** [st m]: the state in which the result contains [m] *)
Lemma ext_loop (c : cop) (r : tensor) (v : list Z -> val) (sd : nat) (d : tensor) (l0 : list val) (st : val -> heap) :
  c = CGe \/ c = CLe -> t_sto d = sd -> (forall m, holds (st m) r v) ->
  (forall m, load (t_dt r) sd 0 (st m) = (Ok m, st m)) ->
  (forall m a, store (t_dt r) sd 0 a (st m) = (Ok tt, st a)) ->
  ordered l0 -> forall (l : list (list Z)) (m : val) (sv : list Z),
  (forall idx, idx ∈ l -> in_range (shape r) idx) ->
  has_ty (t_dt r) m -> m ∈ l0 -> (forall idx, idx ∈ l -> v idx ∈ l0) ->
  exists m' sv',
    mapM_ (extremum_body c (t_dt r) d r) l (st m, sv) = (Ok tt, (st m', sv')) /\
    has_ty (t_dt r) m' /\ m' ∈ l0 /\
    dom c m m' = true /\ (forall idx, idx ∈ l -> dom c (v idx) m' = true) /\
    (m' = m /\ sv' = sv \/ sv' ∈ l /\ m' = v sv' /\ dom c (v sv') m = false).
Proof.
  intros Hc Hd Hh Hload Hstore Ho. destruct (ordered_dom c l0 Ho Hc) as [Htot Htr].
  induction l as [|idx l IH]; intros m sv Hl Hm Hm0 Hv0.
  - exists m, sv. split; [done|]. split; [done|]. split; [done|].
    split; [by destruct (Htot m m)|]. split; [intros ? H; inversion H|]. by left.
  - assert (in_range (shape r) idx) as Hi by (apply Hl; left).
    assert (has_ty (t_dt r) (v idx)) as Hx by (by eapply (Hh m)).
    assert (v idx ∈ l0) as Hx0 by (apply Hv0; left).
    assert (forall j, j ∈ l -> in_range (shape r) j) as Hl' by (intros; apply Hl; by right).
    assert (forall j, j ∈ l -> v j ∈ l0) as Hv0' by (intros; apply Hv0; by right).
    cbn [mapM_].
    assert (extremum_body c (t_dt r) d r idx (st m, sv) =
      (Ok tt, if dom c (v idx) m then (st m, sv) else (st (v idx), idx))) as Hb.
    { unfold extremum_body. erewrite bind_ok.
      2:{ unfold on_heap. erewrite holds_exact; [done|by apply Hh|done]. }
      erewrite bind_ok.
      2:{ unfold on_heap. by rewrite Hd, Hload. }
      rewrite bind_lift, cmpop_cpp, cpp_cmp_dom by done.
      destruct (dom c (v idx) m); [done|]. unfold bind, on_heap. by rewrite Hd, Hstore. }
    erewrite bind_ok by exact Hb. destruct (dom c (v idx) m) eqn:Ed.
    + destruct (IH m sv Hl' Hm Hm0 Hv0') as (m' & sv' & Hr & Hm' & Hin & Hdm & Hall & Hsv).
      exists m', sv'. split; [done|]. split; [done|]. split; [done|]. split; [done|]. split.
      * intros j [->|Hj]%elem_of_cons; [|auto]. eapply (Htr _ m); auto.
      * destruct Hsv as [?|(? & ? & ?)]; [by left|right]. split; [by right|done].
    + destruct (IH (v idx) idx Hl' Hx Hx0 Hv0') as (m' & sv' & Hr & Hm' & Hin & Hdm & Hall & Hsv).
      assert (dom c m (v idx) = true) as Hmx.
      { destruct (Htot m (v idx)) as [?|?]; auto. congruence. }
      exists m', sv'. split; [done|]. split; [done|]. split; [done|].
      split; [eapply (Htr m (v idx)); auto|]. split.
      * intros j [->|Hj]%elem_of_cons; auto.
      * right. destruct Hsv as [[-> ->]|(Hs1 & -> & Hs3)].
        -- split; [left|done].
        -- split; [by right|]. split; [done|].
           destruct (dom c (v sv') m) eqn:E; [|done].
           rewrite <- Hs3. symmetry. eapply (Htr _ m); auto.
Qed.

Lemma row_elems_in ss (v : list Z -> val) idx : in_range ss idx -> v idx ∈ row_elems ss v.
Proof. intros Hi. apply elem_of_list_fmap. exists idx. split; [done|]. by apply elem_of_indices. Qed.

(** what the loop leaves: the extremum [m] and the index [best] *)
Definition ext_result (c : cop) (ss : list Z) (v : list Z -> val) (x0 m : val) (best : list Z) : Prop :=
  dom c x0 m = true /\ (forall idx, in_range ss idx -> dom c (v idx) m = true) /\
  (m = x0 /\ best = [] /\ (forall idx, in_range ss idx -> dom c (v idx) x0 = true) \/
   in_range ss best /\ m = v best /\ dom c (v best) x0 = false).

Lemma ext_run c h r v x0 d g (st : val -> heap) m0 :
  c = CGe \/ c = CLe -> (forall m, holds (st m) r v) -> first_cell h r x0 -> holds h r v ->
  h_sto (st m0) !! t_sto r = h_sto h !! t_sto r ->
  (forall m, load (t_dt r) (t_sto d) 0 (st m) = (Ok m, st m)) ->
  (forall m a, store (t_dt r) (t_sto d) 0 a (st m) = (Ok tt, st a)) ->
  ordered (x0 :: row_elems (shape r) v) ->
  exists m best, ext_result c (shape r) v x0 m best /\ has_ty (t_dt r) m /\
    tensor_extremum c (t_dt r) d r g (st m0) =
      match g with None => (Ok tt, st m)
      | Some g => (let! p := idx_exact g best in store_cvt I32 (t_dt r) (t_sto g) p (VI 1)) (st m) end.
Proof.
  intros Hc Hh Hfc Hh0 Hsame Hload Hstore Ho. destruct Hfc as (cs & Hcs & Hc0 & Hty).
  destruct (ext_loop c r v (t_sto d) d (x0 :: row_elems (shape r) v) st Hc eq_refl Hh Hload Hstore Ho
    (indices (shape r)) x0 []) as (m & best & Hrun & Hm & Hml & Hd & Hall & Hsv).
  { intros idx Hi. by apply elem_of_indices. }
  { done. } { left. }
  { intros idx Hi. right. by apply row_elems_in, elem_of_indices. }
  assert (load (t_dt r) (t_sto r) 0 (st m0) = (Ok x0, st m0)) as Hl0.
  { destruct Hh0 as [(cs' & (b & Hb) & _) _]. unfold cells in Hcs. rewrite Hb in Hcs. simpl in Hcs. apply (inj Some) in Hcs as ->.
    eapply load_ok; [by rewrite Hsame, Hb|lia|done]. }
  exists m, best. split.
  - split; [done|]. split; [intros idx Hi; by apply Hall, elem_of_indices|].
    destruct Hsv as [[-> ->]|(H1 & -> & H3)]; [left|right; split; [by apply elem_of_indices|done]].
    split; [done|]. split; [done|]. intros idx Hi. by apply Hall, elem_of_indices.
  - split; [done|]. unfold tensor_extremum. erewrite bind_ok by exact Hl0. erewrite bind_ok by apply Hstore.
    rewrite (bind_ok _ _ _ best (st m)); [by destruct g|].
    rewrite for_each_run by exact (holds_nonneg _ _ _ Hh0). unfold shape in Hrun. by rewrite Hrun.
Qed.

(** ** untracked *)
Lemma ext_untracked c h t r v x0 :
  c = CGe \/ c = CLe -> h_ten h !! t = Some r -> holds h r v -> t_rg r = false ->
  first_cell h r x0 -> ordered (x0 :: row_elems (shape r) v) ->
  exists m best, ext_result c (shape r) v x0 m best /\ has_ty (t_dt r) m /\
    op_extremum c t h = (Ok (length (h_ten h)), scal h (t_dt r) (Some m) false None).
Proof.
  intros Hc Ht Hh Hrg Hfc Ho.
  destruct (ext_run c h r v x0 (scal_rec h (t_dt r) false None) None (fun m => scal h (t_dt r) (Some m) false None) (zero_val (t_dt r)))
    as (m & best & Hr & Hm & E); try done.
  - intros m. by apply scal_holds.
  - destruct Hh as [(cs & (b & Hb) & _) _]. rewrite Hb. by apply alloc_sto_old.
  - intros m. apply scal_load.
  - intros m a. apply scal_store.
  - exists m, best. split; [done|]. split; [done|]. unfold op_extremum. erewrite bind_ok by (by apply get_ten_ok).
    erewrite bind_ok by apply zeros_nil. erewrite bind_ok by (apply get_ten_ok, alloc_ten).
    rewrite Hrg. cbn [negb]. by erewrite bind_ok by exact E.
Qed.

(** ** tracked *)
(** the result and the tensor of its slopes *)
Definition ext_heap (h : heap) (T : dtype) (ss : list Z) (m : val) (w : list Z -> val) (rg : bool) (fn : option gradfn) : heap :=
  alloc_heap (scal h T (Some m) rg fn) T (contig ss) (rm_cells ss w) false None.
Definition ext_g (h : heap) (T : dtype) (ss : list Z) : tensor := Ten T (contig ss) (S (length (h_sto h))) None false false None.
Lemma ext_g_eq h T ss m rg fn : fresh_rec (scal h T (Some m) rg fn) T (contig ss) false None = ext_g h T ss.
Proof. unfold fresh_rec, ext_g. simpl. rewrite app_length. simpl. by rewrite Nat.add_comm. Qed.
Lemma ext_sto h T ss m w rg fn : h_sto (ext_heap h T ss m w rg fn) !! length (h_sto h) = Some (Sto T (size_of T * 1) (Some [Some m])).
Proof. apply alloc_sto_old. apply (alloc_sto h T (contig [])). Qed.
Lemma ext_put h T ss m w rg fn m' :
  put (ext_heap h T ss m w rg fn) (length (h_sto h)) (Sto T (size_of T * 1) (Some [Some m'])) = ext_heap h T ss m' w rg fn.
Proof.
  unfold ext_heap, scal, alloc_heap, put. simpl. f_equal.
  - rewrite <- !app_assoc. rewrite insert_app_r_alt, Nat.sub_diag by lia. done.
  - f_equal. f_equal. unfold fresh_rec. simpl. by rewrite !app_length.
Qed.
Lemma ext_track h T ss m w rg fn k ins :
  track (length (h_ten h)) k ins (ext_heap h T ss m w rg fn) = (Ok tt, ext_heap h T ss m w true (Some (Gfn k ins 0 0 0))).
Proof.
  unfold track. erewrite bind_ok by (apply get_ten_ok, alloc_ten_old, alloc_ten).
  unfold set_ten, ext_heap, scal, alloc_heap. simpl. do 2 f_equal.
  rewrite <- !app_assoc. rewrite insert_app_r_alt, Nat.sub_diag by lia. done.
Qed.
Definition one_hot (T : dtype) (best : list Z) (idx : list Z) : val :=
  if decide (idx = best) then (if floating T then VF (f_of_Z (fmt T) 1) else VI 1) else zero_val T.

Lemma one_cvt T : cvt I32 T (VI 1) = Ok (if floating T then VF (f_of_Z (fmt T) 1) else VI 1).
Proof. by destruct T. Qed.
Lemma one_hot_ty T best idx : has_ty T (one_hot T best idx).
Proof.
  unfold one_hot. destruct (decide _); [|apply zero_val_ty]. destruct (floating T) eqn:E; [by apply has_ty_float|].
  apply has_ty_int. split; [done|]. by destruct T.
Qed.
Lemma rm_insert dt ss w best x : allocable dt ss -> size_prod ss < two63 -> in_range ss best ->
  <[Z.to_nat (row_major ss best) := Some x]> (rm_cells ss w) = rm_cells ss (fun idx => if decide (idx = best) then x else w idx).
Proof.
  intros Ha H63 Hb. pose proof (allocable_nonneg _ _ Ha) as Hn. apply (laid_rm dt); [done| |].
  - by rewrite insert_length, rm_cells_length.
  - intros idx Hi. pose proof (row_major_bounds ss idx Hi) as Bi. pose proof (row_major_bounds ss best Hb) as Bb.
    destruct (decide (idx = best)) as [->|Hne].
    + apply list_lookup_insert. rewrite rm_cells_length by done. lia.
    + rewrite list_lookup_insert_ne; [by apply rm_cells_lookup|]. intros E. apply Hne. apply (row_major_inj ss); [done..|]. lia.
Qed.

Lemma ext_tracked c h t r v x0 (T := t_dt r) (x := length (h_ten h)) :
  c = CGe \/ c = CLe -> h_ten h !! t = Some r -> holds h r v -> fits (t_dt r) (shape r) -> t_rg r = true ->
  first_cell h r x0 -> ordered (x0 :: row_elems (shape r) v) ->
  exists m best, ext_result c (shape r) v x0 m best /\ has_ty T m /\
    (in_range (shape r) best ->
       op_extremum c t h = (Ok x, ext_heap h T (shape r) m (one_hot T best) true (Some (Gfn (KnownGradBack (S x)) [t] 0 0 0)))) /\
    (best = [] -> shape r <> [] -> exists h', op_extremum c t h = (Throw RuntimeError, h')).
Proof.
  intros Hc Ht Hh Hf Hrg Hfc Ho. pose proof (holds_allocable _ _ _ _ Hh Hf) as Hal.
  pose proof (allocable_nonneg _ _ Hal) as Hn. pose proof (allocable_lt63 _ _ Hal) as H63.
  set (st := fun m => ext_heap h T (shape r) m (fun _ => zero_val T) false None).
  assert (forall m, extends h (st m)) as Hext.
  { intros m. eapply extends_trans; apply alloc_extends. }
  destruct (ext_run c h r v x0 (scal_rec h T false None) (Some (ext_g h T (shape r))) st (zero_val T))
    as (m & best & Hr & Hm & E); try done.
  - intros m. by eapply holds_extends.
  - destruct Hh as [(cs & (b & Hb) & _) _]. rewrite Hb. by apply Hext.
  - intros m. eapply load_ok; [apply ext_sto|lia|done].
  - intros m a. erewrite store_ok; [|apply ext_sto|simpl; lia]. f_equal. exact (ext_put h T (shape r) m _ _ _ a).
  - exists m, best. split; [done|]. split; [done|].
    assert (op_extremum c t h = ((let! p := idx_exact (ext_g h T (shape r)) best in store_cvt I32 T (t_sto (ext_g h T (shape r))) p (VI 1)) ;;;
      track x (KnownGradBack (S x)) [t] ;;; mret x) (st m)) as ->.
    { unfold op_extremum. erewrite bind_ok by (by apply get_ten_ok).
      erewrite bind_ok by apply zeros_nil. erewrite bind_ok by (apply get_ten_ok, alloc_ten).
      rewrite Hrg. cbn [negb]. erewrite bind_ok.
      2:{ unfold zeros_like. erewrite bind_ok by (apply get_ten_ok, alloc_ten_old; exact Ht). by apply zeros_ok. }
      erewrite bind_ok by (apply get_ten_ok, alloc_ten). rewrite ext_g_eq.
      replace (length (h_ten (scal h (t_dt r) (Some (zero_val (t_dt r))) false None))) with (S x) by (simpl; rewrite app_length; simpl; lia).
      apply bind_eq. exact E. }
    split.
    + intros Hb.
      assert (backed (st m) (ext_g h T (shape r)) (rm_cells (shape r) (fun _ => zero_val T))) as Hbk.
      { rewrite <- (ext_g_eq h T (shape r) m false None). apply alloc_backed; [done|]. by apply rm_cells_length. }
      destruct (backed_idx _ _ _ best Hbk Hb) as [Hidx Hpos]. cbn [t_lay ext_g] in Hidx, Hpos. rewrite pos_contig in Hidx, Hpos by done.
      rewrite (bind_ok _ _ _ tt (ext_heap h T (shape r) m (one_hot T best) false None)).
      2:{ erewrite bind_ok by exact Hidx. pose proof (alloc_sto (scal h T (Some m) false None) T (contig (shape r)) (rm_cells (shape r) (fun _ => zero_val T)) false None) as Hs.
          assert (t_sto (ext_g h T (shape r)) = length (h_sto (scal h T (Some m) false None))) as -> by (simpl; rewrite app_length; simpl; lia).
          erewrite store_cvt_eq by (exact Hs || exact Hpos).
          rewrite one_cvt. f_equal. unfold st, ext_heap. rewrite alloc_put. f_equal. by apply (rm_insert T). }
      erewrite bind_ok by apply ext_track. done.
    + intros -> Hne. eexists. apply bind_throw. apply bind_throw. unfold idx_exact, lift, cnt_from_index. cbn [t_lay ext_g].
      unfold ldim. destruct (shape r) eqn:Es; [done|]. reflexivity.
Qed.
End with_fops.
