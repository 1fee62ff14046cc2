(** sum, mean, max, min. *)
From Verif.Proofs Require Export Copies.
From Verif.Spec Require Export Reduce.

Section with_fops.
Context {fo : FOps}.

(** [h] with one more 0-dimensional tensor holding [c] *)
Definition scal (h : heap) (T : dtype) (c : cell) (rg : bool) (fn : option gradfn) : heap :=
  alloc_heap h T (contig []) [c] rg fn.
Definition scal_rec (h : heap) (T : dtype) (rg : bool) (fn : option gradfn) : tensor :=
  fresh_rec h T (contig []) rg fn.

Lemma scal_load h T a rg fn :
  load T (length (h_sto h)) 0 (scal h T (Some a) rg fn) = (Ok a, scal h T (Some a) rg fn).
Proof. eapply load_ok; [apply alloc_sto|lia|done]. Qed.
Lemma scal_store h T c a rg fn :
  store T (length (h_sto h)) 0 a (scal h T c rg fn) = (Ok tt, scal h T (Some a) rg fn).
Proof.
  erewrite store_ok; [|apply alloc_sto|simpl; lia]. f_equal.
  apply (alloc_put h T (contig []) [c]).
Qed.
Lemma scal_store_cvt h S T c a rg fn :
  store_cvt S T (length (h_sto h)) 0 a (scal h T c rg fn) =
    match cvt S T a with
    | Ok w => (Ok tt, scal h T (Some w) rg fn)
    | Throw e => (Throw e, scal h T c rg fn) | UB u => (UB u, scal h T c rg fn)
    | Diverge => (Diverge, scal h T c rg fn)
    end.
Proof.
  unfold store_cvt. rewrite bind_lift. destruct (cvt S T a); try done. apply scal_store.
Qed.
Lemma allocable_nil T : allocable T [].
Proof. split; [constructor|]. simpl. by destruct T. Qed.
Lemma zeros_nil h T : zeros [] T h = (Ok (length (h_ten h)), scal h T (Some (zero_val T)) false None).
Proof. rewrite zeros_ok by apply allocable_nil. done. Qed.
Lemma scal_holds h r v T c rg fn : holds h r v -> holds (scal h T c rg fn) r v.
Proof. apply holds_extends, alloc_extends. Qed.
Lemma scal_new h T w rg fn : has_ty T w ->
  new_tensor h (scal h T (Some w) rg fn) (length (h_ten h)) T [] rg (fun _ => w).
Proof. intros Hw. apply (alloc_new_tensor h T [] (fun _ => w)); [apply allocable_nil|done]. Qed.

(** ** the accumulation loop *)
Fixpoint add_all (To From : dtype) (a : val) (l : list val) : option val :=
  match l with
  | [] => Some a
  | x :: r => match cpp_arith AAdd To From To a x with
              | Some b => add_all To From b r | None => None end
  end.

Lemma sum_loop h r v To l a :
  holds h r v -> (forall idx, idx ∈ l -> in_range (sizes (t_lay r)) idx) ->
  has_ty To a -> floating To = floating To || floating (t_dt r) ->
  match add_all To (t_dt r) a (map v l) with
  | Some b => mapM_ (sum_body To (t_dt r) (scal_rec h To false None) r) l
                (scal h To (Some a) false None) = (Ok tt, scal h To (Some b) false None) /\
              has_ty To b
  | None => exists u c, mapM_ (sum_body To (t_dt r) (scal_rec h To false None) r) l
                (scal h To (Some a) false None) = (UB u, scal h To c false None) /\ arith_ub u
  end.
Proof.
  intros Hh. revert a. induction l as [|idx l IH]; intros a Hl Ha Hf; [done|].
  cbn [map add_all mapM_].
  assert (in_range (sizes (t_lay r)) idx) as Hi by (apply Hl; left).
  assert (forall idx, idx ∈ l -> in_range (sizes (t_lay r)) idx) as Hl'
    by (intros j Hj; apply Hl; by right).
  assert (has_ty (t_dt r) (v idx)) as Hx by (by eapply Hh).
  pose proof (binop_cpp AAdd To (t_dt r) To a (v idx) Ha Hx Hf) as Hb.
  assert (sum_body To (t_dt r) (scal_rec h To false None) r idx (scal h To (Some a) false None) =
    match obind (binop AAdd To (t_dt r) a (v idx)) (cvt (prom To (t_dt r)) To) with
    | Ok w => (Ok tt, scal h To (Some w) false None)
    | Throw e => (Throw e, scal h To (Some a) false None)
    | UB u => (UB u, scal h To (Some a) false None)
    | Diverge => (Diverge, scal h To (Some a) false None)
    end) as Hbody.
  { unfold sum_body.
    erewrite bind_ok by (eapply holds_exact; [|exact Hi]; by apply scal_holds).
    erewrite bind_ok by apply scal_load. rewrite bind_lift.
    destruct (binop _ _ _ _ _); try done. cbn [obind]. apply scal_store_cvt. }
  destruct (cpp_arith AAdd To (t_dt r) To a (v idx)) as [b|].
  - destruct Hb as [Hb Hbt]. rewrite Hb in Hbody.
    specialize (IH b Hl' Hbt Hf).
    destruct (add_all To (t_dt r) b (map v l)) as [c|].
    + destruct IH as [IH Hc]. split; [|done]. erewrite bind_ok by exact Hbody. exact IH.
    + destruct IH as (u & c & IH & Hu). exists u, c. split; [|done].
      erewrite bind_ok by exact Hbody. exact IH.
  - destruct Hb as (u & Hb & Hu). rewrite Hb in Hbody. exists u, (Some a). split; [|done].
    erewrite bind_ub by exact Hbody. done.
Qed.

(** ** its value *)
Lemma add_all_float T a l :
  floating T = true ->
  add_all F64 T (VF a) l = Some (VF (fold_left (fun a x => f_add FT64 a (to_float T F64 x)) l a)).
Proof.
  intros HT. revert a. induction l as [|x l IH]; intros a; [done|].
  cbn [add_all fold_left]. unfold cpp_arith. cbn [floating orb].
  assert (common_float F64 T = F64) as -> by done.
  unfold conv at 1. rewrite bool_decide_true by done. rewrite IH. done.
Qed.

Fixpoint fit_from (a : Z) (l : list Z) : bool :=
  in_width 64 a && match l with [] => true | x :: r => fit_from (a + x) r end.
Lemma fit_from_spec a l :
  fit_from a l = forallb (fun k => in_width 64 (a + zsum (take k l))) (seq 0 (S (length l))).
Proof.
  revert a. induction l as [|x l IH]; intros a.
  - simpl. by rewrite Z.add_0_r.
  - cbn [fit_from length]. rewrite <- cons_seq, <- seq_shift. cbn [forallb take].
    unfold zsum at 1. cbn [fold_right]. rewrite Z.add_0_r. f_equal. rewrite IH.
    clear IH. generalize (seq 0 (S (length l))). intros s.
    induction s as [|k s IHs]; [done|]. cbn [map forallb take].
    rewrite IHs. replace (a + x + zsum (take k l)) with (a + zsum (x :: take k l)); [done|].
    unfold zsum. cbn [fold_right]. lia.
Qed.
Lemma partial_fit l : partial_sums_fit l = fit_from 0 l.
Proof. rewrite fit_from_spec. done. Qed.
Lemma add_all_int T a l :
  floating T = false -> Forall (fun x => exists z, x = VI z) l -> in_width 64 a = true ->
  add_all I64 T (VI a) l =
    if fit_from a (map int_of l) then Some (VI (a + zsum (map int_of l))) else None.
Proof.
  intros HT Hl. revert a. induction Hl as [|x l [z ->] Hl IH]; intros a Ha.
  - simpl. rewrite Ha. simpl. by rewrite Z.add_0_r.
  - cbn [add_all map int_of fit_from]. rewrite Ha. simpl andb. unfold cpp_arith.
    cbn [floating orb]. rewrite HT. cbn [zop common_width]. cbn [width].
    destruct (in_width 64 (a + z)) eqn:Ew.
    + rewrite reduce_id by done. rewrite IH by done.
      destruct (fit_from (a + z) (map int_of l)); [|done]. do 2 f_equal.
      unfold zsum. cbn [fold_right]. lia.
    + assert (fit_from (a + z) (map int_of l) = false) as ->; [|done].
      destruct (map int_of l); simpl; by rewrite Ew.
Qed.

(** ** sum and mean *)
Lemma int_elems h r v : holds h r v -> floating (t_dt r) = false ->
  Forall (fun x => exists z, x = VI z) (row_elems (sizes (t_lay r)) v).
Proof.
  intros Hh Hf. apply Forall_forall. intros x Hx. apply elem_of_list_fmap in Hx as (idx & -> & Hi).
  apply elem_of_indices in Hi. assert (has_ty (t_dt r) (v idx)) as Ht by (by eapply Hh).
  destruct (v idx) as [z|f]; [by exists z|]. apply has_ty_float in Ht. congruence.
Qed.
Lemma sum_type_eq T : reduce_ty T = sum_type T.
Proof. by destruct T. Qed.
Lemma sum_type_floating T : floating (sum_type T) = floating T.
Proof. by destruct T. Qed.

(** state after the accumulation part of tensor_sum / tensor_mean *)
Definition sum_part (T : dtype) (d r : tensor) : E unit :=
  match sizes (t_lay r) with
  | [] => let! x := load (t_dt r) (t_sto r) (offset (t_lay r)) in store_cvt (t_dt r) T (t_sto d) 0 x
  | ss => let! _ := odometer ss (plain (sum_body T (t_dt r) d r)) in mret tt
  end.

Lemma pos_nil l : pos l [] = offset l.
Proof. unfold pos. rewrite dot_nil_r. lia. Qed.
Lemma zero_val_ty T : has_ty T (zero_val T).
Proof. by destruct T. Qed.

Lemma sum_part_ok h r v (T := sum_type (t_dt r)) :
  holds h r v -> 0 ∉ sizes (t_lay r) ->
  match array_sum (t_dt r) (sizes (t_lay r)) v with
  | Some b => sum_part T (scal_rec h T false None) r (scal h T (Some (zero_val T)) false None) =
                (Ok tt, scal h T (Some b) false None) /\ has_ty T b
  | None => exists u c,
      sum_part T (scal_rec h T false None) r (scal h T (Some (zero_val T)) false None) =
                (UB u, scal h T c false None) /\ arith_ub u
  end.
Proof.
  intros Hh Hnz. pose proof (holds_nonneg _ _ _ Hh) as Hnn.
  pose proof (not_zero_pos _ Hnn Hnz) as Hpos.
  unfold sum_part. destruct (sizes (t_lay r)) as [|n ss] eqn:Hss.
  - assert (in_range (sizes (t_lay r)) []) as Hi by (rewrite Hss; constructor).
    assert (has_ty (t_dt r) (v [])) as Hx by (by eapply Hh).
    assert (load (t_dt r) (t_sto r) (offset (t_lay r)) (scal h T (Some (zero_val T)) false None) =
      (Ok (v []), scal h T (Some (zero_val T)) false None)) as Hld.
    { rewrite <- (pos_nil (t_lay r)). apply holds_load; [by apply scal_holds|done]. }
    erewrite bind_ok by exact Hld.
    change (t_sto (scal_rec h T false None)) with (length (h_sto h)).
    rewrite scal_store_cvt. rewrite cvt_cpp. clear Hld.
    assert (T = sum_type (t_dt r)) as HT by done. clearbody T.
    unfold array_sum, cpp_cvt. unfold sum_type in HT.
    destruct (floating (t_dt r)) eqn:Ef; subst T; cbn [floating].
    + done.
    +
      destruct (v []) as [z|f] eqn:Ev; [|apply has_ty_float in Hx; congruence].
      apply has_ty_int in Hx as [_ Hx].
      assert (in_width 64 z = true) as Hw.
      { eapply in_width_mono; [|exact Hx]. pose proof (width_pos (t_dt r)).
        split; [done|]. by destruct (t_dt r). }
      cbn [width]. rewrite reduce_id by done. cbn [row_elems indices map]. rewrite Ev. cbn [int_of].
      assert (zsum [z] = z) as Hz by (unfold zsum; simpl; lia).
      rewrite partial_fit. cbn [fit_from]. rewrite Z.add_0_l, Hw. rewrite Hz.
      assert (in_width 64 0 = true) as -> by done. simpl. split; [done|]. by apply has_ty_int.
  - rewrite <- Hss in *. 
    assert (match add_all T (t_dt r) (zero_val T) (map v (indices (sizes (t_lay r)))) with
      | Some b => mapM_ (sum_body T (t_dt r) (scal_rec h T false None) r) (indices (sizes (t_lay r)))
                (scal h T (Some (zero_val T)) false None) = (Ok tt, scal h T (Some b) false None) /\
              has_ty T b
      | None => exists u c, mapM_ (sum_body T (t_dt r) (scal_rec h T false None) r)
                (indices (sizes (t_lay r)))
                (scal h T (Some (zero_val T)) false None) = (UB u, scal h T c false None) /\ arith_ub u
      end) as Hloop.
    { apply (sum_loop h r v T); [done| |apply zero_val_ty|].
      - intros idx Hi. by apply elem_of_indices.
      - unfold T. rewrite sum_type_floating. by destruct (floating _). }
    assert (array_sum (t_dt r) (sizes (t_lay r)) v =
      add_all T (t_dt r) (zero_val T) (map v (indices (sizes (t_lay r))))) as ->.
    { unfold array_sum, T, sum_type. destruct (floating (t_dt r)) eqn:Ef.
      - change (zero_val F64) with (VF f_zero). rewrite add_all_float by done.
        by rewrite Hss.
      - change (zero_val I64) with (VI 0). rewrite add_all_int; [|done| |done].
        2:{ by eapply int_elems. }
        rewrite partial_fit. by rewrite Z.add_0_l. }
    rewrite Hss in *. unfold bind.
    assert (forall s, (let! _ := odometer (n :: ss) (plain (sum_body T (t_dt r) (scal_rec h T false None) r)) in mret tt) s =
       mapM_ (sum_body T (t_dt r) (scal_rec h T false None) r) (indices (n :: ss)) s) as Hodo.
    { intros s. rewrite <- run_idx_plain. unfold bind. by rewrite odometer_run. }
    unfold bind in Hodo. rewrite Hodo. exact Hloop.
Qed.

Definition red_fn (k : bkind) (rg : bool) (t : nat) : option gradfn :=
  if rg then Some (Gfn k [t] 0 0 0) else None.

Lemma tail_track h T c k (rg : bool) t :
  ((if rg then track (length (h_ten h)) k [t] else mret tt) ;;; mret (length (h_ten h)))
    (scal h T c false None) =
  (Ok (length (h_ten h)), scal h T c rg (red_fn k rg t)).
Proof.
  destruct rg; cbn [red_fn]; [|done]. unfold scal. by rewrite alloc_track_bind.
Qed.
Lemma array_sum_empty T ss v : 0 ∈ ss ->
  array_sum T ss v = Some (if floating T then VF f_zero else VI 0).
Proof.
  intros H. unfold array_sum, row_elems. rewrite (indices_empty _ H).
  destruct (floating T); [|done]. by destruct ss; [inversion H|].
Qed.
Lemma zero_sum_type T : zero_val (sum_type T) = if floating T then VF f_zero else VI 0.
Proof. by destruct T. Qed.

Lemma sum_ok h t r v (T := sum_type (t_dt r)) :
  h_ten h !! t = Some r -> holds h r v -> size_prod (sizes (t_lay r)) < two63 ->
  match array_sum (t_dt r) (sizes (t_lay r)) v with
  | Some b => op_sum t h = (Ok (length (h_ten h)), scal h T (Some b) (t_rg r) (red_fn SumBack (t_rg r) t))
              /\ has_ty T b
  | None => exists u c, op_sum t h = (UB u, scal h T c false None) /\ arith_ub u
  end.
Proof.
  intros Ht Hh Hp. pose proof (holds_nonneg _ _ _ Hh) as Hnn.
  assert (lnumel (t_lay r) = size_prod (sizes (t_lay r))) as Hn.
  { apply numel_of_exact; [done|]. pose proof two63_64. unfold two63 in *. lia. }
  unfold op_sum. 
  assert (Hrun : (let! r := get_ten t in
     let! tf := zeros [] (reduce_ty (t_dt r)) in
     let! d := get_ten tf in
     tensor_sum (reduce_ty (t_dt r)) (t_dt r) d r ;;;
     (if t_rg r then track tf SumBack [t] else mret tt) ;;; mret tf) h =
    (tensor_sum T (t_dt r) (scal_rec h T false None) r ;;;
     (if t_rg r then track (length (h_ten h)) SumBack [t] else mret tt) ;;;
     mret (length (h_ten h))) (scal h T (Some (zero_val T)) false None)).
  { erewrite bind_ok by (by apply get_ten_ok). rewrite sum_type_eq. fold T.
    erewrite bind_ok by apply zeros_nil.
    erewrite bind_ok by (apply get_ten_ok, alloc_ten). done. }
  rewrite Hrun. clear Hrun. unfold tensor_sum. rewrite Hn.
  destruct (Z.eqb_spec (size_prod (sizes (t_lay r))) 0) as [H0|H0].
  - apply size_prod_zero_inv in H0. rewrite array_sum_empty by done.
    rewrite <- zero_sum_type. fold T. split; [|apply zero_val_ty].
    erewrite bind_ok by done. apply tail_track.
  - assert (0 ∉ sizes (t_lay r)) as Hnz by (intros ?%size_prod_zero; done).
    pose proof (sum_part_ok h r v Hh Hnz) as Hs. fold T in Hs. unfold sum_part in Hs.
    destruct (array_sum (t_dt r) (sizes (t_lay r)) v) as [b|].
    + destruct Hs as [Hs Hb]. split; [|done]. erewrite bind_ok by exact Hs. apply tail_track.
    + destruct Hs as (u & c & Hs & Hu). exists u, c. split; [|done].
      by erewrite bind_ub by exact Hs.
Qed.

Lemma mean_tail h r T s n (rg : bool) t :
  T = sum_type (t_dt r) -> has_ty T s -> 0 < n < two63 ->
  (mean_div T (scal_rec h T false None) (if floating T then VF (f_of_Z FT64 n) else VI n) ;;;
   (if rg then track (length (h_ten h)) MeanBack [t] else mret tt) ;;; mret (length (h_ten h)))
    (scal h T (Some s) false None) =
  (Ok (length (h_ten h)),
   scal h T (Some (match s with
                   | VF x => VF (f_div FT64 x (f_of_Z FT64 n)) | VI z => VI (Z.quot z n) end))
     rg (red_fn MeanBack rg t)).
Proof.
  intros HT Hs Hn. unfold mean_div. rewrite !bind_assoc.
  erewrite bind_ok by apply scal_load. rewrite bind_assoc.
  set (nv := if floating T then VF (f_of_Z FT64 n) else VI n).
  set (q := match s with VF x => _ | VI z => _ end).
  assert (Hq : obind (binop ADiv T T s nv) (cvt (prom T T) T) = Ok q).
  { pose proof (binop_cpp ADiv T T T s nv Hs) as Hb.
    assert (has_ty T nv) as Hnv.
    { unfold nv. destruct (floating T) eqn:Ef; [by apply has_ty_float|].
      apply has_ty_int. split; [done|]. apply in_width_spec.
      assert (T = I64) as -> by (rewrite HT in *; unfold sum_type in *; destruct (floating _); done).
      cbn [width]. unfold two63 in Hn. lia. }
    specialize (Hb Hnv ltac:(by destruct (floating T))).
    assert (cpp_arith ADiv T T T s nv = Some q) as Hc; [|rewrite Hc in Hb; apply Hb].
    unfold cpp_arith. unfold sum_type in HT. destruct (floating (t_dt r)); subst T.
    - cbn [floating orb]. unfold nv, q. cbn [floating].
      destruct s as [z|x]; [by apply has_ty_int in Hs as [? _]|].
      cbn [common_float fop to_float]. unfold conv. rewrite !bool_decide_true by done. done.
    - cbn [floating orb]. unfold nv, q. cbn [floating].
      destruct s as [z|x]; [|by apply has_ty_float in Hs].
      apply has_ty_int in Hs as [_ Hs]. apply in_width_spec in Hs. cbn [width] in Hs.
      cbn [zop]. destruct (Z.eqb_spec n 0); [lia|]. cbn [common_width width].
      assert (in_width 64 (Z.quot z n) = true) as Hw.
      { apply in_width_spec. simpl in Hs |- *.
        destruct (Z.leb_spec 0 z).
        - pose proof (Z.quot_pos z n ltac:(lia) ltac:(lia)).
          pose proof (Z.quot_le_upper_bound z n z ltac:(lia)). nia.
        - assert (Z.quot z n = - Z.quot (- z) n) as Hq by (rewrite Z.quot_opp_l by lia; lia).
          pose proof (Z.quot_pos (- z) n ltac:(lia) ltac:(lia)).
          pose proof (Z.quot_le_upper_bound (- z) n (- z) ltac:(lia)). nia. }
      rewrite Hw. by rewrite reduce_id. }
  rewrite bind_lift. destruct (binop ADiv T T s nv) as [x| | |]; try done. cbn [obind] in Hq.
  unfold bind at 1. change (t_sto (scal_rec h T false None)) with (length (h_sto h)).
  rewrite scal_store_cvt, Hq. apply tail_track.
Qed.

Lemma mean_ok h t r v (T := sum_type (t_dt r)) :
  h_ten h !! t = Some r -> holds h r v -> size_prod (sizes (t_lay r)) < two63 ->
  match array_mean (t_dt r) (sizes (t_lay r)) v with
  | Some b => op_mean t h = (Ok (length (h_ten h)), scal h T (Some b) (t_rg r) (red_fn MeanBack (t_rg r) t))
              /\ has_ty T b
  | None => exists u c, op_mean t h = (UB u, scal h T c false None) /\ arith_ub u
  end.
Proof.
  intros Ht Hh Hp. pose proof (holds_nonneg _ _ _ Hh) as Hnn.
  assert (lnumel (t_lay r) = size_prod (sizes (t_lay r))) as Hn.
  { apply numel_of_exact; [done|]. pose proof two63_64. unfold two63 in *. lia. }
  unfold op_mean.
  assert (Hrun : (let! r := get_ten t in
     let! tf := zeros [] (reduce_ty (t_dt r)) in
     let! d := get_ten tf in
     tensor_mean (reduce_ty (t_dt r)) (t_dt r) d r ;;;
     (if t_rg r then track tf MeanBack [t] else mret tt) ;;; mret tf) h =
    (tensor_mean T (t_dt r) (scal_rec h T false None) r ;;;
     (if t_rg r then track (length (h_ten h)) MeanBack [t] else mret tt) ;;;
     mret (length (h_ten h))) (scal h T (Some (zero_val T)) false None)).
  { erewrite bind_ok by (by apply get_ten_ok). rewrite sum_type_eq. fold T.
    erewrite bind_ok by apply zeros_nil.
    erewrite bind_ok by (apply get_ten_ok, alloc_ten). done. }
  rewrite Hrun. clear Hrun. unfold tensor_mean, array_mean. rewrite Hn.
  pose proof (size_prod_nonneg _ Hnn) as Hp0.
  destruct (Z.eqb_spec (size_prod (sizes (t_lay r))) 0) as [H0|H0].
  - apply size_prod_zero_inv in H0. rewrite array_sum_empty by done.
    rewrite <- zero_sum_type. fold T. split; [|apply zero_val_ty].
    erewrite bind_ok by done. apply tail_track.
  - assert (0 ∉ sizes (t_lay r)) as Hnz by (intros ?%size_prod_zero; done).
    pose proof (sum_part_ok h r v Hh Hnz) as Hs. fold T in Hs. unfold sum_part in Hs.
    set (n := size_prod (sizes (t_lay r))) in *.
    assert (cvt I64 T (VI n) = Ok (if floating T then VF (f_of_Z FT64 n) else VI n)) as Hcv.
    { rewrite cvt_cpp. unfold cpp_cvt, T, sum_type. destruct (floating (t_dt r)); [done|].
      cbn [floating to_float width]. rewrite reduce_id; [done|done|].
      apply in_width_spec. unfold two63 in Hp. simpl. lia. }
    assert (forall (k : E nat) s, (bind (let! n0 := lift (cvt I64 T (VI n)) in
       match sizes (t_lay r) with
       | [] => let! x := load (t_dt r) (t_sto r) (offset (t_lay r)) in
           store_cvt (t_dt r) T (t_sto (scal_rec h T false None)) 0 x ;;;
           mean_div T (scal_rec h T false None) n0
       | (_ :: _) as ss =>
           let! _ := odometer ss (plain (sum_body T (t_dt r) (scal_rec h T false None) r)) in
           mean_div T (scal_rec h T false None) n0
       end) (fun _ => k)) s =
     bind (sum_part T (scal_rec h T false None) r) (fun _ =>
       bind (mean_div T (scal_rec h T false None) (if floating T then VF (f_of_Z FT64 n) else VI n))
         (fun _ => k)) s) as Hsplit.
    { intros k s. rewrite bind_assoc, bind_lift, Hcv. unfold sum_part.
      destruct (sizes (t_lay r)) as [|m ss]; unfold bind.
      - destruct (load _ _ _ s) as [[x| | |] s1]; try done. by destruct (store_cvt _ _ _ _ _ s1) as [[] ?].
      - by destruct (odometer _ _ s) as [[] ?]. }
    rewrite Hsplit. unfold sum_part.
    destruct (array_sum (t_dt r) (sizes (t_lay r)) v) as [b|].
    + destruct Hs as [Hs Hb]. split.
      * erewrite bind_ok by exact Hs. rewrite (mean_tail h r); [done|done|done|lia].
      * destruct b as [z|x].
        -- apply has_ty_int in Hb as [Hb1 Hb2]. apply has_ty_int. split; [done|].
           assert (T = I64) as -> by (unfold T, sum_type in *; destruct (floating _); done).
           apply in_width_spec in Hb2. apply in_width_spec. simpl in Hb2 |- *.
           destruct (Z.leb_spec 0 z).
           ++ pose proof (Z.quot_pos z n ltac:(lia) ltac:(lia)).
              pose proof (Z.quot_le_upper_bound z n z ltac:(lia)). nia.
           ++ assert (Z.quot z n = - Z.quot (- z) n) as Hq by (rewrite Z.quot_opp_l by lia; lia).
              pose proof (Z.quot_pos (- z) n ltac:(lia) ltac:(lia)).
              pose proof (Z.quot_le_upper_bound (- z) n (- z) ltac:(lia)). nia.
        -- apply has_ty_float in Hb. by apply has_ty_float.
    + destruct Hs as (u & c & Hs & Hu). exists u, c. split; [|done].
      by erewrite bind_ub by exact Hs.
Qed.

(** ** max and min *)
(** [y] is at least as extremal as [x] *)
Definition dom (c : cop) (x y : val) : bool :=
  match c with CGe => val_le x y | _ => val_le y x end.
Lemma cpp_cmp_dom c T m t :
  c = CGe \/ c = CLe -> has_ty T m -> has_ty T t -> cpp_cmp c T T m t = dom c t m.
Proof.
  intros Hc Hm Ht. unfold cpp_cmp, dom, val_le.
  destruct (floating T) eqn:Ef; cbn [orb].
  - destruct m as [?|m]; [apply has_ty_int in Hm as [? _]; congruence|].
    destruct t as [?|t]; [apply has_ty_int in Ht as [? _]; congruence|].
    assert (common_float T T = T) as -> by (by destruct T).
    cbn [to_float]. unfold conv. rewrite bool_decide_true by done.
    by destruct Hc as [->| ->].
  - destruct m as [m|?]; [|apply has_ty_float in Hm; congruence].
    destruct t as [t|?]; [|apply has_ty_float in Ht; congruence].
    by destruct Hc as [->| ->].
Qed.
Lemma ordered_dom c l : ordered l -> c = CGe \/ c = CLe ->
  (forall x y, x ∈ l -> y ∈ l -> dom c x y = true \/ dom c y x = true) /\
  (forall x y z, x ∈ l -> y ∈ l -> z ∈ l ->
     dom c x y = true -> dom c y z = true -> dom c x z = true).
Proof.
  intros [H1 H2] [->| ->]; cbn [dom]; split; eauto.
Qed.

Lemma extremum_loop c h r v l0 l m sv rg fn :
  c = CGe \/ c = CLe -> holds h r v ->
  (forall idx, idx ∈ l -> in_range (sizes (t_lay r)) idx) ->
  has_ty (t_dt r) m -> ordered l0 -> m ∈ l0 -> (forall idx, idx ∈ l -> v idx ∈ l0) ->
  exists m' sv',
    mapM_ (extremum_body c (t_dt r) (scal_rec h (t_dt r) rg fn) r) l
      (scal h (t_dt r) (Some m) rg fn, sv) =
      (Ok tt, (scal h (t_dt r) (Some m') rg fn, sv')) /\
    has_ty (t_dt r) m' /\ m' ∈ l0 /\
    dom c m m' = true /\ (forall idx, idx ∈ l -> dom c (v idx) m' = true) /\
    (m' = m /\ sv' = sv \/ sv' ∈ l /\ m' = v sv' /\ dom c (v sv') m = false).
Proof.
  intros Hc Hh Hl Hm Ho. destruct (ordered_dom c l0 Ho Hc) as [Htot Htr].
  revert m sv Hl Hm. induction l as [|idx l IH]; intros m sv Hl Hm Hm0 Hv0.
  - exists m, sv. split; [done|]. split; [done|]. split; [done|].
    split; [by destruct (Htot m m)|]. split; [intros ? H; inversion H|]. by left.
  - assert (in_range (sizes (t_lay r)) idx) as Hi by (apply Hl; left).
    assert (has_ty (t_dt r) (v idx)) as Hx by (by eapply Hh).
    assert (v idx ∈ l0) as Hx0 by (apply Hv0; left).
    assert (forall j, j ∈ l -> in_range (sizes (t_lay r)) j) as Hl' by (intros; apply Hl; by right).
    assert (forall j, j ∈ l -> v j ∈ l0) as Hv0' by (intros; apply Hv0; by right).
    cbn [mapM_].
    assert (extremum_body c (t_dt r) (scal_rec h (t_dt r) rg fn) r idx
        (scal h (t_dt r) (Some m) rg fn, sv) =
      (Ok tt, if dom c (v idx) m then (scal h (t_dt r) (Some m) rg fn, sv)
              else (scal h (t_dt r) (Some (v idx)) rg fn, idx))) as Hb.
    { unfold extremum_body. erewrite bind_ok.
      2:{ unfold on_heap. erewrite holds_exact; [done|by apply scal_holds|done]. }
      erewrite bind_ok.
      2:{ unfold on_heap. change (t_sto (scal_rec h (t_dt r) rg fn)) with (length (h_sto h)).
          by rewrite scal_load. }
      rewrite bind_lift, cmpop_cpp, cpp_cmp_dom by done.
      destruct (dom c (v idx) m); [done|]. unfold bind, on_heap.
      change (t_sto (scal_rec h (t_dt r) rg fn)) with (length (h_sto h)).
      by rewrite scal_store. }
    erewrite bind_ok by exact Hb. destruct (dom c (v idx) m) eqn:Ed.
    + destruct (IH m sv Hl' Hm Hm0 Hv0') as (m' & sv' & Hr & Hm' & Hin & Hd & Hall & Hsv).
      exists m', sv'. split; [done|]. split; [done|]. split; [done|]. split; [done|]. split.
      * intros j [->|Hj]%elem_of_cons; [|auto]. eapply (Htr _ m); auto.
      * destruct Hsv as [?|(? & ? & ?)]; [by left|right]. split; [by right|done].
    + destruct (IH (v idx) idx Hl' Hx Hx0 Hv0') as (m' & sv' & Hr & Hm' & Hin & Hd & Hall & Hsv).
      assert (dom c m (v idx) = true) as Hmx.
      { destruct (Htot m (v idx)) as [?|?]; auto. congruence. }
      exists m', sv'. split; [done|]. split; [done|]. split; [done|].
      split; [eapply (Htr m (v idx)); auto|]. split.
      * intros j [->|Hj]%elem_of_cons; auto.
      * right. destruct Hsv as [[-> ->]|(Hs1 & Hs2 & Hs3)].
        -- split; [left|done].
        -- split; [by right|]. split; [done|].
           destruct (dom c (v sv') m) eqn:E; [|done].
           rewrite <- Hs3. symmetry. eapply (Htr _ m); auto.
Qed.

(** the array contains the first cell of its buffer *)
Definition has_cell0 (r : tensor) : Prop :=
  exists idx, in_range (sizes (t_lay r)) idx /\ pos (t_lay r) idx = 0.

Lemma extremum_ok c h t r v :
  c = CGe \/ c = CLe -> h_ten h !! t = Some r -> holds h r v -> t_rg r = false ->
  has_cell0 r -> ordered (row_elems (sizes (t_lay r)) v) ->
  exists best, in_range (sizes (t_lay r)) best /\
    (forall idx, in_range (sizes (t_lay r)) idx -> dom c (v idx) (v best) = true) /\
    op_extremum c t h = (Ok (length (h_ten h)), scal h (t_dt r) (Some (v best)) false None).
Proof.
  intros Hc Ht Hh Hrg (i0 & Hi0 & Hp0) Ho.
  set (T := t_dt r). set (l0 := row_elems (sizes (t_lay r)) v).
  assert (forall idx, in_range (sizes (t_lay r)) idx -> v idx ∈ l0) as Hin.
  { intros idx Hi. apply elem_of_list_fmap. exists idx. split; [done|]. by apply elem_of_indices. }
  destruct (extremum_loop c h r v l0 (indices (sizes (t_lay r))) (v i0) [] false None)
    as (m & sv & Hrun & Hm & Hm0 & Hd & Hall & Hsv); try done.
  { intros idx Hi. by apply elem_of_indices. }
  { by eapply Hh. }
  { by apply Hin. }
  { intros idx Hi. apply Hin. by apply elem_of_indices. }
  assert (exists best, in_range (sizes (t_lay r)) best /\ m = v best) as (best & Hbest & ->).
  { apply elem_of_list_fmap in Hm0 as (b & -> & Hb). exists b. split; [|done]. by apply elem_of_indices. }
  exists best. split; [done|]. split.
  { intros idx Hi. apply Hall. by apply elem_of_indices. }
  unfold op_extremum. erewrite bind_ok by (by apply get_ten_ok).
  erewrite bind_ok by apply zeros_nil. erewrite bind_ok by (apply get_ten_ok, alloc_ten).
  rewrite Hrg. cbn [negb]. unfold tensor_extremum. rewrite !bind_assoc.
  erewrite bind_ok.
  2:{ rewrite <- Hp0. apply holds_load; [by apply scal_holds|done]. }
  rewrite bind_assoc. erewrite bind_ok by apply scal_store.
  rewrite bind_assoc. unfold bind at 1.
  rewrite for_each_run by (by eapply holds_nonneg).
  unfold scal_rec in Hrun. rewrite Hrun. done.
Qed.
End with_fops.
