(** abs *)
From Verif.Proofs Require Export Reduce.

Lemma bind_for_each {S A} range (op : list Z -> M S unit) (k : unit -> M S A) h :
  Forall (fun n => 0 <= n) range ->
  bind (for_each_sizevec range op) k h = bind (mapM_ op (indices range)) k h.
Proof. intros H. unfold bind. by rewrite for_each_run. Qed.

Section with_fops.
Context {fo : FOps}.

(** a layout whose elements all fall inside a buffer of exactly numel cells *)
Definition buffer_filling (l : layout) : Prop := lay_in l (size_prod (sizes l)) /\ lay_inj l.

Lemma ins_done lay (pre : list (list Z)) idx (cs : list cell) (w : list Z -> val) n :
  lay_inj lay -> lay_in lay n -> (Z.to_nat n <= length cs)%nat ->
  (forall j, j ∈ pre -> in_range (sizes lay) j) -> in_range (sizes lay) idx ->
  (forall j, j ∈ pre -> cs !! Z.to_nat (pos lay j) = Some (Some (w j))) ->
  forall j, j ∈ pre ++ [idx] ->
    (<[Z.to_nat (pos lay idx) := Some (w idx)]> cs) !! Z.to_nat (pos lay j) = Some (Some (w j)).
Proof.
  intros Hinj Hin Hlen Hpre Hi Hcs j Hj.
  pose proof (Hin idx Hi).
  destruct (decide (j = idx)) as [->|Hne].
  - apply list_lookup_insert. lia.
  - apply elem_of_app in Hj as [Hj|Hj%elem_of_list_singleton]; [|done].
    rewrite list_lookup_insert_ne; [by apply Hcs|].
    intros Heq. apply Hne. apply Hinj; auto. pose proof (Hin j (Hpre j Hj)). lia.
Qed.

(** element computation *)
Lemma abs_cmp T v : has_ty T v ->
  cmpop CGe T I32 v (VI 0) =
    Ok (match v with VI x => 0 <=? x | VF x => f_le (f_of_Z (fmt T) 0) x end).
Proof.
  intros Hv. rewrite cmpop_cpp by done. unfold cpp_cmp. f_equal.
  destruct v as [x|x].
  - apply has_ty_int in Hv as [-> _]. done.
  - apply has_ty_float in Hv. rewrite Hv. cbn [orb].
    assert (common_float T I32 = T) as -> by (by destruct T).
    cbn [fcmp to_float]. unfold conv. by rewrite bool_decide_true.
Qed.
Lemma sign_cvt T (b : bool) :
  cvt I32 T (VI (if b then 1 else -1)) =
    Ok (if floating T then VF (f_of_Z (fmt T) (if b then 1 else -1)) else VI (if b then 1 else -1)).
Proof. rewrite cvt_cpp. unfold cpp_cvt. destruct (floating T) eqn:E; [done|]. by destruct b, T. Qed.
Lemma sign_ty T v : has_ty T (sign_val T v).
Proof.
  unfold sign_val. destruct (floating T) eqn:E; [by apply has_ty_float|].
  apply has_ty_int. split; [done|]. destruct (match v with VI x => _ | VF x => _ end); by destruct T.
Qed.
Lemma abs_neg T v : has_ty T v ->
  match v with VI x => 0 <=? x | VF x => f_le (f_of_Z (fmt T) 0) x end = false ->
  obind (negop T v) (cvt (prom T I32) T) =
    match abs_val T v with Some w => Ok w | None => UB SignedOverflow end.
Proof.
  intros Hv Hs. unfold abs_val, negop. destruct v as [x|x]; rewrite Hs.
  - apply has_ty_int in Hv as [Hf Hw]. unfold int_chk. rewrite fits_in_width.
    destruct (prom_int T I32) as (Hp & Hpw & _); [by rewrite Hf|]. rewrite Hpw.
    destruct (in_width (common_width T I32) (- x)); [|done]. cbn [obind].
    rewrite cvt_cpp. unfold cpp_cvt. by rewrite Hf.
  - apply has_ty_float in Hv. cbn [obind]. rewrite cvt_cpp. unfold cpp_cvt. rewrite Hv.
    assert (prom T I32 = T) as -> by (by destruct T). cbn [to_float]. unfold conv.
    by rewrite bool_decide_true.
Qed.
Lemma abs_pos T v : has_ty T v ->
  match v with VI x => 0 <=? x | VF x => f_le (f_of_Z (fmt T) 0) x end = true ->
  abs_val T v = Some v /\ cvt T T v = Ok v.
Proof.
  intros Hv Hs. split.
  - unfold abs_val. destruct v; by rewrite Hs.
  - rewrite cvt_cpp. by rewrite cpp_cvt_self.
Qed.
Lemma abs_val_ty T v w : has_ty T v -> abs_val T v = Some w -> has_ty T w.
Proof.
  unfold abs_val. destruct v as [x|x]; intros Hv.
  - destruct (0 <=? x); [by intros [= <-]|]. destruct (in_width _ _); [|done]. intros [= <-].
    apply has_ty_int in Hv as [Hf _]. apply has_ty_int. split; [done|]. apply reduce_in, width_pos.
  - intros [= <-]. apply has_ty_float in Hv. by apply has_ty_float.
Qed.

(** ** the loop, with the buffers of the result and of the saved gradient *)
Definition abs_heap1 (h : heap) (r : tensor) (cs : list cell) : heap :=
  alloc_heap h (t_dt r) (t_lay r) cs false None.
Definition abs_heap2 (h : heap) (r : tensor) (cs1 cs2 : list cell) : heap :=
  alloc_heap (abs_heap1 h r cs1) (t_dt r) (t_lay r) cs2 false None.

Definition abs_or0 (T : dtype) (v : val) : val :=
  match abs_val T v with Some w => w | None => VI 0 end.

Lemma alloc_backed_lay h dt lay cs rg fn :
  lay_ok lay -> lay_in lay (Z.of_nat (length cs)) -> Z.of_nat (length cs) < two63 ->
  backed (alloc_heap h dt lay cs rg fn) (fresh_rec h dt lay rg fn) cs.
Proof. intros. split; [eexists; apply alloc_sto|done]. Qed.

Lemma idx_of_lay h (d : tensor) lay n idx :
  t_lay d = lay -> lay_ok lay -> lay_in lay n -> n <= two64 -> in_range (sizes lay) idx ->
  idx_exact d idx h = (Ok (pos lay idx), h).
Proof.
  intros <- Hok Hin Hn Hi. unfold idx_exact, lift.
  by destruct (cnt_from_index_ok _ idx _ Hok Hin Hn Hi) as [-> _].
Qed.

Lemma abs_body1 h r v idx cs :
  holds h r v -> buffer_filling (t_lay r) -> allocable (t_dt r) (sizes (t_lay r)) ->
  in_range (sizes (t_lay r)) idx -> length cs = Z.to_nat (size_prod (sizes (t_lay r))) ->
  (let! tmp := load_exact (t_dt r) r idx in
    let! ge := lift (cmpop CGe (t_dt r) I32 tmp (VI 0)) in
    let put (T : dtype) (v : val) : E unit :=
      let! p := idx_exact (fresh_rec h (t_dt r) (t_lay r) false None) idx in
      store_cvt T (t_dt r) (t_sto (fresh_rec h (t_dt r) (t_lay r) false None)) p v in
    let putg (z : Z) : E unit :=
      match @None tensor with
      | None => mret tt
      | Some g => let! p := idx_exact g idx in store_cvt I32 (t_dt r) (t_sto g) p (VI z)
      end in
    if ge : bool then putg 1 ;;; put (t_dt r) tmp
    else
      putg (-1) ;;;
      let! m := lift (negop (t_dt r) tmp) in put (prom (t_dt r) I32) m) (abs_heap1 h r cs) =
  match abs_val (t_dt r) (v idx) with
  | Some w => (Ok tt, abs_heap1 h r (<[Z.to_nat (pos (t_lay r) idx) := Some w]> cs))
  | None => (UB SignedOverflow, abs_heap1 h r cs)
  end.
Proof.
  intros Hh [Hin Hinj] Ha Hi Hlen.
  assert (has_ty (t_dt r) (v idx)) as Hv by (by eapply Hh).
  assert (lay_ok (t_lay r)) as Hok by (by destruct Hh as [(? & _ & ? & _) _]).
  pose proof (allocable_prod _ _ Ha) as Hp. pose proof (allocable_lt63 _ _ Ha) as H63.
  pose proof (Hin idx Hi) as Hpos. pose proof two63_64 as H6364.
  erewrite bind_ok.
  2:{ eapply holds_exact; [|exact Hi]. eapply holds_extends; [apply alloc_extends|exact Hh]. }
  rewrite bind_lift, abs_cmp by done.
  assert (forall S x, (let! p := idx_exact (fresh_rec h (t_dt r) (t_lay r) false None) idx in
      store_cvt S (t_dt r) (t_sto (fresh_rec h (t_dt r) (t_lay r) false None)) p x) (abs_heap1 h r cs) =
      match cvt S (t_dt r) x with
      | Ok w => (Ok tt, abs_heap1 h r (<[Z.to_nat (pos (t_lay r) idx) := Some w]> cs))
      | Throw e => (Throw e, abs_heap1 h r cs) | UB u => (UB u, abs_heap1 h r cs)
      | Diverge => (Diverge, abs_heap1 h r cs) end) as Hst.
  { intros S x. erewrite bind_ok by (eapply (idx_of_lay _ _ (t_lay r) (size_prod (sizes (t_lay r)))); try done; unfold two63, two64 in *; lia).
    erewrite store_cvt_eq; [|apply alloc_sto|lia]. destruct (cvt S (t_dt r) x); try done.
    f_equal. apply alloc_put. }
  cbv zeta. destruct (match v idx with VI x => _ | VF x => _ end) eqn:Es.
  - destruct (abs_pos _ _ Hv Es) as [-> Hc]. rewrite bind_ret, Hst, Hc. done.
  - pose proof (abs_neg _ _ Hv Es) as Hn. rewrite bind_ret, bind_lift.
    destruct (negop (t_dt r) (v idx)); cbn [obind] in Hn.
    + rewrite Hst, Hn. by destruct (abs_val (t_dt r) (v idx)).
    + by destruct (abs_val _ _).
    + destruct (abs_val _ _); [done|]. by injection Hn as ->.
    + by destruct (abs_val _ _).
Qed.

Lemma h2_sto1 h r cs1 cs2 :
  h_sto (abs_heap2 h r cs1 cs2) !! length (h_sto h) =
    Some (Sto (t_dt r) (size_of (t_dt r) * size_prod (sizes (t_lay r))) (Some cs1)).
Proof. apply alloc_sto_old, alloc_sto. Qed.
Lemma h2_put1 h r cs1 cs2 cs1' :
  put (abs_heap2 h r cs1 cs2) (length (h_sto h))
    (Sto (t_dt r) (size_of (t_dt r) * size_prod (sizes (t_lay r))) (Some cs1')) =
  abs_heap2 h r cs1' cs2.
Proof.
  unfold abs_heap2, abs_heap1, put, alloc_heap, fresh_rec. simpl. rewrite !app_length. f_equal.
  rewrite insert_app_l by (rewrite app_length; simpl; lia).
  rewrite insert_app_r_alt, Nat.sub_diag by lia. done.
Qed.
Lemma h2_sto2 h r cs1 cs2 :
  h_sto (abs_heap2 h r cs1 cs2) !! S (length (h_sto h)) =
    Some (Sto (t_dt r) (size_of (t_dt r) * size_prod (sizes (t_lay r))) (Some cs2)).
Proof.
  unfold abs_heap2. rewrite <- (alloc_sto (abs_heap1 h r cs1) _ _ cs2 false None).
  f_equal. simpl. rewrite app_length. simpl. lia.
Qed.
Lemma h2_put2 h r cs1 cs2 cs2' :
  put (abs_heap2 h r cs1 cs2) (S (length (h_sto h)))
    (Sto (t_dt r) (size_of (t_dt r) * size_prod (sizes (t_lay r))) (Some cs2')) =
  abs_heap2 h r cs1 cs2'.
Proof.
  unfold abs_heap2. rewrite <- (alloc_put (abs_heap1 h r cs1) _ _ cs2 false None cs2').
  f_equal. simpl. rewrite app_length. simpl. lia.
Qed.

Definition abs_d (h : heap) (r : tensor) : tensor := fresh_rec h (t_dt r) (t_lay r) false None.
Definition abs_g (h : heap) (r : tensor) : tensor :=
  Ten (t_dt r) (t_lay r) (S (length (h_sto h))) None false false None.

Lemma abs_body2 h r v idx cs1 cs2 :
  holds h r v -> buffer_filling (t_lay r) -> allocable (t_dt r) (sizes (t_lay r)) ->
  in_range (sizes (t_lay r)) idx -> length cs1 = Z.to_nat (size_prod (sizes (t_lay r))) ->
  length cs2 = Z.to_nat (size_prod (sizes (t_lay r))) ->
  let run :=
  (let! tmp := load_exact (t_dt r) r idx in
    let! ge := lift (cmpop CGe (t_dt r) I32 tmp (VI 0)) in
    let put (T : dtype) (v : val) : E unit :=
      let! p := idx_exact (abs_d h r) idx in
      store_cvt T (t_dt r) (t_sto (abs_d h r)) p v in
    let putg (z : Z) : E unit :=
      match Some (abs_g h r) with
      | None => mret tt
      | Some g => let! p := idx_exact g idx in store_cvt I32 (t_dt r) (t_sto g) p (VI z)
      end in
    if ge : bool then putg 1 ;;; put (t_dt r) tmp
    else
      putg (-1) ;;;
      let! m := lift (negop (t_dt r) tmp) in put (prom (t_dt r) I32) m) (abs_heap2 h r cs1 cs2) in
  let cs2' := <[Z.to_nat (pos (t_lay r) idx) := Some (sign_val (t_dt r) (v idx))]> cs2 in
  run = match abs_val (t_dt r) (v idx) with
  | Some w => (Ok tt, abs_heap2 h r (<[Z.to_nat (pos (t_lay r) idx) := Some w]> cs1) cs2')
  | None => (UB SignedOverflow, abs_heap2 h r cs1 cs2')
  end.
Proof.
  intros Hh [Hin Hinj] Ha Hi Hl1 Hl2 run cs2'. unfold run.
  assert (has_ty (t_dt r) (v idx)) as Hv by (by eapply Hh).
  assert (lay_ok (t_lay r)) as Hok by (by destruct Hh as [(? & _ & ? & _) _]).
  pose proof (allocable_prod _ _ Ha) as Hp. pose proof (allocable_lt63 _ _ Ha) as H63.
  pose proof (Hin idx Hi) as Hpos.
  erewrite bind_ok.
  2:{ eapply holds_exact; [|exact Hi]. eapply holds_extends; [|exact Hh].
      eapply extends_trans; apply alloc_extends. }
  rewrite bind_lift, abs_cmp by done.
  assert (forall S x c2, (let! p := idx_exact (abs_d h r) idx in
      store_cvt S (t_dt r) (t_sto (abs_d h r)) p x) (abs_heap2 h r cs1 c2) =
      match cvt S (t_dt r) x with
      | Ok w => (Ok tt, abs_heap2 h r (<[Z.to_nat (pos (t_lay r) idx) := Some w]> cs1) c2)
      | Throw e => (Throw e, abs_heap2 h r cs1 c2) | UB u => (UB u, abs_heap2 h r cs1 c2)
      | Diverge => (Diverge, abs_heap2 h r cs1 c2) end) as Hst.
  { intros S x c2. erewrite bind_ok by (eapply (idx_of_lay _ _ (t_lay r) (size_prod (sizes (t_lay r)))); try done; unfold two63, two64 in *; lia).
    erewrite store_cvt_eq; [|apply h2_sto1|lia]. destruct (cvt S (t_dt r) x); try done.
    f_equal. apply h2_put1. }
  assert (forall b : bool, (let! p := idx_exact (abs_g h r) idx in
      store_cvt I32 (t_dt r) (t_sto (abs_g h r)) p (VI (if b then 1 else -1))) (abs_heap2 h r cs1 cs2) =
      (Ok tt, abs_heap2 h r cs1 (<[Z.to_nat (pos (t_lay r) idx) :=
         Some (if floating (t_dt r) then VF (f_of_Z (fmt (t_dt r)) (if b then 1 else -1)) else VI (if b then 1 else -1))]> cs2))) as Hsg.
  { intros b. erewrite bind_ok by (eapply (idx_of_lay _ _ (t_lay r) (size_prod (sizes (t_lay r)))); try done; unfold two63, two64 in *; lia).
    erewrite store_cvt_eq; [|apply h2_sto2|lia]. rewrite sign_cvt.
    f_equal. apply h2_put2. }
  cbv zeta. unfold cs2', sign_val. destruct (match v idx with VI x => _ | VF x => _ end) eqn:Es.
  - destruct (abs_pos _ _ Hv Es) as [-> Hc]. erewrite bind_ok by exact (Hsg true).
    rewrite Hst, Hc. done.
  - pose proof (abs_neg _ _ Hv Es) as Hn. erewrite bind_ok by exact (Hsg false). rewrite bind_lift.
    destruct (negop (t_dt r) (v idx)); cbn [obind] in Hn.
    + rewrite Hst, Hn. by destruct (abs_val (t_dt r) (v idx)).
    + by destruct (abs_val _ _).
    + destruct (abs_val _ _); [done|]. by injection Hn as ->.
    + by destruct (abs_val _ _).
Qed.

Definition abs_fn (rg : bool) (h : heap) (t : nat) : option gradfn :=
  if rg then Some (Gfn (KnownGradBack (S (length (h_ten h)))) [t] 0 0 0) else None.

(** [cs] holds the array [w] under the layout [lay] *)
Definition laid (lay : layout) (w : list Z -> val) (cs : list cell) : Prop :=
  forall idx, in_range (sizes lay) idx -> cs !! Z.to_nat (pos lay idx) = Some (Some (w idx)).

Lemma elem_in_split (ss : list Z) pre x post :
  indices ss = pre ++ x :: post -> (forall j, j ∈ pre -> in_range ss j) /\ in_range ss x.
Proof.
  intros Hs. split; intros; apply elem_of_indices; rewrite Hs; set_solver.
Qed.

Lemma abs_run1 h t r v :
  h_ten h !! t = Some r -> holds h r v -> buffer_filling (t_lay r) ->
  fits (t_dt r) (sizes (t_lay r)) -> t_rg r = false ->
  (forall w, (forall idx, in_range (sizes (t_lay r)) idx -> abs_val (t_dt r) (v idx) = Some (w idx)) ->
     exists cs, length cs = Z.to_nat (size_prod (sizes (t_lay r))) /\ laid (t_lay r) w cs /\
     op_abs t h = (Ok (length (h_ten h)), alloc_heap h (t_dt r) (t_lay r) cs false None)) /\
  ((exists idx, in_range (sizes (t_lay r)) idx /\ abs_val (t_dt r) (v idx) = None) ->
     exists h', op_abs t h = (UB SignedOverflow, h')).
Proof.
  intros Ht Hh Hbf Hf Hrg. pose proof (holds_allocable _ _ _ _ Hh Hf) as Ha.
  pose proof Hbf as [Hin Hinj].
  unfold op_abs. erewrite bind_ok by (by apply get_ten_ok).
  erewrite bind_ok by (by apply create_ok).
  erewrite bind_ok by (apply get_ten_ok, alloc_ten). rewrite Hrg. cbn [negb].
  set (cs0 := replicate (Z.to_nat (size_prod (sizes (t_lay r)))) None).
  change (alloc_heap h (t_dt r) (t_lay r) cs0 false None) with (abs_heap1 h r cs0).
  unfold tensor_abs. cbn [t_lay fresh_rec].
  rewrite bind_for_each by (by eapply allocable_nonneg).
  lazymatch goal with |- context [bind (mapM_ ?b ?l) _ ?s] =>
    pose proof (mapM_run b (fun pre hh => exists cs, hh = abs_heap1 h r cs /\
      length cs = Z.to_nat (size_prod (sizes (t_lay r))) /\
      forall j, j ∈ pre -> cs !! Z.to_nat (pos (t_lay r) j) = Some (Some (abs_or0 (t_dt r) (v j))))
      (fun x => abs_val (t_dt r) (v x) <> None)
      (fun x o _ => o = UB SignedOverflow /\ abs_val (t_dt r) (v x) = None) l s) as Hrun
  end.
  destruct Hrun as [(Hall & s' & Hr & cs & -> & Hlen & Hcs)|(x & o & s' & Hx & Hr & Ho & -> & Hn)].
  - exists cs0. split; [done|]. split; [apply replicate_length|]. intros j Hj. inversion Hj.
  - intros pre x post s Hs (cs & -> & Hlen & Hcs). destruct (elem_in_split _ _ _ _ Hs) as [Hpre Hx].
    pose proof (abs_body1 h r v x cs Hh Hbf Ha Hx Hlen) as Hb.
    destruct (abs_val (t_dt r) (v x)) as [w|] eqn:E.
    + left. split; [done|]. eexists. split; [exact Hb|]. eexists. split; [done|].
      split; [by rewrite insert_length|].
      replace w with (abs_or0 (t_dt r) (v x)) by (unfold abs_or0; by rewrite E).
      apply (ins_done (t_lay r) pre x cs (fun j => abs_or0 (t_dt r) (v j)) (size_prod (sizes (t_lay r)))); auto. lia.
    + right. exists (UB SignedOverflow), (abs_heap1 h r cs). by split; [exact Hb|].
  - split.
    + intros w Hw. exists cs. split; [done|]. split.
      * intros idx Hi. rewrite Hcs by (by apply elem_of_indices). unfold abs_or0. by rewrite Hw.
      * erewrite bind_ok by exact Hr. done.
    + intros (idx & Hi & Hn). apply elem_of_indices in Hi. by destruct (Hall idx Hi).
  - apply elem_of_indices in Hx. split.
    + intros w Hw. rewrite (Hw x Hx) in Hn. done.
    + intros _. eexists. erewrite bind_ub by exact Hr. done.
Qed.

(** the tracked case: the gradient tensor follows the result in the heap *)
Definition abs_tracked (h : heap) (t : nat) (r : tensor) (cs1 cs2 : list cell) : heap :=
  Hp (h_sto (abs_heap2 h r cs1 cs2))
     (h_ten h ++ [fresh_rec h (t_dt r) (t_lay r) true (abs_fn true h t); abs_g h r]) (h_ver h).

Lemma abs_run2 h t r v :
  h_ten h !! t = Some r -> holds h r v -> buffer_filling (t_lay r) ->
  fits (t_dt r) (sizes (t_lay r)) -> t_rg r = true ->
  (forall w, (forall idx, in_range (sizes (t_lay r)) idx -> abs_val (t_dt r) (v idx) = Some (w idx)) ->
     exists cs1 cs2, length cs1 = Z.to_nat (size_prod (sizes (t_lay r))) /\
       length cs2 = Z.to_nat (size_prod (sizes (t_lay r))) /\ laid (t_lay r) w cs1 /\
       laid (t_lay r) (fun idx => sign_val (t_dt r) (v idx)) cs2 /\
     op_abs t h = (Ok (length (h_ten h)), abs_tracked h t r cs1 cs2)) /\
  ((exists idx, in_range (sizes (t_lay r)) idx /\ abs_val (t_dt r) (v idx) = None) ->
     exists h', op_abs t h = (UB SignedOverflow, h')).
Proof.
  intros Ht Hh Hbf Hf Hrg. pose proof (holds_allocable _ _ _ _ Hh Hf) as Ha.
  pose proof Hbf as [Hin Hinj].
  unfold op_abs. erewrite bind_ok by (by apply get_ten_ok).
  erewrite bind_ok by (by apply create_ok).
  erewrite bind_ok by (apply get_ten_ok, alloc_ten). rewrite Hrg. cbn [negb].
  set (cs0 := replicate (Z.to_nat (size_prod (sizes (t_lay r)))) None).
  erewrite bind_ok by (by apply create_ok).
  erewrite bind_ok by (apply get_ten_ok, alloc_ten).
  change (alloc_heap (alloc_heap h (t_dt r) (t_lay r) cs0 false None) (t_dt r) (t_lay r)
    (replicate (Z.to_nat (size_prod (sizes (t_lay r)))) None) false None) with (abs_heap2 h r cs0 cs0).
  assert (fresh_rec (alloc_heap h (t_dt r) (t_lay r) cs0 false None) (t_dt r) (t_lay r) false None =
    abs_g h r) as ->.
  { unfold fresh_rec, abs_g, alloc_heap. simpl. rewrite app_length. simpl. by rewrite Nat.add_comm. }
  unfold tensor_abs. cbn [t_lay fresh_rec].
  rewrite bind_for_each by (by eapply allocable_nonneg).
  lazymatch goal with |- context [bind (mapM_ ?b ?l) _ ?s] =>
    pose proof (mapM_run b (fun pre hh => exists cs1 cs2, hh = abs_heap2 h r cs1 cs2 /\
      length cs1 = Z.to_nat (size_prod (sizes (t_lay r))) /\
      length cs2 = Z.to_nat (size_prod (sizes (t_lay r))) /\
      (forall j, j ∈ pre -> cs1 !! Z.to_nat (pos (t_lay r) j) = Some (Some (abs_or0 (t_dt r) (v j)))) /\
      (forall j, j ∈ pre -> cs2 !! Z.to_nat (pos (t_lay r) j) = Some (Some (sign_val (t_dt r) (v j)))))
      (fun x => abs_val (t_dt r) (v x) <> None)
      (fun x o _ => o = UB SignedOverflow /\ abs_val (t_dt r) (v x) = None) l s) as Hrun
  end.
  destruct Hrun as [(Hall & s' & Hr & cs1 & cs2 & -> & Hl1 & Hl2 & Hc1 & Hc2)|(x & o & s' & Hx & Hr & Ho & -> & Hn)].
  - exists cs0, cs0. split; [done|]. split; [apply replicate_length|]. split; [apply replicate_length|].
    split; intros j Hj; inversion Hj.
  - intros pre x post s Hs (cs1 & cs2 & -> & Hl1 & Hl2 & Hc1 & Hc2).
    destruct (elem_in_split _ _ _ _ Hs) as [Hpre Hx].
    pose proof (abs_body2 h r v x cs1 cs2 Hh Hbf Ha Hx Hl1 Hl2) as Hb.
    cbv zeta in Hb.
    destruct (abs_val (t_dt r) (v x)) as [w|] eqn:E.
    + left. split; [done|]. eexists. split; [exact Hb|]. eexists _, _. split; [done|].
      split; [by rewrite insert_length|]. split; [by rewrite insert_length|].
      replace w with (abs_or0 (t_dt r) (v x)) by (unfold abs_or0; by rewrite E). split.
      * apply (ins_done (t_lay r) pre x cs1 (fun j => abs_or0 (t_dt r) (v j)) (size_prod (sizes (t_lay r)))); auto. lia.
      * apply (ins_done (t_lay r) pre x cs2 (fun j => sign_val (t_dt r) (v j)) (size_prod (sizes (t_lay r)))); auto. lia.
    + right. exists (UB SignedOverflow). eexists. by split; [exact Hb|].
  - split.
    + intros w Hw. exists cs1, cs2. split; [done|]. split; [done|]. split; [|split].
      * intros idx Hi. rewrite Hc1 by (by apply elem_of_indices). unfold abs_or0. by rewrite Hw.
      * intros idx Hi. by apply Hc2, elem_of_indices.
      * erewrite bind_ok by exact Hr.
        assert (length (h_ten (alloc_heap h (t_dt r) (t_lay r) cs0 false None)) = S (length (h_ten h))) as ->.
        { simpl. rewrite app_length. simpl. lia. }
        unfold track. erewrite bind_ok.
        2:{ erewrite bind_ok; [reflexivity|]. apply get_ten_ok. apply alloc_ten_old, alloc_ten. }
        unfold mret, abs_tracked, abs_heap2, abs_heap1. f_equal. f_equal. simpl.
        rewrite insert_app_l by (rewrite app_length; simpl; lia).
        rewrite insert_app_r_alt, Nat.sub_diag by lia. simpl. rewrite <- app_assoc. simpl.
        f_equal. f_equal. f_equal. unfold fresh_rec, abs_g. simpl. rewrite app_length. simpl.
        by rewrite Nat.add_comm.
    + intros (idx & Hi & Hn). apply elem_of_indices in Hi. by destruct (Hall idx Hi).
  - apply elem_of_indices in Hx. split.
    + intros w Hw. rewrite (Hw x Hx) in Hn. done.
    + intros _. eexists. erewrite bind_ub by exact Hr. done.
Qed.
End with_fops.
