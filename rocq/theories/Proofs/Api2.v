(** Commutation, negation, rejection, all(). *)
From Verif.Proofs Require Export Api1.

Section with_fops.
Context {fo : FOps}.

Lemma all_some_or {A B} (f : A -> option B) (d : B) (l : list A) :
  (exists w, forall x, x ∈ l -> f x = Some (w x)) \/ (exists x, x ∈ l /\ f x = None).
Proof.
  destruct (decide (Exists (fun x => f x = None) l)) as [He|He].
  - right. apply Exists_exists in He as (x & Hx & Hn). by exists x.
  - left. exists (fun x => match f x with Some y => y | None => d end).
    intros x Hx. destruct (f x) eqn:Hf; [done|]. destruct He. apply Exists_exists. by exists x.
Qed.
Lemma all_defined_or (f : list Z -> option val) ss :
  (exists w, forall idx, in_range ss idx -> f idx = Some (w idx)) \/
  (exists idx, in_range ss idx /\ f idx = None).
Proof.
  destruct (all_some_or f (VI 0) (indices ss)) as [[w Hw]|(idx & Hi & Hn)].
  - left. exists w. intros idx Hi. by apply Hw, elem_of_indices.
  - right. exists idx. split; [by apply elem_of_indices|done].
Qed.

(** C11 *)
Lemma arith_commutes o h a b ra rb va vb :
  f_commutative fo -> o = AAdd \/ o = AMul ->
  tensor_at h a ra va -> tensor_at h b rb vb ->
  compatible (shape ra) (shape rb) -> no_zero_one (shape ra) (shape rb) ->
  fits (dt_join (t_dt ra) (t_dt rb)) (bshape (shape ra) (shape rb)) ->
  (exists dt ss rg w t t' h1 h2,
     exec (exec_arith o (Some a) (Some b)) h = (Ok (RHandle (Some t)), h1) /\
     exec (exec_arith o (Some b) (Some a)) h = (Ok (RHandle (Some t')), h2) /\
     new_tensor h h1 t dt ss rg w /\ new_tensor h h2 t' dt ss rg w) \/
  (exists u u' h1 h2,
     exec (exec_arith o (Some a) (Some b)) h = (UB u, h1) /\ arith_ub u /\
     exec (exec_arith o (Some b) (Some a)) h = (UB u', h2) /\ arith_ub u').
Proof.
  intros Hcm Ho Ha Hb Hc Hz Hf.
  destruct (arith_new o h a b (fun _ => Hcm) ra rb va vb Ha Hb Hc Hz Hf) as [Ok1 Ub1].
  destruct (arith_new o h b a (fun _ => Hcm) rb ra vb va Hb Ha) as [Ok2 Ub2].
  { by apply compatible_sym. } { by apply no_zero_one_sym. }
  { by rewrite dt_join_comm, <- bshape_comm. }
  rewrite <- (bshape_comm (shape ra)), <- (dt_join_comm (t_dt ra)) in Ok2, Ub2 by done.
  rewrite (orb_comm (t_rg rb)) in Ok2.
  set (ss := bshape (shape ra) (shape rb)) in *. set (D := dt_join (t_dt ra) (t_dt rb)) in *.
  destruct (all_defined_or (fun idx => cpp_arith o (t_dt ra) (t_dt rb) D (va (bidx (shape ra) idx))
    (vb (bidx (shape rb) idx))) ss) as [[w Hw]|(idx & Hi & Hn)].
  - left. destruct (Ok1 w Hw) as (t & h1 & E1 & N1). destruct (Ok2 w) as (t' & h2 & E2 & N2).
    { intros idx Hi. rewrite cpp_arith_comm by done. by apply Hw. }
    by exists D, ss, (t_rg ra || t_rg rb), w, t, t', h1, h2.
  - right. destruct Ub1 as (u & h1 & E1 & U1); [by exists idx|].
    destruct Ub2 as (u' & h2 & E2 & U2).
    { exists idx. split; [done|]. by rewrite cpp_arith_comm. }
    by exists u, u', h1, h2.
Qed.

(** C06 *)
Lemma arith_reject o h a b ra rb va vb :
  tensor_at h a ra va -> tensor_at h b rb vb ->
  misfit (shape ra) (shape rb) ->
  fits (dt_join (t_dt ra) (t_dt rb)) (bmax (shape ra) (shape rb)) ->
  exists x h', exec (exec_arith o (Some a) (Some b)) h = (x, h') /\ extends h h' /\
    (x = Throw RuntimeError \/
     floating (t_dt ra) = false /\ floating (t_dt rb) = false /\ exists u, x = UB u /\ arith_ub u).
Proof.
  intros [Ha Hva] [Hb Hvb] Hc Hf. rewrite exec_arith_eq, new_handle_eq.
  destruct (op_arith_reject o h a b ra rb va vb Ha Hb Hva Hvb Hc Hf)
    as (x & h' & -> & He & Hx).
  destruct Hx as [->|(F1 & F2 & u & -> & Hu)].
  - eexists _, _. split; [done|]. split; [done|by left].
  - eexists _, _. split; [done|]. split; [done|]. right. split; [done|]. split; [done|]. by exists u.
Qed.
Lemma cmp_reject c h a b ra rb va vb :
  tensor_at h a ra va -> tensor_at h b rb vb ->
  misfit (shape ra) (shape rb) ->
  fits I8 (bmax (shape ra) (shape rb)) ->
  exists h', exec (OCmp c (Some a) (Some b)) h = (Throw RuntimeError, h') /\ extends h h'.
Proof.
  intros [Ha Hva] [Hb Hvb] Hc Hf. cbn [exec]. rewrite bin_some, new_handle_eq.
  destruct (op_cmp_reject c h a b ra rb va vb Ha Hb Hva Hvb Hc Hf) as (h' & -> & He).
  by eexists.
Qed.

(** C13 *)
Lemma compatible_nil ss : compatible [] ss.
Proof. by rewrite compatible_rev. Qed.
Lemma no_zero_one_nil ss : no_zero_one [] ss.
Proof. by intros k x y. Qed.
Lemma bshape_nil ss : bshape [] ss = ss.
Proof. rewrite <- (rev_involutive (bshape [] ss)), bshape_rev. simpl. apply rev_involutive. Qed.
Lemma bidx_nil idx : bidx [] idx = [].
Proof. done. Qed.

Lemma neg_new h a ra va :
  tensor_at h a ra va -> fits (dt_join I32 (t_dt ra)) (shape ra) ->
  let D := dt_join I32 (t_dt ra) in
  let e idx := cpp_arith ASub I32 (t_dt ra) D (VI 0) (va idx) in
  (forall w, (forall idx, in_range (shape ra) idx -> e idx = Some (w idx)) ->
     exists t h', exec (ONeg (Some a)) h = (Ok (RHandle (Some t)), h') /\
       new_tensor h h' t D (shape ra) (t_rg ra) w) /\
  ((exists idx, in_range (shape ra) idx /\ e idx = None) ->
     exists u h', exec (ONeg (Some a)) h = (UB u, h') /\ arith_ub u).
Proof.
  intros [Ha Hva] Hf D e. cbn [exec]. rewrite un_some, new_handle_eq. unfold op_neg.
  erewrite bind_ok by (apply create_scalar_ok). fold (scalar_heap h I32 (VI 0)).
  pose proof (scalar_extends h I32 (VI 0)) as He.
  set (h1 := scalar_heap h I32 (VI 0)) in *. set (z := length (h_ten h)).
  set (rz := fresh_rec h I32 (contig []) false None).
  assert (tensor_at h1 z rz (fun _ => VI 0)) as Hz.
  { split; [apply alloc_ten|]. apply alloc_holds; [apply allocable_nil|done]. }
  assert (tensor_at h1 a ra va) as Ha1.
  { split; [by apply He|]. by eapply holds_extends. }
  destruct (arith_new ASub h1 z a ltac:(done) rz ra (fun _ => VI 0) va Hz Ha1) as [HOk HUb].
  { apply compatible_nil. } { apply no_zero_one_nil. }
  { change (shape rz) with (@nil Z). by rewrite bshape_nil. }
  change (shape rz) with (@nil Z) in HOk, HUb. rewrite bshape_nil in HOk, HUb.
  rewrite exec_arith_eq, new_handle_eq in HOk, HUb. cbn [op_arith] in HOk, HUb.
  assert (forall idx, in_range (shape ra) idx -> bidx (shape ra) idx = idx) as Hself
    by (intros; by apply bidx_self).
  split.
  - intros w Hw. destruct (HOk w) as (t & h' & Hx & Hn).
    { intros idx Hi. rewrite Hself by done. by apply Hw. }
    exists t, h'. split; [done|]. by eapply new_tensor_trans.
  - intros (idx & Hi & Hn). destruct HUb as (u & h' & Hx & Hu).
    { exists idx. split; [done|]. by rewrite Hself. }
    by exists u, h'.
Qed.

(** ** all() *)
Lemma load_bool_i8 h r v idx b :
  holds h r v -> t_dt r = I8 -> in_range (sizes (t_lay r)) idx ->
  v idx = VI (if b : bool then 1 else 0) ->
  load_bool_byte (t_sto r) (pos (t_lay r) idx) h = (Ok b, h).
Proof.
  intros [(cs & (bt & Hs) & Hlo & Hin & Hl) He] Ht Hi Hv.
  specialize (He idx Hi) as [He _]. apply elem_lookup in He as (cs' & Hc & Hp & Hlk).
  unfold cells in Hc. rewrite Hs in Hc. simpl in Hc. simplify_eq.
  unfold load_bool_byte. erewrite bind_ok by (by apply get_sto_ok).
  cbn [sto_blob sto_ty]. rewrite Ht. cbn [size_of]. rewrite Z.div_1_r, Hlk.
  specialize (Hin idx Hi). destruct (Z.leb_spec 0 (pos (t_lay r) idx)); [|lia].
  destruct (Z.ltb_spec (pos (t_lay r) idx) (1 * Z.of_nat (length cs'))); [|lia].
  cbn [andb]. rewrite Z.mod_1_r, Hv. by destruct b.
Qed.

Definition is_one (v : val) : bool := match v with VI 1 => true | _ => false end.

Lemma run_all h r v l :
  holds h r v -> t_dt r = I8 ->
  (forall idx, idx ∈ l -> in_range (sizes (t_lay r)) idx) ->
  (forall idx, in_range (sizes (t_lay r)) idx -> v idx = VI 0 \/ v idx = VI 1) ->
  run_idx (fun sv =>
             let! p := idx_exact r sv in
             let! b := load_bool_byte (t_sto r) p in
             mret (if b : bool then None else Some false)) l h =
  (Ok (if forallb (fun idx => is_one (v idx)) l then None else Some false), h).
Proof.
  intros Hh Ht Hl Hv. induction l as [|idx l IH]; [done|].
  assert (in_range (sizes (t_lay r)) idx) as Hi by (apply Hl; left).
  destruct (Hh) as [(cs & Hb) _]. destruct (backed_idx _ _ _ idx Hb Hi) as [Hp _].
  assert (exists b : bool, v idx = VI (if b then 1 else 0)) as [b Hb'].
  { destruct (Hv idx Hi); [by exists false|by exists true]. }
  cbn [run_idx]. rewrite bind_assoc. erewrite bind_ok by exact Hp.
  rewrite bind_assoc. erewrite bind_ok by (by eapply load_bool_i8).
  rewrite bind_ret. cbn [forallb]. rewrite Hb'. destruct b; cbn [is_one andb]; [|done].
  apply IH. intros idx' Hi'. apply Hl. by right.
Qed.

Lemma all_i8 h t r v :
  tensor_at h t r v -> t_dt r = I8 ->
  (forall idx, in_range (shape r) idx -> v idx = VI 0 \/ v idx = VI 1) ->
  exists b, exec (QAll (Some t)) h = (Ok (RBool b), h) /\
    (b = true <-> forall idx, in_range (shape r) idx -> v idx = VI 1).
Proof.
  intros [Ht Hh] Hty Hv. unfold shape in *.
  exists (forallb (fun idx => is_one (v idx)) (indices (sizes (t_lay r)))). split.
  - cbn [exec deref]. rewrite bind_ret. unfold op_all. rewrite bind_assoc.
    erewrite bind_ok by (by apply get_ten_ok).
    pose proof (holds_nonneg _ _ _ Hh) as Hn.
    destruct (existsb (Z.eqb 0) (sizes (t_lay r))) eqn:Hz.
    { apply existsb_zero_true in Hz. rewrite indices_empty by done. done. }
    pose proof (existsb_zero_false _ Hn Hz) as Hp.
    pose proof (run_all h r v (indices (sizes (t_lay r))) Hh Hty
      ltac:(by intros ? ?%elem_of_indices) Hv) as Hrun.
    destruct (sizes (t_lay r)) as [|n ss] eqn:Hs.
    + destruct (Hh) as [(cs & Hb) _].
      destruct (backed_idx _ _ _ [] Hb) as [Hpos _]; [rewrite Hs; constructor|].
      assert (exists b : bool, v [] = VI (if b then 1 else 0)) as [b Hb'].
      { destruct (Hv []); [constructor|by exists false|by exists true]. }
      rewrite bind_assoc. erewrite bind_ok by exact Hpos.
      erewrite bind_ok.
      2:{ eapply load_bool_i8; try done. rewrite Hs. constructor. }
      cbn. rewrite Hb'. by destruct b.
    + rewrite bind_assoc. erewrite bind_ok.
      2:{ rewrite odometer_run by done. exact Hrun. }
      rewrite bind_ret. by destruct (forallb _ _).
  - rewrite forallb_forall. split.
    + intros H idx Hi. specialize (H idx). rewrite <- elem_of_list_In, elem_of_indices in H.
      specialize (H Hi). unfold is_one in H. destruct (Hv idx Hi) as [E|E]; rewrite E in *; done.
    + intros H idx Hi. rewrite <- elem_of_list_In, elem_of_indices in Hi.
      by rewrite (H idx Hi).
Qed.
End with_fops.

Lemma indices_spec ss :
  Forall (fun n => 0 <= n) ss ->
  (forall idx, idx ∈ indices ss <-> in_range ss idx) /\ NoDup (indices ss) /\
  Z.of_nat (length (indices ss)) = size_prod ss /\
  (forall i j x y, indices ss !! i = Some x -> indices ss !! j = Some y ->
     ((i < j)%nat <-> lex_lt x y)) /\
  indices [] = [[]].
Proof.
  intros Hn. split; [apply elem_of_indices|]. split; [apply NoDup_indices|].
  split; [by apply length_indices|]. split; [|done]. intros i j x y Hi Hj.
  destruct (indices_lookup_inv _ _ _ Hn Hi) as [Hx Rx].
  destruct (indices_lookup_inv _ _ _ Hn Hj) as [Hy Ry].
  rewrite <- (row_major_lex ss) by done. lia.
Qed.

(** ** shapes of results *)
Lemma zip_max_ones l : Forall (fun n => 0 < n) l -> zip_with Z.max l (replicate (length l) 1) = l.
Proof. induction 1; simpl; [done|]. f_equal; [lia|done]. Qed.
Lemma zip_max_rev a b k m :
  Forall (fun n => 0 < n) a -> Forall (fun n => 0 < n) b ->
  (k = length b - length a)%nat -> (m = length a - length b)%nat ->
  zip_with Z.max (a ++ replicate k 1) (b ++ replicate m 1) = bc_rev Z.max a b.
Proof.
  intros Ha. revert b k m. induction Ha as [|x a Hx Ha IH]; intros b k m Hb -> ->.
  - simpl. rewrite app_nil_r, Nat.sub_0_r. destruct b as [|y b]; [done|].
    change (bc_rev Z.max [] ?l) with l. clear -Hb.
    induction Hb; simpl; [done|]. f_equal; [lia|done].
  - destruct Hb as [|y b Hy Hb].
    + rewrite Nat.sub_0_r. simpl (replicate (0 - _) _). rewrite app_nil_r, app_nil_l.
      rewrite bc_rev_nil_r. apply zip_max_ones. by constructor.
    + simpl. f_equal. by apply IH.
Qed.
Lemma max_shape_bmax a b :
  Forall (fun n => 0 < n) a -> Forall (fun n => 0 < n) b -> max_shape a b = bmax a b.
Proof.
  intros Ha Hb. unfold max_shape, bmax. set (n := Nat.max _ _).
  rewrite <- (rev_involutive (zip_with _ _ _)). f_equal.
  rewrite <- zip_with_rev by (rewrite !pad_length; lia). rewrite !rev_pad.
  apply zip_max_rev; [by apply Forall_rev..| |]; rewrite !rev_length; lia.
Qed.
