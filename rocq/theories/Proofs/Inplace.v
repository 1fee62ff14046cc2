(** Loops that update a tensor in place; operator +=. *)
From Verif.Spec Require Export Inplace.
From Verif.Proofs Require Export Api1.

Section with_fops.
Context {fo : FOps}.

Lemma wrote_refl h r v : holds h r v -> wrote h h r v.
Proof.
  intros H. split; [done|]. split; [done|]. split; [done|]. intros r' j Hs. split; [|done].
  intros idx Hi Hp. destruct H as [_ H]. destruct (H idx Hi) as [H1 _].
  unfold elem in *. by rewrite Hs, Hp.
Qed.
Lemma wrote_trans h h1 h2 r v w : wrote h h1 r v -> wrote h1 h2 r w -> wrote h h2 r w.
Proof.
  intros (A1 & A2 & A3 & A4) (B1 & B2 & B3 & B4). split; [congruence|].
  split. { intros s Hs. rewrite B2, A2; done. }
  split; [done|]. intros r' j Hs. destruct (A4 r' j Hs) as [_ A5], (B4 r' j Hs) as [B5 B6].
  split; [done|]. intros Hn. rewrite B6, A5; done.
Qed.
Lemma wrote_ext h h' r v w :
  (forall idx, in_range (shape r) idx -> v idx = w idx) -> wrote h h' r v -> wrote h h' r w.
Proof.
  intros E (A1 & A2 & A3 & A4). split; [done|]. split; [done|]. split; [by eapply holds_ext|].
  intros r' j Hs. destruct (A4 r' j Hs) as [A5 A6]. split; [|done].
  intros idx Hi Hp. rewrite <- (E idx Hi). auto.
Qed.

Definition upd (v : list Z -> val) (idx : list Z) (x : val) (j : list Z) : val :=
  if decide (j = idx) then x else v j.

(** one store *)
Lemma store_wrote h r v idx x :
  holds h r v -> lay_inj (t_lay r) -> in_range (shape r) idx -> has_ty (t_dt r) x ->
  exists h', store (t_dt r) (t_sto r) (pos (t_lay r) idx) x h = (Ok tt, h') /\
    wrote h h' r (upd v idx x).
Proof.
  intros [(cs & (b & Hs) & Hok & Hin & Hlen) He] Hinj Hr Hx.
  pose proof (Hin idx Hr) as Hp. pose proof (store_ok _ _ _ _ _ _ x Hs Hp) as Hst.
  set (cs' := <[Z.to_nat (pos (t_lay r) idx) := Some x]> cs) in *.
  set (h' := put h (t_sto r) (Sto (t_dt r) b (Some cs'))) in *.
  exists h'. split; [done|].
  assert (Hs' : h_sto h' !! t_sto r = Some (Sto (t_dt r) b (Some cs')))
    by (by eapply put_lookup).
  assert (Hel : forall r' j, t_sto r' = t_sto r ->
    elem h' r' j = if decide (pos (t_lay r') j = pos (t_lay r) idx) then Some x else elem h r' j).
  { intros r' j E. unfold elem, cells. rewrite E, Hs', Hs. simpl. case_decide as D.
    - rewrite D. destruct (Z.leb_spec 0 (pos (t_lay r) idx)); [|lia].
      unfold cs'. rewrite list_lookup_insert by lia. done.
    - destruct (Z.leb_spec 0 (pos (t_lay r') j)); [|done].
      unfold cs'. rewrite list_lookup_insert_ne by lia. done. }
  split; [done|]. split. { intros s Hn. by apply put_lookup_ne. }
  split; [split|].
  - exists cs'. split; [by exists b|]. unfold cs'. rewrite insert_length. done.
  - intros j Hj. rewrite Hel by done. unfold upd. destruct (decide (j = idx)) as [->|D].
    + by rewrite decide_True.
    + rewrite decide_False; [by apply He|]. intros E. apply D. by apply Hinj.
  - intros r' j E. split.
    + intros k Hk Hpk. rewrite Hel by done. unfold upd. destruct (decide (k = idx)) as [->|D].
      * by rewrite decide_True.
      * rewrite decide_False. 2:{ rewrite Hpk. intros E'. apply D. by apply Hinj. }
        destruct (He k Hk) as [H1 _]. unfold elem in *. by rewrite E, Hpk.
    + intros Hn. rewrite Hel by done. rewrite decide_False; [done|]. auto.
Qed.

(** A loop whose body reads element [P x] of [r], computes, and writes it back. *)
Definition gfold {A} (g : A -> val -> option val) (l : list A) (v : val) : option val :=
  fold_left (fun a x => match a with Some y => g x y | None => None end) l (Some v).
Lemma gfold_cons {A} (g : A -> val -> option val) x l v :
  gfold g (x :: l) v = match g x v with Some w => gfold g l w | None => None end.
Proof.
  unfold gfold. simpl. destruct (g x v); [done|].
  induction l as [|y l IH]; [done|]. done.
Qed.
Lemma acc_loop {A} (U : ub -> Prop) (h0 : heap) (r : tensor) (body : A -> E unit)
    (P : A -> list Z) (g : A -> val -> option val) (l : list A) :
  (forall x, x ∈ l -> in_range (shape r) (P x)) ->
  (forall x h v, x ∈ l -> wrote h0 h r v ->
     match g x (v (P x)) with
     | Some w => exists h', body x h = (Ok tt, h') /\ wrote h h' r (upd v (P x) w)
     | None => exists u h', body x h = (UB u, h') /\ U u
     end) ->
  forall h v, wrote h0 h r v ->
  let e idx := gfold g (filter (fun x => P x = idx) l) (v idx) in
  (forall w, (forall idx, in_range (shape r) idx -> e idx = Some (w idx)) ->
     exists h', mapM_ body l h = (Ok tt, h') /\ wrote h h' r w) /\
  ((exists idx, in_range (shape r) idx /\ e idx = None) ->
     exists u h', mapM_ body l h = (UB u, h') /\ U u).
Proof.
  induction l as [|x l IH]; intros HP Hb h v Hw e.
  - split.
    + intros w Hall. exists h. split; [done|]. destruct Hw as (_ & _ & Hv & _).
      eapply wrote_ext; [|by apply wrote_refl]. intros idx Hi. specialize (Hall idx Hi).
      by injection Hall.
    + intros (idx & _ & He). done.
  - pose proof (Hb x h v ltac:(left) Hw) as Hx. pose proof (HP x ltac:(left)) as Hin.
    assert (He : forall idx, e idx =
      if decide (P x = idx) then
        match g x (v (P x)) with
        | Some w => gfold g (filter (fun y => P y = idx) l) w | None => None end
      else gfold g (filter (fun y => P y = idx) l) (v idx)).
    { intros idx. unfold e. rewrite filter_cons. case_decide as D; [|done].
      rewrite gfold_cons. by rewrite D. }
    cbn [mapM_]. unfold bind. destruct (g x (v (P x))) as [w0|] eqn:Eg.
    + destruct Hx as (h1 & -> & Hw1).
      destruct (IH ltac:(intros y Hy; apply HP; by right)
                   ltac:(intros y k u Hy; apply Hb; by right) h1 (upd v (P x) w0)
                   ltac:(by eapply wrote_trans)) as [IH1 IH2].
      assert (He' : forall idx,
        e idx = gfold g (filter (fun y => P y = idx) l) (upd v (P x) w0 idx)).
      { intros idx. rewrite He. unfold upd. case_decide as D.
        - by rewrite decide_True.
        - by rewrite decide_False. }
      split.
      * intros w Hall. destruct (IH1 w) as (h' & -> & Hw').
        { intros idx Hi. rewrite <- He'. auto. }
        exists h'. split; [done|]. by eapply wrote_trans.
      * intros (idx & Hi & Hn). apply IH2. exists idx. by rewrite <- He'.
    + destruct Hx as (u & h1 & -> & Hu). split; [|by exists u, h1].
      intros w Hall. specialize (Hall (P x) Hin). rewrite He, decide_True in Hall by done. done.
Qed.

Lemma prom_usual L R : prom L R = usual L R.
Proof. by destruct L, R. Qed.
Lemma floating_usual L R : floating (usual L R) = floating L || floating R.
Proof. by destruct L, R. Qed.
Lemma binop_ty o L R a b w :
  has_ty L a -> has_ty R b -> binop o L R a b = Ok w -> has_ty (prom L R) w.
Proof.
  intros Ha Hb. unfold binop. destruct (floating L || floating R) eqn:Hf.
  - rewrite prom_float by done. rewrite !cvt_cpp. unfold cpp_cvt. rewrite floating_common.
    cbn [obind]. unfold arith. intros H. injection H as <-. apply has_ty_float.
    apply floating_common.
  - destruct (prom_int L R Hf) as (Hpf & _). rewrite !cvt_cpp. unfold cpp_cvt. rewrite Hpf.
    apply orb_false_elim in Hf as [HfL HfR].
    destruct a as [x|f]; [|apply has_ty_float in Ha; congruence].
    destruct b as [y|f]; [|apply has_ty_float in Hb; congruence].
    cbn [obind]. unfold arith, int_chk. intros H.
    assert (exists z, w = VI z /\ fits_int (prom L R) z = true) as (z & -> & Hz).
    { destruct o; repeat (case_match; try done); injection H as <-; eauto. }
    apply has_ty_int. split; [done|]. by rewrite <- fits_in_width.
Qed.
Lemma cvt_self T v : has_ty T v -> cvt T T v = Ok v.
Proof.
  intros H. rewrite cvt_cpp. unfold cpp_cvt. destruct v as [z|f].
  - apply has_ty_int in H as [-> H]. by rewrite reduce_id by (done || apply width_pos).
  - apply has_ty_float in H. rewrite H. simpl. unfold conv. by rewrite bool_decide_true.
Qed.
Lemma cpp_cvt_ty S D v w : cpp_cvt S D v = Some w -> has_ty D w.
Proof.
  unfold cpp_cvt. destruct (floating D) eqn:E.
  - intros [= <-]. by apply has_ty_float.
  - destruct v as [z|f].
    + intros [= <-]. apply has_ty_int. split; [done|]. apply reduce_in, width_pos.
    + destruct (f_trunc f) as [z|]; [|done]. destruct (in_width _ z) eqn:Ew; [|done].
      intros [= <-]. by apply has_ty_int.
Qed.

Lemma add_step_run L R a b :
  has_ty L a -> has_ty R b ->
  match add_step L R a b with
  | Some w => exists z, binop AAdd L R a b = Ok z /\ cvt (prom L R) L z = Ok w /\ has_ty L w
  | None => (exists u, binop AAdd L R a b = UB u /\ step_ub u) \/
            (exists z u, binop AAdd L R a b = Ok z /\ cvt (prom L R) L z = UB u /\ step_ub u)
  end.
Proof.
  intros Ha Hb. pose proof (binop_cpp AAdd L R (usual L R) a b Ha Hb (floating_usual L R)) as H.
  unfold add_step. rewrite <- prom_usual in *.
  destruct (binop AAdd L R a b) as [z|e|u|] eqn:E; cbn [obind] in H.
  - rewrite (cvt_self _ z) in H by (by eapply binop_ty).
    destruct (cpp_arith _ _ _ _ _ _) as [z'|].
    + destruct H as [[= <-] _].
      destruct (cpp_cvt (prom L R) L z) as [w|] eqn:Ec.
      * exists z. split; [done|]. rewrite cvt_cpp, Ec. split; [done|]. by eapply cpp_cvt_ty.
      * right. exists z, FloatRange. rewrite cvt_cpp, Ec. split; [done|]. split; [done|]. by right.
    + destruct H as (u & ? & _). done.
  - destruct (cpp_arith _ _ _ _ _ _); [by destruct H|]. by destruct H as (u & ? & _).
  - destruct (cpp_arith _ _ _ _ _ _); [by destruct H|]. destruct H as (u' & Hu & ?).
    simplify_eq. left. exists u'. split; [done|]. by left.
  - destruct (cpp_arith _ _ _ _ _ _); [by destruct H|]. by destruct H as (u & ? & _).
Qed.

Lemma gfold_add_all {A} L R (y : A -> val) l v :
  gfold (fun x a => add_step L R a (y x)) l v = add_all L R v (map y l).
Proof.
  revert v. induction l as [|x l IH]; intros v; [done|]. rewrite gfold_cons. simpl.
  destruct (add_step L R v (y x)); [apply IH|done].
Qed.

Lemma addeq_spec h a b ra rb va vb :
  tensor_at h a ra va -> tensor_at h b rb vb -> t_sto ra <> t_sto rb -> lay_inj (t_lay ra) ->
  t_rg ra = false -> compatible (shape ra) (shape rb) -> no_zero_one (shape ra) (shape rb) ->
  let e idx := add_all (t_dt ra) (t_dt rb) (va idx) (onto (shape ra) (shape rb) vb idx) in
  (forall w, (forall idx, in_range (shape ra) idx -> e idx = Some (w idx)) ->
     exists h', exec (OAddEq (Some a) (Some b)) h = (Ok RUnit, h') /\ wrote h h' ra w) /\
  ((exists idx, in_range (shape ra) idx /\ e idx = None) ->
     exists u h', exec (OAddEq (Some a) (Some b)) h = (UB u, h') /\ step_ub u).
Proof.
  intros [Ha Hva] [Hb Hvb] Hap Hinj Hrg Hc Hn e.
  assert (Hnn : Forall (fun n => 0 <= n) (bshape (shape ra) (shape rb)))
    by (apply bshape_Forall; by eapply holds_nonneg).
  assert (Hrun : op_addeq a b h =
    mapM_ (binary_body AAdd (t_dt ra) (t_dt ra) (t_dt rb) ra ra rb)
      (indices (bshape (shape ra) (shape rb))) h).
  { unfold op_addeq. erewrite bind_ok by (by apply get_ten_ok).
    erewrite bind_ok by (by apply get_ten_ok). rewrite Hrg. simpl. unfold tensor_add.
    unfold run_expect. rewrite ?bind_ret, ?bind_lift.
    change (sizes (t_lay ra)) with (shape ra). change (sizes (t_lay rb)) with (shape rb).
    rewrite broadcast_range_max, bmax_bshape by (done || by eapply holds_nonneg).
    rewrite bind_lift || idtac. by rewrite for_each_run. }
  pose proof (acc_loop step_ub h ra
    (binary_body AAdd (t_dt ra) (t_dt ra) (t_dt rb) ra ra rb)
    (bidx (shape ra)) (fun sv x => add_step (t_dt ra) (t_dt rb) x (vb (bidx (shape rb) sv)))
    (indices (bshape (shape ra) (shape rb)))) as HL.
  destruct HL with (h := h) (v := va) as [H1 H2].
  - intros sv Hsv. apply elem_of_indices in Hsv. by eapply bidx_in_l.
  - intros sv h1 v Hsv (Hw1 & Hw2 & Hw3 & Hw4). apply elem_of_indices in Hsv.
    assert (Hin : in_range (shape ra) (bidx (shape ra) sv)) by (by eapply bidx_in_l).
    assert (Hinb : in_range (shape rb) (bidx (shape rb) sv)) by (by eapply bidx_in_r).
    assert (Hvb1 : holds h1 rb vb) by (eapply holds_sto; [|done]; by apply Hw2).
    pose proof (in_range_length _ _ Hsv) as Hlen. rewrite bshape_length in Hlen.
    unfold binary_body.
    erewrite bind_ok by (apply (holds_aug h1 ra v); [done|unfold shape in *; lia|done]).
    erewrite bind_ok by (apply (holds_aug h1 rb vb); [done|unfold shape in *; lia|done]).
    change (sizes (t_lay ra)) with (shape ra) in *. change (sizes (t_lay rb)) with (shape rb) in *.
    destruct Hw3 as [(cs & Hbk) Hel].
    pose proof (add_step_run (t_dt ra) (t_dt rb) (v (bidx (shape ra) sv)) (vb (bidx (shape rb) sv))
      ltac:(by apply Hel) ltac:(destruct Hvb as [_ Hvb]; by apply Hvb)) as Hst.
    destruct (backed_idx_aug h1 ra cs sv Hbk ltac:(unfold shape in *; lia) Hin) as [Hi _].
    destruct (add_step _ _ _ _) as [w|].
    + destruct Hst as (z & Hz & Hcv & Hty). rewrite bind_lift, Hz.
      erewrite bind_ok by done. unfold store_cvt. rewrite bind_lift, Hcv.
      apply store_wrote; try done. split; [by exists cs|done].
    + destruct Hst as [(u & Hz & Hu)|(z & u & Hz & Hcv & Hu)]; rewrite bind_lift, Hz.
      * by exists u, h1.
      * erewrite bind_ok by done. unfold store_cvt. rewrite bind_lift, Hcv. by exists u, h1.
  - by apply wrote_refl.
  - cbn [exec deref]. rewrite !bind_ret. unfold no_result, bind. rewrite Hrun.
    assert (He : forall idx, e idx = gfold (fun sv x => add_step (t_dt ra) (t_dt rb) x
        (vb (bidx (shape rb) sv))) (filter (fun x => bidx (shape ra) x = idx)
        (indices (bshape (shape ra) (shape rb)))) (va idx)).
    { intros idx. unfold e, onto. by rewrite gfold_add_all. }
    split.
    + intros w Hw. destruct (H1 w) as (h' & -> & Hh').
      { intros idx Hi. rewrite <- He. auto. }
      exists h'. done.
    + intros (idx & Hi & Hn'). destruct H2 as (u & h' & -> & Hu).
      { exists idx. by rewrite <- He. }
      by exists u, h'.
Qed.

Lemma filter_indices_one ss idx :
  in_range ss idx -> filter (fun sv => bidx ss sv = idx) (indices ss) = [idx].
Proof.
  intros Hi. assert (Hn : NoDup (indices ss)) by apply NoDup_indices.
  assert (Hall : forall x, x ∈ indices ss -> in_range ss x) by (intros; by apply elem_of_indices).
  assert (Hx : idx ∈ indices ss) by (by apply elem_of_indices).
  induction (indices ss) as [|y l IH]; [inversion Hx|].
  apply NoDup_cons in Hn as [Hy Hn]. rewrite filter_cons.
  rewrite bidx_self by (apply Hall; left).
  apply elem_of_cons in Hx as [->|Hx].
  - rewrite decide_True by done. f_equal.
    destruct (filter _ l) as [|z k] eqn:E; [done|].
    assert (Hz : z ∈ filter (fun sv => bidx ss sv = y) l) by (rewrite E; left).
    apply elem_of_list_filter in Hz as [Hz1 Hz2].
    rewrite bidx_self in Hz1 by (apply Hall; by right). by subst.
  - rewrite decide_False by (intros ->; done).
    apply IH; [done| |done]. intros x H'. apply Hall. by right.
Qed.
Lemma onto_same sa sb vb idx :
  bshape sa sb = sa -> in_range sa idx -> onto sa sb vb idx = [vb (bidx sb idx)].
Proof. intros Hs Hi. unfold onto. rewrite Hs, filter_indices_one by done. done. Qed.

Lemma addeq_elementwise h a b ra rb va vb :
  tensor_at h a ra va -> tensor_at h b rb vb -> t_sto ra <> t_sto rb -> lay_inj (t_lay ra) ->
  t_rg ra = false -> compatible (shape ra) (shape rb) -> no_zero_one (shape ra) (shape rb) ->
  bshape (shape ra) (shape rb) = shape ra ->
  let e idx := add_step (t_dt ra) (t_dt rb) (va idx) (vb (bidx (shape rb) idx)) in
  (forall w, (forall idx, in_range (shape ra) idx -> e idx = Some (w idx)) ->
     exists h', exec (OAddEq (Some a) (Some b)) h = (Ok RUnit, h') /\ wrote h h' ra w) /\
  ((exists idx, in_range (shape ra) idx /\ e idx = None) ->
     exists u h', exec (OAddEq (Some a) (Some b)) h = (UB u, h') /\ step_ub u).
Proof.
  intros Ha Hb Hap Hinj Hrg Hc Hn Hs e.
  destruct (addeq_spec h a b ra rb va vb Ha Hb Hap Hinj Hrg Hc Hn) as [H1 H2].
  assert (He : forall idx, in_range (shape ra) idx ->
    add_all (t_dt ra) (t_dt rb) (va idx) (onto (shape ra) (shape rb) vb idx) = e idx).
  { intros idx Hi. rewrite onto_same by done. simpl. unfold e. by destruct (add_step _ _ _ _). }
  split.
  - intros w Hw. apply H1. intros idx Hi. rewrite He by done. auto.
  - intros (idx & Hi & Hn'). apply H2. exists idx. split; [done|]. by rewrite He.
Qed.

Lemma bmax_self ss : Forall (fun n => 0 <= n) ss -> bmax ss ss = ss.
Proof.
  intros H. assert (bmax ss ss = bshape ss ss) as ->.
  { apply bmax_bshape; try done. 
    - unfold compatible. apply Forall2_same_length_lookup_2; [done|].
      intros i x y Hx Hy. left. congruence.
    - intros k x y Hx Hy. split; intros []; congruence. }
  unfold bshape, pad. rewrite Nat.max_id, Nat.sub_diag. simpl. clear H.
  induction ss as [|n ss IH]; [done|]. simpl. rewrite IH. by case_match.
Qed.
(** a += a *)
Lemma addeq_self h a ra va :
  tensor_at h a ra va -> lay_inj (t_lay ra) -> t_rg ra = false ->
  let e idx := add_step (t_dt ra) (t_dt ra) (va idx) (va idx) in
  (forall w, (forall idx, in_range (shape ra) idx -> e idx = Some (w idx)) ->
     exists h', exec (OAddEq (Some a) (Some a)) h = (Ok RUnit, h') /\ wrote h h' ra w) /\
  ((exists idx, in_range (shape ra) idx /\ e idx = None) ->
     exists u h', exec (OAddEq (Some a) (Some a)) h = (UB u, h') /\ step_ub u).
Proof.
  intros [Ha Hva] Hinj Hrg e.
  assert (Hnn : Forall (fun n => 0 <= n) (shape ra)) by (by eapply holds_nonneg).
  assert (Hrun : op_addeq a a h =
    mapM_ (binary_body AAdd (t_dt ra) (t_dt ra) (t_dt ra) ra ra ra) (indices (shape ra)) h).
  { unfold op_addeq. erewrite bind_ok by (by apply get_ten_ok).
    erewrite bind_ok by (by apply get_ten_ok). rewrite Hrg. simpl. unfold tensor_add.
    unfold run_expect. rewrite ?bind_ret, ?bind_lift.
    change (sizes (t_lay ra)) with (shape ra).
    rewrite broadcast_range_max, bmax_self by done. by rewrite for_each_run. }
  pose proof (acc_loop step_ub h ra
    (binary_body AAdd (t_dt ra) (t_dt ra) (t_dt ra) ra ra ra)
    (bidx (shape ra)) (fun sv x => add_step (t_dt ra) (t_dt ra) x x)
    (indices (shape ra))) as HL.
  destruct HL with (h := h) (v := va) as [H1 H2].
  - intros sv Hsv. apply elem_of_indices in Hsv. by rewrite bidx_self.
  - intros sv h1 v Hsv (Hw1 & Hw2 & Hw3 & Hw4). apply elem_of_indices in Hsv.
    assert (Hin : in_range (shape ra) (bidx (shape ra) sv)) by (by rewrite bidx_self).
    pose proof (in_range_length _ _ Hsv) as Hlen.
    unfold binary_body.
    erewrite bind_ok by (apply (holds_aug h1 ra v); [done|unfold shape in *; lia|done]).
    erewrite bind_ok by (apply (holds_aug h1 ra v); [done|unfold shape in *; lia|done]).
    change (sizes (t_lay ra)) with (shape ra) in *.
    destruct Hw3 as [(cs & Hbk) Hel].
    pose proof (add_step_run (t_dt ra) (t_dt ra) (v (bidx (shape ra) sv)) (v (bidx (shape ra) sv))
      ltac:(by apply Hel) ltac:(by apply Hel)) as Hst.
    destruct (backed_idx_aug h1 ra cs sv Hbk ltac:(unfold shape in *; lia) Hin) as [Hi _].
    destruct (add_step _ _ _ _) as [w|].
    + destruct Hst as (z & Hz & Hcv & Hty). rewrite bind_lift, Hz.
      erewrite bind_ok by done. unfold store_cvt. rewrite bind_lift, Hcv.
      apply store_wrote; try done. split; [by exists cs|done].
    + destruct Hst as [(u & Hz & Hu)|(z & u & Hz & Hcv & Hu)]; rewrite bind_lift, Hz.
      * by exists u, h1.
      * erewrite bind_ok by done. unfold store_cvt. rewrite bind_lift, Hcv. by exists u, h1.
  - by apply wrote_refl.
  - cbn [exec deref]. rewrite !bind_ret. unfold no_result, bind. rewrite Hrun.
    assert (He : forall idx, in_range (shape ra) idx -> e idx =
      gfold (fun sv x => add_step (t_dt ra) (t_dt ra) x x)
        (filter (fun x => bidx (shape ra) x = idx) (indices (shape ra))) (va idx)).
    { intros idx Hi. rewrite filter_indices_one by done. rewrite gfold_cons. unfold e.
      by destruct (add_step _ _ _ _). }
    split.
    + intros w Hw. destruct (H1 w) as (h' & -> & Hh').
      { intros idx Hi. rewrite <- He by done. auto. }
      exists h'. done.
    + intros (idx & Hi & Hn'). destruct H2 as (u & h' & -> & Hu).
      { exists idx. by rewrite <- He. }
      by exists u, h'.
Qed.

Lemma addeq_tracked h a b ra rb :
  h_ten h !! a = Some ra -> h_ten h !! b = Some rb -> t_rg ra = true ->
  exec (OAddEq (Some a) (Some b)) h = (Throw RuntimeError, h).
Proof.
  intros Ha Hb Hrg. cbn [exec deref]. rewrite !bind_ret. unfold no_result, op_addeq, bind.
  rewrite (get_ten_ok _ _ _ Ha), (get_ten_ok _ _ _ Hb), Hrg. done.
Qed.

(** what repeated addition amounts to *)
Definition zsum (l : list Z) : Z := fold_right Z.add 0 l.
Lemma add_all_int T U x ys :
  floating T = false -> floating U = false -> width U <= width T -> 32 <= width T ->
  Forall (fun k => in_width (width T) (x + zsum (take k ys)) = true) (seq 0 (S (length ys))) ->
  Forall (fun y => in_width (width U) y = true) ys ->
  add_all T U (VI x) (map VI ys) = Some (VI (x + zsum ys)).
Proof.
  intros HT HU HUT H32. revert x. induction ys as [|y ys IH]; intros x Hall Hty.
  - simpl. do 2 f_equal. lia.
  - apply Forall_cons in Hty as [Hy Hty]. cbn [map add_all].
    assert (Hall' : forall k, (k <= S (length ys))%nat ->
      in_width (width T) (x + zsum (take k (y :: ys))) = true).
    { intros k Hk. rewrite Forall_forall in Hall. apply Hall. apply elem_of_seq. simpl. lia. }
    assert (add_step T U (VI x) (VI y) = Some (VI (x + y))) as ->.
    { unfold add_step, cpp_arith. rewrite HT, HU. simpl orb. cbn iota. unfold zop.
      assert (Hxy : in_width (width T) (x + y) = true).
      { specialize (Hall' 1%nat ltac:(lia)). simpl in Hall'. by rewrite Z.add_0_r in Hall'. }
      assert (common_width T U = width T) as ->.
      { destruct T, U; try done; simpl in *; lia. }
      rewrite Hxy. assert (width (usual T U) = width T) as ->.
      { destruct T, U; try done; simpl in *; lia. }
      rewrite reduce_id by (done || apply width_pos). unfold cpp_cvt. rewrite HT.
      by rewrite reduce_id by (done || apply width_pos). }
    rewrite IH; [simpl; do 2 f_equal; lia| |done].
    apply Forall_forall. intros k Hk%elem_of_seq. specialize (Hall' (S k) ltac:(lia)).
    simpl in Hall'. by rewrite Z.add_assoc in Hall'.
Qed.
End with_fops.
