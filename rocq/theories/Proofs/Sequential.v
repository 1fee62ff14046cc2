(** operator += on operands that may share cells and need not have matching shapes. *)
From Verif.Spec Require Export Sequential.
From Verif.Proofs Require Export Reject Inplace.

Section with_fops.
Context {fo : FOps}.
Lemma elem_memory h r idx : elem h r idx = memory_of h (t_sto r) (pos (t_lay r) idx).
Proof. done. Qed.
Lemma store_memory h s T b cs p x : h_sto h !! s = Some (Sto T b (Some cs)) -> 0 <= p < Z.of_nat (length cs) ->
  exists h', store T s p x h = (Ok tt, h') /\ h_ten h' = h_ten h /\ (forall s', s' <> s -> h_sto h' !! s' = h_sto h !! s') /\
    h_sto h' !! s = Some (Sto T b (Some (<[Z.to_nat p := Some x]> cs))) /\
    forall s' p', memory_of h' s' p' = put_cell (memory_of h) s p x s' p'.
Proof.
  intros Hs Hp. pose proof (store_ok _ _ _ _ _ _ x Hs Hp) as Hst.
  set (cs' := <[Z.to_nat p := Some x]> cs) in *. set (h' := put h s (Sto T b (Some cs'))) in *.
  exists h'. assert (h_sto h' !! s = Some (Sto T b (Some cs'))) as Hs' by (by eapply put_lookup).
  assert (forall s', s' <> s -> h_sto h' !! s' = h_sto h !! s') as Hne by (intros s' Hn; by apply put_lookup_ne).
  split; [done|]. split; [done|]. split; [done|]. split; [done|].
  intros s' p'. unfold memory_of, put_cell, cells. case_decide as D.
  - destruct D as [-> ->]. rewrite Hs'. simpl. destruct (Z.leb_spec 0 p); [|lia]. unfold cs'. by rewrite list_lookup_insert by lia.
  - destruct (decide (s' = s)) as [->|Hn]; [|by rewrite Hne]. rewrite Hs', Hs. simpl.
    destruct (Z.leb_spec 0 p'); [|done]. unfold cs'. rewrite list_lookup_insert_ne; [done|]. intros E. apply D. split; [done|lia].
Qed.
Lemma put_holds h h' r v s T b cs p x : holds h r v -> h_sto h !! s = Some (Sto T b (Some cs)) -> has_ty T x ->
  (forall s', s' <> s -> h_sto h' !! s' = h_sto h !! s') -> h_sto h' !! s = Some (Sto T b (Some (<[Z.to_nat p := Some x]> cs))) ->
  (forall s' p', memory_of h' s' p' = put_cell (memory_of h) s p x s' p') -> exists v', holds h' r v'.
Proof.
  intros [(cs0 & (b0 & Hb0) & Hok & Hin & Hlen) He] Hs Hx Hne Hs' Hm.
  exists (fun idx => if decide (t_sto r = s /\ pos (t_lay r) idx = p) then x else v idx). split.
  - destruct (decide (t_sto r = s)) as [E|E].
    + rewrite E in *. rewrite Hs in Hb0. injection Hb0 as -> -> ->. eexists. split; [exists b0; by rewrite E|]. by rewrite insert_length.
    + exists cs0. split; [|done]. exists b0. by rewrite Hne.
  - intros idx Hi. destruct (He idx Hi) as [H1 H2]. rewrite elem_memory, Hm. unfold put_cell. case_decide as D; [|done].
    split; [done|]. destruct D as [<- _]. rewrite Hs in Hb0. by injection Hb0 as -> _ _.
Qed.

(** memories that agree everywhere give the same pass *)
Definition same_memory (m m' : memory) : Prop := forall s p, m s p = m' s p.
Lemma put_same m m' s p x : same_memory m m' -> same_memory (put_cell m s p x) (put_cell m' s p x).
Proof. intros H s' p'. unfold put_cell. by case_decide. Qed.
Lemma pass_same ra rb l : forall m m', same_memory m m' ->
  match add_pass ra rb l m, add_pass ra rb l m' with
  | Done m, Done m' => same_memory m m' | Refused m, Refused m' => same_memory m m' | Undefined, Undefined => True | _, _ => False
  end.
Proof.
  induction l as [|sv l IH]; intros m m' H; [done|]. cbn [add_pass]. case_decide; [|done].
  rewrite !H. destruct (m' (t_sto ra) _) as [x|]; [|done]. destruct (m' (t_sto rb) _) as [y|]; [|done].
  destruct (add_step _ _ x y) as [z|]; [|done]. apply IH. by apply put_same.
Qed.

Lemma body_pass h ra rb va vb sv : holds h ra va -> holds h rb vb ->
  (length (shape ra) <= length sv)%nat -> (length (shape rb) <= length sv)%nat -> Forall (fun i => 0 <= i) sv ->
  let x := va (bidx (shape ra) sv) in let y := vb (bidx (shape rb) sv) in
  let body := binary_body AAdd (t_dt ra) (t_dt ra) (t_dt rb) ra ra rb sv h in
  if decide (falls_in ra sv /\ falls_in rb sv) then
    match add_step (t_dt ra) (t_dt rb) x y with
    | Some z => exists h', body = (Ok tt, h') /\ memory_now h h' (t_sto ra) (put_cell (memory_of h) (t_sto ra) (onto_cell ra sv) z) /\
        (exists v, holds h' ra v) /\ (exists v, holds h' rb v)
    | None => exists u h', body = (UB u, h') /\ step_ub u
    end
  else body = (Throw RuntimeError, h).
Proof.
  intros Ha Hb Hla Hlb Hnn. cbv zeta. unfold shape in *. case_decide as D.
  - destruct D as [D1 D2]. unfold falls_in, shape in *. unfold binary_body.
    erewrite bind_ok by (by apply (holds_aug h ra va)). erewrite bind_ok by (by apply (holds_aug h rb vb)).
    pose proof Ha as [(cs & Hbk) Hel].
    pose proof (add_step_run (t_dt ra) (t_dt rb) (va (bidx (sizes (t_lay ra)) sv)) (vb (bidx (sizes (t_lay rb)) sv))
      ltac:(by apply Hel) ltac:(destruct Hb as [_ Hb]; by apply Hb)) as Hst.
    destruct (backed_idx_aug h ra cs sv Hbk Hla D1) as [Hi Hp].
    destruct (add_step _ _ _ _) as [w|].
    + destruct Hst as (z & Hz & Hcv & Hty). rewrite bind_lift, Hz.
      erewrite bind_ok by done. unfold store_cvt. rewrite bind_lift, Hcv.
      destruct Hbk as ((b & Hs) & _). unfold onto_cell, shape.
      destruct (store_memory h _ _ b cs _ w Hs Hp) as (h' & E & H1 & H2 & H3 & H4).
      exists h'. split; [done|]. split; [done|]. split; by eapply put_holds.
    + destruct Hst as [(u & Hz & Hu)|(z & u & Hz & Hcv & Hu)]; rewrite bind_lift, Hz.
      * by exists u, h.
      * erewrite bind_ok by done. unfold store_cvt. rewrite bind_lift, Hcv. by exists u, h.
  - unfold binary_body. unfold falls_in, shape in D. destruct (decide (in_range (sizes (t_lay ra)) (bidx (sizes (t_lay ra)) sv))) as [D1|D1].
    + erewrite bind_ok by (by apply (holds_aug h ra va)). unfold bind at 1. erewrite load_aug_reject by (done || tauto). done.
    + unfold bind at 1. erewrite load_aug_reject by done. done.
Qed.

Lemma mapM_pass ra rb l : forall h va vb, holds h ra va -> holds h rb vb ->
  Forall (fun sv => (length (shape ra) <= length sv)%nat /\ (length (shape rb) <= length sv)%nat /\ Forall (fun i => 0 <= i) sv) l ->
  match add_pass ra rb l (memory_of h) with
  | Done m => exists h', mapM_ (binary_body AAdd (t_dt ra) (t_dt ra) (t_dt rb) ra ra rb) l h = (Ok tt, h') /\ memory_now h h' (t_sto ra) m
  | Refused m => exists h', mapM_ (binary_body AAdd (t_dt ra) (t_dt ra) (t_dt rb) ra ra rb) l h = (Throw RuntimeError, h') /\ memory_now h h' (t_sto ra) m
  | Undefined => exists u h', mapM_ (binary_body AAdd (t_dt ra) (t_dt ra) (t_dt rb) ra ra rb) l h = (UB u, h') /\ step_ub u
  end.
Proof.
  induction l as [|sv l IH]; intros h va vb Ha Hb Hl.
  - cbn. exists h. done.
  - apply Forall_cons_1 in Hl as [(H1 & H2 & H3) Hl]. pose proof (body_pass h ra rb va vb sv Ha Hb H1 H2 H3) as H. cbv zeta in H.
    cbn [add_pass mapM_]. revert H. destruct (decide (falls_in ra sv /\ falls_in rb sv)) as [D|D]; intros H.
    2:{ exists h. split; [|done]. unfold bind. by rewrite H. }
    destruct D as [D1 D2]. destruct Ha as [Hba Hea], Hb as [Hbb Heb].
    destruct (Hea _ D1) as [E1 _], (Heb _ D2) as [E2 _]. rewrite elem_memory in E1, E2. unfold onto_cell at 1 2. unfold shape in *. rewrite E1, E2.
    destruct (add_step _ _ _ _) as [z|].
    2:{ destruct H as (u & h' & E & Hu). exists u, h'. split; [|done]. unfold bind. by rewrite E. }
    destruct H as (h1 & E & (Ht & Hs & Hm) & (v1 & Hv1) & (v2 & Hv2)). specialize (IH h1 v1 v2 Hv1 Hv2 Hl).
    pose proof (pass_same ra rb l (memory_of h1) _ Hm) as Hsame.
    unfold bind. rewrite E.
    destruct (add_pass ra rb l (memory_of h1)) as [m|m|], (add_pass ra rb l (put_cell _ _ _ _)) as [m'|m'|]; try done.
    + destruct IH as (h' & E' & Ht' & Hs' & Hm'). exists h'. split; [done|]. split; [congruence|]. split.
      * intros s Hn. rewrite Hs', Hs by done. done.
      * intros s p. by rewrite Hm', Hsame.
    + destruct IH as (h' & E' & Ht' & Hs' & Hm'). exists h'. split; [done|]. split; [congruence|]. split.
      * intros s Hn. rewrite Hs', Hs by done. done.
      * intros s p. by rewrite Hm', Hsame.
Qed.

Lemma addeq_pass h a b ra rb va vb : tensor_at h a ra va -> tensor_at h b rb vb -> t_rg ra = false ->
  match add_pass ra rb (indices (larger_shape (shape ra) (shape rb))) (memory_of h) with
  | Done m => exists h', exec (OAddEq (Some a) (Some b)) h = (Ok RUnit, h') /\ memory_now h h' (t_sto ra) m
  | Refused m => exists h', exec (OAddEq (Some a) (Some b)) h = (Throw RuntimeError, h') /\ memory_now h h' (t_sto ra) m
  | Undefined => exists u h', exec (OAddEq (Some a) (Some b)) h = (UB u, h') /\ step_ub u
  end.
Proof.
  intros [Ha Hva] [Hb Hvb] Hrg.
  assert (Hnn : Forall (fun n => 0 <= n) (larger_shape (shape ra) (shape rb))).
  { rewrite larger_bmax. apply bmax_Forall; by eapply holds_nonneg. }
  assert (Hrun : op_addeq a b h =
    mapM_ (binary_body AAdd (t_dt ra) (t_dt ra) (t_dt rb) ra ra rb) (indices (larger_shape (shape ra) (shape rb))) h).
  { unfold op_addeq. erewrite bind_ok by (by apply get_ten_ok). erewrite bind_ok by (by apply get_ten_ok). rewrite Hrg. simpl. unfold tensor_add.
    unfold run_expect. rewrite ?bind_ret, ?bind_lift. change (sizes (t_lay ra)) with (shape ra). change (sizes (t_lay rb)) with (shape rb).
    rewrite larger_bmax in *. rewrite broadcast_range_max by (by eapply holds_nonneg). by rewrite for_each_run. }
  pose proof (mapM_pass ra rb (indices (larger_shape (shape ra) (shape rb))) h va vb Hva Hvb) as H.
  assert (exec (OAddEq (Some a) (Some b)) h = no_result (op_addeq a b) h) as -> by (cbn [exec deref]; by rewrite !bind_ret).
  unfold no_result, bind. rewrite Hrun.
  assert (Forall (fun sv => (length (shape ra) <= length sv)%nat /\ (length (shape rb) <= length sv)%nat /\ Forall (fun i => 0 <= i) sv)
    (indices (larger_shape (shape ra) (shape rb)))) as Hl.
  { apply Forall_forall. intros sv Hsv. apply elem_of_indices in Hsv. rewrite larger_bmax in Hsv.
    pose proof (in_range_length _ _ Hsv) as Hlen. rewrite bmax_length in Hlen. split; [lia|]. split; [lia|].
    clear -Hsv. induction Hsv; constructor; [lia|done]. }
  specialize (H Hl). destruct (add_pass _ _ _ _) as [m|m|].
  - destruct H as (h' & -> & Hm). by exists h'.
  - destruct H as (h' & -> & Hm). by exists h'.
  - destruct H as (u & h' & -> & Hm). by exists u, h'.
Qed.

(** which shapes are refused *)
Lemma pass_all ra rb l : (forall sv, sv ∈ l -> falls_in ra sv /\ falls_in rb sv) -> forall m m', add_pass ra rb l m <> Refused m'.
Proof.
  induction l as [|sv l IH]; intros Hl m m'; [done|]. cbn [add_pass].
  rewrite decide_True by (apply Hl; left). repeat case_match; try done. apply IH. intros sv' H'. apply Hl. by right.
Qed.
Lemma pass_some ra rb l sv : sv ∈ l -> ~ (falls_in ra sv /\ falls_in rb sv) -> forall m m', add_pass ra rb l m <> Done m'.
Proof.
  induction 1 as [x l|x y l H IH]; intros Hn m m'; cbn [add_pass]; [by rewrite decide_False|].
  case_decide; [|done]. repeat case_match; try done. by apply IH.
Qed.
Lemma addeq_throws h a b ra rb va vb e : tensor_at h a ra va -> tensor_at h b rb vb ->
  (exec (OAddEq (Some a) (Some b)) h).1 = Throw e -> e = RuntimeError /\ (t_rg ra = true \/ ~ accepts (shape ra) (shape rb)).
Proof.
  intros Ha Hb E. destruct (t_rg ra) eqn:Hrg.
  { rewrite (addeq_tracked h a b ra rb) in E by (done || apply Ha || apply Hb). cbn in E. split; [congruence|by left]. }
  pose proof (addeq_pass h a b ra rb va vb Ha Hb Hrg) as H.
  destruct (add_pass _ _ _ _) as [m|m|] eqn:Ep.
  - destruct H as (h' & E' & _). by rewrite E' in E.
  - destruct H as (h' & E' & _). rewrite E' in E. cbn in E. split; [congruence|]. right. intros [Hz|[Hc Hn]].
    + revert Ep. apply pass_all. intros sv Hsv. apply elem_of_indices in Hsv. by destruct (no_index _ _ Hz Hsv).
    + revert Ep. apply pass_all. intros sv Hsv. apply elem_of_indices in Hsv. rewrite larger_bmax in Hsv.
      assert (bmax (shape ra) (shape rb) = bshape (shape ra) (shape rb)) as Es.
      { apply bmax_bshape; [..|done|done]; eapply holds_nonneg; [apply Ha|apply Hb]. }
      rewrite Es in Hsv.
      split; [by eapply bidx_in_l|by eapply bidx_in_r].
  - destruct H as (u & h' & E' & _). by rewrite E' in E.
Qed.
Lemma addeq_refused h a b ra rb va vb : tensor_at h a ra va -> tensor_at h b rb vb -> ~ accepts (shape ra) (shape rb) ->
  (exec (OAddEq (Some a) (Some b)) h).1 = Throw RuntimeError \/ exists u, (exec (OAddEq (Some a) (Some b)) h).1 = UB u /\ step_ub u.
Proof.
  intros Ha Hb Hn. destruct (t_rg ra) eqn:Hrg.
  { left. rewrite (addeq_tracked h a b ra rb); [done|apply Ha|apply Hb|done]. }
  pose proof (addeq_pass h a b ra rb va vb Ha Hb Hrg) as H.
  destruct (add_pass _ _ _ _) as [m|m|] eqn:Ep.
  - exfalso. destruct (not_accepted (shape ra) (shape rb)) as (sv & Hsv & Hf); [eapply holds_nonneg, Ha|eapply holds_nonneg, Hb|done|].
    revert Ep. apply (pass_some _ _ _ sv); [|done]. apply elem_of_indices. by rewrite larger_bmax.
  - destruct H as (h' & -> & _). by left.
  - destruct H as (u & h' & -> & Hu). right. by exists u.
Qed.
End with_fops.
