(** The kernels that add to a gradient: what they add, against any weights. *)
From Verif.Proofs Require Export Qsum Odometer BroadcastLemmas Basics.
From Verif.Model Require Export Autograd.

Definition vf (qs : list Qc) : list cell := map (fun q : Qc => Some (@VF Exact q)) qs.
Lemma vf_length qs : length (vf qs) = length qs.
Proof. apply map_length. Qed.
Lemma vf_lookup qs p (q : Qc) : qs !! p = Some q -> vf qs !! p = Some (Some (@VF Exact q)).
Proof. intros H. unfold vf. etrans; [exact (list_lookup_fmap (fun q : Qc => Some (@VF Exact q)) qs p)|]. by rewrite H. Qed.
Lemma vf_insert qs p (q : Qc) : <[p := Some (@VF Exact q)]> (vf qs) = vf (<[p := q]> qs).
Proof. unfold vf. symmetry. exact (list_fmap_insert (fun q : Qc => Some (@VF Exact q)) qs p q). Qed.
(** an array of shape [ss] is read at index [bidx ss idx] for every [idx] of [rg] *)
Definition covers (rg ss : list Z) : Prop :=
  (length ss <= length rg)%nat /\ forall idx, in_range rg idx -> in_range ss (bidx ss idx).

Section acc.
Variables (h : heap) (d : tensor) (b : Z) (n : nat).
Hypothesis Hfl : floating (t_dt d) = true.
Hypothesis Hok : lay_ok (t_lay d).
Hypothesis Hin : lay_in (t_lay d) (Z.of_nat n).
Hypothesis Hn : Z.of_nat n < two63.
Hypothesis Hex : is_Some (h_sto h !! t_sto d).
Definition buf (qs : list Qc) : heap := put h (t_sto d) (Sto (t_dt d) b (Some (vf qs))).
Definition at_cell (qs : list Qc) (p : Z) : Qc := default 0%Qc (qs !! Z.to_nat p).

Lemma buf_sto qs : h_sto (buf qs) !! t_sto d = Some (Sto (t_dt d) b (Some (vf qs))).
Proof. destruct Hex as [x Hx]. by eapply put_lookup. Qed.
Lemma buf_backed qs : length qs = n -> backed (buf qs) d (vf qs).
Proof.
  intros Hl. split; [exists b; apply buf_sto|]. split; [done|]. rewrite vf_length, Hl. done.
Qed.
Lemma buf_holds qs r v : t_sto r <> t_sto d -> holds h r v -> holds (buf qs) r v.
Proof. intros. apply holds_put; [done|done]. Qed.
Lemma buf_load qs j : length qs = n -> in_range (sizes (t_lay d)) j ->
  load (t_dt d) (t_sto d) (pos (t_lay d) j) (buf qs) = (Ok (VF (at_cell qs (pos (t_lay d) j))), buf qs).
Proof.
  intros Hl Hj. specialize (Hin j Hj). eapply load_ok; [apply buf_sto|lia|]. apply vf_lookup. unfold at_cell.
  destruct (qs !! Z.to_nat (pos (t_lay d) j)) eqn:E; [done|]. apply lookup_ge_None in E. lia.
Qed.
Lemma buf_store qs j S v : length qs = n -> in_range (sizes (t_lay d)) j ->
  store_cvt S (t_dt d) (t_sto d) (pos (t_lay d) j) v (buf qs) =
    (Ok tt, buf (<[Z.to_nat (pos (t_lay d) j) := num v]> qs)).
Proof.
  intros Hl Hj. specialize (Hin j Hj). erewrite store_cvt_eq; [|apply buf_sto|rewrite vf_length; lia].
  rewrite cvt_exact by done. unfold buf. by rewrite put_put, vf_insert.
Qed.

(** a loop that adds [term x] to the element [P x] *)
Lemma add_loop {A} (body : A -> E unit) (term : A -> Qc) (P : A -> list Z) l :
  (forall x qs, x ∈ l -> length qs = n -> in_range (sizes (t_lay d)) (P x) /\
     body x (buf qs) = (Ok tt, buf (<[Z.to_nat (pos (t_lay d) (P x)) := (at_cell qs (pos (t_lay d) (P x)) + term x)%Qc]> qs))) ->
  forall qs, length qs = n -> exists qs', mapM_ body l (buf qs) = (Ok tt, buf qs') /\ length qs' = n /\
    forall w, wsum qs' w = (wsum qs w + sumq (map (fun x => term x * w (pos (t_lay d) (P x))) l))%Qc.
Proof.
  induction l as [|x l IH]; intros Hb qs Hl.
  - exists qs. split; [done|]. split; [done|]. intros w. simpl. ring.
  - destruct (Hb x qs) as [Hr E]; [apply elem_of_list_here|done|]. cbn [mapM_]. erewrite bind_ok by exact E.
    set (qs1 := <[_ := _]> qs) in *. assert (length qs1 = n) as Hl1 by (unfold qs1; by rewrite insert_length).
    destruct (IH (fun y qs Hy => Hb y qs (elem_of_list_further _ _ _ Hy)) qs1 Hl1) as (qs' & E' & Hl' & Hw).
    exists qs'. split; [done|]. split; [done|]. intros w. rewrite Hw. specialize (Hin _ Hr).
    unfold qs1, at_cell. destruct (qs !! Z.to_nat (pos (t_lay d) (P x))) as [q|] eqn:Eq; [|apply lookup_ge_None in Eq; lia].
    rewrite (wsum_insert _ _ _ _ _ Eq). rewrite Z2Nat.id by lia. simpl. unfold sumq. simpl. ring.
Qed.

Definition dst_idx (idx : list Z) : Z := pos (t_lay d) (bidx (sizes (t_lay d)) idx).
(** the result of a kernel that adds [term idx] at [P idx] for the indices of [rg] *)
Definition adds (m : E unit) (rg : list Z) (term : list Z -> Qc) (P : list Z -> list Z) : Prop :=
  forall qs, length qs = n -> exists qs', m (buf qs) = (Ok tt, buf qs') /\ length qs' = n /\
    forall w, wsum qs' w = (wsum qs w + sum_over rg (fun idx => term idx * w (pos (t_lay d) (P idx))))%Qc.
Lemma covers_len rg ss idx : covers rg ss -> in_range rg idx -> (length ss <= length idx)%nat.
Proof. intros [H _] Hi. apply in_range_length in Hi. lia. Qed.

Lemma addeq_adds g w wr v rg : h_ten h !! g = Some d -> t_rg d = false ->
  h_ten h !! w = Some wr -> holds h wr v -> t_sto wr <> t_sto d ->
  bmax (sizes (t_lay d)) (sizes (t_lay wr)) = rg -> Forall (fun n => 0 <= n) rg ->
  covers rg (sizes (t_lay d)) -> covers rg (sizes (t_lay wr)) ->
  adds (op_addeq g w) rg (fun idx => num (v (bidx (sizes (t_lay wr)) idx))) (bidx (sizes (t_lay d))).
Proof.
  intros Hg Hrg Hw Hv Hne Erg Hnn Cd Cw qs Hl. unfold op_addeq.
  erewrite bind_ok by (by apply get_ten_ok). erewrite bind_ok by (by apply get_ten_ok). rewrite Hrg. unfold run_expect. simpl negb. cbv iota.
  rewrite bind_ret. unfold tensor_add. rewrite broadcast_range_max, Erg, bind_lift, for_each_run by done. unfold sum_over.
  apply (add_loop _ _ (bidx (sizes (t_lay d)))); [|done]. clear qs Hl. intros idx qs Hi%elem_of_indices Hl.
  pose proof (proj2 Cd idx Hi) as Hd. split; [done|]. unfold binary_body.
  pose proof (buf_backed qs Hl) as Hb. destruct (backed_idx_aug _ _ _ idx Hb (covers_len _ _ _ Cd Hi) Hd) as [Hp _].
  unfold load_aug at 1. rewrite bind_assoc. erewrite bind_ok by exact Hp. erewrite bind_ok by (by apply buf_load).
  erewrite bind_ok by (apply holds_aug; [by apply buf_holds|by eapply covers_len|by apply Cw]).
  rewrite binop_exact by (by rewrite Hfl). rewrite bind_lift. erewrite bind_ok by exact Hp.
  rewrite buf_store by done. done.
Qed.

Lemma mul_acc_adds lr rr L vl vr rg : L = t_dt lr -> holds h lr vl -> holds h rr vr -> t_sto lr <> t_sto d -> t_sto rr <> t_sto d ->
  floating (t_dt lr) = true ->
  bmax (bmax (sizes (t_lay d)) (sizes (t_lay lr))) (sizes (t_lay rr)) = rg -> Forall (fun n => 0 <= n) rg ->
  covers rg (sizes (t_lay d)) -> covers rg (sizes (t_lay lr)) -> covers rg (sizes (t_lay rr)) ->
  adds (tensor_mul_acc_f (t_dt d) L (t_dt rr) d lr rr) rg
    (fun idx => num (vl (bidx (sizes (t_lay lr)) idx)) * num (vr (bidx (sizes (t_lay rr)) idx)))%Qc (bidx (sizes (t_lay d))).
Proof.
  intros -> Hvl Hvr Hnl Hnr Hfl' Erg Hnn Cd Cl Cr qs Hl. unfold tensor_mul_acc_f.
  rewrite broadcast_range_max, bind_lift, broadcast_range_max, Erg, bind_lift, for_each_run by done. unfold sum_over.
  apply (add_loop _ _ (bidx (sizes (t_lay d)))); [|done]. clear qs Hl. intros idx qs Hi%elem_of_indices Hl.
  pose proof (proj2 Cd idx Hi) as Hd. split; [done|]. unfold mul_acc_body.
  pose proof (buf_backed qs Hl) as Hb. destruct (backed_idx_aug _ _ _ idx Hb (covers_len _ _ _ Cd Hi) Hd) as [Hp _].
  erewrite bind_ok by (apply holds_aug; [by apply buf_holds|by eapply covers_len|by apply Cl]).
  erewrite bind_ok by (apply holds_aug; [by apply buf_holds|by eapply covers_len|by apply Cr]).
  rewrite binop_exact by (by rewrite Hfl'). rewrite bind_lift. erewrite bind_ok by exact Hp.
  erewrite bind_ok by (by apply buf_load). rewrite binop_exact by (by rewrite Hfl). rewrite bind_lift.
  rewrite buf_store by done. done.
Qed.

Lemma div_num_adds og den vo vd : holds h og vo -> holds h den vd -> t_sto og <> t_sto d -> t_sto den <> t_sto d ->
  floating (t_dt og) = true ->
  covers (sizes (t_lay og)) (sizes (t_lay d)) -> covers (sizes (t_lay og)) (sizes (t_lay og)) -> covers (sizes (t_lay og)) (sizes (t_lay den)) ->
  Forall (fun n => 0 <= n) (sizes (t_lay og)) ->
  adds (tensor_div_back_numerator (t_dt d) (t_dt og) (t_dt den) d og den) (sizes (t_lay og))
    (fun idx => num (vo (bidx (sizes (t_lay og)) idx)) / num (vd (bidx (sizes (t_lay den)) idx)))%Qc (bidx (sizes (t_lay d))).
Proof.
  intros Hvl Hvr Hnl Hnr Hfl' Cd Cl Cr Hnn qs Hl. unfold tensor_div_back_numerator. rewrite for_each_run by done. unfold sum_over.
  apply (add_loop _ _ (bidx (sizes (t_lay d)))); [|done]. clear qs Hl. intros idx qs Hi%elem_of_indices Hl.
  pose proof (proj2 Cd idx Hi) as Hd. split; [done|].
  pose proof (buf_backed qs Hl) as Hb. destruct (backed_idx_aug _ _ _ idx Hb (covers_len _ _ _ Cd Hi) Hd) as [Hp _].
  erewrite bind_ok by (apply holds_aug; [by apply buf_holds|by eapply covers_len|by apply Cl]).
  erewrite bind_ok by (apply holds_aug; [by apply buf_holds|by eapply covers_len|by apply Cr]).
  rewrite binop_exact by (by rewrite Hfl'). rewrite bind_lift. erewrite bind_ok by exact Hp.
  erewrite bind_ok by (by apply buf_load). rewrite binop_exact by (by rewrite Hfl). rewrite bind_lift.
  rewrite buf_store by done. done.
Qed.

Lemma div_den_adds og quot den vo vq vd Q : Q = t_dt quot -> t_dt og = Q -> t_dt den = t_dt d ->
  holds h og vo -> holds h quot vq -> holds h den vd ->
  t_sto og <> t_sto d -> t_sto quot <> t_sto d -> t_sto den <> t_sto d -> floating Q = true ->
  sizes (t_lay d) = sizes (t_lay quot) ->
  covers (sizes (t_lay quot)) (sizes (t_lay og)) -> covers (sizes (t_lay quot)) (sizes (t_lay quot)) ->
  covers (sizes (t_lay quot)) (sizes (t_lay den)) -> Forall (fun n => 0 <= n) (sizes (t_lay quot)) ->
  adds (tensor_div_back_denominator (t_dt den) Q d og quot den) (sizes (t_lay quot))
    (fun idx => - (num (vo (bidx (sizes (t_lay og)) idx)) * num (vq (bidx (sizes (t_lay quot)) idx)) / num (vd (bidx (sizes (t_lay den)) idx))))%Qc
    (fun idx => idx).
Proof.
  intros -> Eo Ed Ho Hq Hd No Nq Nd Hfq Es Co Cq Cd Hnn qs Hl. unfold tensor_div_back_denominator. rewrite for_each_run by done. unfold sum_over.
  apply (add_loop _ _ (fun idx => idx)); [|done]. clear qs Hl. intros idx qs Hi%elem_of_indices Hl.
  assert (in_range (sizes (t_lay d)) idx) as Hi' by (by rewrite Es). split; [done|].
  pose proof (buf_backed qs Hl) as Hb. destruct (backed_idx _ _ _ idx Hb Hi') as [Hp _].
  rewrite <- Eo. erewrite bind_ok by (apply holds_aug; [by apply buf_holds|by eapply covers_len|by apply Co]). rewrite Eo.
  erewrite bind_ok by (apply holds_aug; [by apply buf_holds|by eapply covers_len|by apply Cq]).
  rewrite binop_exact by (by rewrite Hfq). rewrite bind_lift.
  erewrite bind_ok by (apply holds_aug; [by apply buf_holds|by eapply covers_len|by apply Cd]).
  rewrite binop_exact by (by rewrite !prom_floating, Hfq). rewrite bind_lift. erewrite bind_ok by exact Hp.
  rewrite Ed. erewrite bind_ok by (by apply buf_load). rewrite binop_exact by (by rewrite Hfl). rewrite bind_lift.
  rewrite buf_store by done. unfold qop, num. do 5 f_equal.
Qed.
End acc.
