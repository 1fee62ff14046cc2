(** A view whose elements lie outside a buffer of its own size, as a gradient leaf. *)
From Verif.Proofs Require Export Part3 Order2 Bgeom.
From Verif.Model Require Import Api.

Section with_fops.
Context {fo : FOps}.

Lemma float_binop o L R a b : floating L || floating R = true -> exists w, binop o L R a b = Ok (VF w).
Proof.
  intros Hf. assert (floating (prom L R) = true) as Hp by (by destruct L, R). unfold binop. cbv zeta.
  rewrite !cvt_cpp. unfold cpp_cvt. rewrite Hp. cbn [obind arith]. destruct o; by eexists.
Qed.
Lemma float_cvt T D a : floating D = true -> exists w, cvt T D a = Ok (VF w).
Proof. intros Hf. rewrite cvt_cpp. unfold cpp_cvt. rewrite Hf. by eexists. Qed.
Lemma float_prom L R : floating L = true -> floating (prom L R) = true.
Proof. by destruct L, R. Qed.
Lemma load_outside h s T b cs p : h_sto h !! s = Some (Sto T b (Some cs)) -> Z.of_nat (length cs) <= p -> load T s p h = (UB OutOfBounds, h).
Proof.
  intros Hs Hp. unfold load. rewrite (bind_ok _ _ _ _ _ (get_sto_ok _ _ _ Hs)). simpl. rewrite bool_decide_true by done.
  destruct (Z.ltb_spec p (Z.of_nat (length cs))); [lia|]. by rewrite andb_false_r.
Qed.

(** the loop that adds [w * o] into the gradient [d] *)
Definition acc_inv (d : tensor) (n : Z) (h : heap) : Prop :=
  exists b cs, h_sto h !! t_sto d = Some (Sto (t_dt d) b (Some cs)) /\ Z.of_nat (length cs) = n /\ Forall (fun c => is_Some c) cs.
Lemma acc_loop d wr orr vw vo n l h :
  floating (t_dt d) = true -> floating (t_dt wr) = true ->
  holds h wr vw -> holds h orr vo -> t_sto wr <> t_sto d -> t_sto orr <> t_sto d ->
  sizes (t_lay wr) = shape d -> sizes (t_lay orr) = [] ->
  acc_inv d n h ->
  (forall idx, idx ∈ l -> in_range (shape d) idx) ->
  (forall idx h', in_range (shape d) idx -> idx_aug d idx h' = (Ok (pos (t_lay d) idx), h') /\ 0 <= pos (t_lay d) idx) ->
  Exists (fun idx => n <= pos (t_lay d) idx) l ->
  exists h', mapM_ (mul_acc_body (t_dt d) (t_dt wr) (t_dt orr) d wr orr) l h = (UB OutOfBounds, h').
Proof.
  intros Fd Fw Hw Ho Nw No Sw So. revert h Hw Ho. induction l as [|idx l IH]; intros h Hw Ho (b & cs & Hs & Hn & Hc) Hl Hp Hex; [by apply Exists_nil in Hex|].
  assert (in_range (shape d) idx) as Hi by (apply Hl; left).
  destruct (Hp idx h Hi) as [Ep P0].
  cbn [mapM_]. 
  assert (exists h2, mul_acc_body (t_dt d) (t_dt wr) (t_dt orr) d wr orr idx h = (if pos (t_lay d) idx <? n then (Ok tt, h2) else (UB OutOfBounds, h2)) /\
    holds h2 wr vw /\ holds h2 orr vo /\ acc_inv d n h2) as (h2 & E & Hw2 & Ho2 & Hi2).
  { unfold mul_acc_body.
    erewrite bind_ok by (apply holds_aug; [done|rewrite Sw; by rewrite (in_range_length _ _ Hi)|rewrite Sw, bidx_self by done; done]).
    erewrite bind_ok by (apply holds_aug; [done|rewrite So; simpl; lia|rewrite So; constructor]).
    destruct (float_binop AMul (t_dt wr) (t_dt orr) (vw (bidx (sizes (t_lay wr)) idx)) (vo (bidx (sizes (t_lay orr)) idx))) as [x ->]; [by rewrite Fw|].
    rewrite bind_lift. erewrite bind_ok by exact Ep.
    destruct (Z.ltb_spec (pos (t_lay d) idx) n) as [Hlt|Hge].
    - destruct (lookup_lt_is_Some_2 cs (Z.to_nat (pos (t_lay d) idx))) as [c Ec]; [lia|].
      destruct (Forall_lookup_1 _ _ _ _ Hc Ec) as [y ->].
      erewrite bind_ok by (by eapply load_ok).
      destruct (float_binop AAdd (t_dt d) (prom (t_dt wr) (t_dt orr)) y (VF x)) as [z ->]; [by rewrite Fd|]. rewrite bind_lift.
      unfold store_cvt. destruct (float_cvt (prom (t_dt d) (prom (t_dt wr) (t_dt orr))) (t_dt d) (VF z) Fd) as [u ->]. rewrite bind_lift.
      erewrite store_at by done. destruct (Z.ltb_spec (pos (t_lay d) idx) (Z.of_nat (length cs))); [|lia].
      eexists. split; [done|]. split; [by apply holds_put|]. split; [by apply holds_put|].
      eexists b, _. split; [by eapply put_lookup|]. split; [by rewrite insert_length|]. apply Forall_insert; [done|by eexists].
    - exists h. split; [|split_and!; [done|done|by exists b, cs]]. erewrite bind_ub by (eapply load_outside; [done|lia]). done. }
  destruct (Z.ltb_spec (pos (t_lay d) idx) n).
  - erewrite bind_ok by exact E. apply IH; [done|done|done|intros; apply Hl; by right|done|]. apply Exists_cons in Hex as [?|?]; [lia|done].
  - exists h2. by erewrite bind_ub by exact E.
Qed.

(** ** a graph with one node *)
Lemma bfs_one n body t h h' : (0 < n)%nat -> body t h = (Ok [], h') -> bfs n body [t] h = (Ok tt, h').
Proof. intros Hn E. destruct n as [|n]; [lia|]. cbn [bfs]. erewrite bind_ok by exact E. by destruct n. Qed.
Lemma bfs_bad n body t h h' u : (0 < n)%nat -> body t h = (UB u, h') -> bfs n body [t] h = (UB u, h').
Proof. intros Hn E. destruct n as [|n]; [lia|]. cbn [bfs]. by erewrite bind_ub by exact E. Qed.
Definition node_inv (t v : nat) (k : bkind) (r rt : tensor) (h0 h : heap) : Prop :=
  h_sto h = h_sto h0 /\ (forall x, x <> t -> h_ten h !! x = h_ten h0 !! x) /\ h_ten h !! v = Some r /\ v <> t /\ length (h_ten h) = length (h_ten h0) /\
  exists r' f, h_ten h !! t = Some r' /\ t_fn r' = Some f /\ gf_kind f = k /\ gf_in f = [v] /\ same_data rt r' /\ t_rg r' = t_rg rt /\ t_grad r' = t_grad rt.
Lemma node_upd t v k r rt h0 h g : node_inv t v k r rt h0 h -> (forall f, gf_kind (g f) = gf_kind f /\ gf_in (g f) = gf_in f) ->
  exists h', upd_fn t g h = (Ok tt, h') /\ node_inv t v k r rt h0 h'.
Proof.
  intros (H1 & H2 & H3 & H4 & H5 & r' & f & H6 & H7 & H8 & H9 & H10 & H11) Hg. unfold upd_fn.
  erewrite bind_ok by (by apply get_ten_ok). rewrite H7, set_ten_eq. eexists. split; [done|]. destruct (Hg f) as [G1 G2].
  split; [done|]. split. { intros x Hx. cbn [h_ten]. by rewrite list_lookup_insert_ne by congruence; apply H2. }
  split. { cbn [h_ten]. by rewrite list_lookup_insert_ne by congruence. }
  split; [done|]. split. { cbn [h_ten]. by rewrite insert_length. }
  eexists _, _. cbn [h_ten]. split; [by apply list_lookup_insert, (lookup_lt_Some _ _ _ H6)|]. split; [done|]. split; [congruence|]. split; [congruence|]. by destruct r'.
Qed.
Lemma node_bump t v k r rt h0 h : node_inv t v k r rt h0 h -> exists n h', bump h = (Ok n, h') /\ node_inv t v k r rt h0 h'.
Proof. intros H. eexists _, _. split; [done|]. exact H. Qed.
Lemma node_fn t v k r rt h0 h : node_inv t v k r rt h0 h -> exists f, get_fn t h = (Ok f, h) /\ gf_in f = [v] /\ gf_kind f = k.
Proof.
  intros (H1 & H2 & H3 & H4 & H5 & r' & f & H6 & H7 & H8 & H9 & H10 & H11). exists f. split; [|done].
  unfold get_fn. erewrite bind_ok by (by apply get_ten_ok). by rewrite H7.
Qed.
Lemma node_length t v k r rt h0 h : node_inv t v k r rt h0 h -> (0 < length (h_ten h))%nat.
Proof. intros (_ & _ & H & _). apply lookup_lt_Some in H. lia. Qed.
Lemma node_refresh t v k r rt h0 h : node_inv t v k r rt h0 h -> t_fn r = None -> exists h', refresh_n_outway t h = (Ok tt, h') /\ node_inv t v k r rt h0 h'.
Proof.
  intros I Hf. pose proof (node_length _ _ _ _ _ _ _ I) as Hn. unfold refresh_n_outway, heap_size. erewrite bind_ok by reflexivity.
  destruct (node_bump _ _ _ _ _ _ _ I) as (n1 & h1 & E1 & I1). erewrite bind_ok by exact E1.
  destruct (node_upd _ _ _ _ _ _ _ (fun g => gf_with_ver (gf_with_nout g 0) n1) I1 ltac:(done)) as (h2 & E2 & I2). erewrite bind_ok by exact E2.
  destruct (node_fn _ _ _ _ _ _ _ I2) as (f2 & F2 & K2 & _).
  erewrite bind_ok. 2: { apply bfs_one; [done|]. erewrite bind_ok by exact F2. rewrite K2. cbn [visit_reset].
    erewrite bind_ok by (apply get_ten_ok, I2). erewrite bind_ok by reflexivity. by rewrite Hf. }
  destruct (node_bump _ _ _ _ _ _ _ I2) as (n3 & h3 & E3 & I3). erewrite bind_ok by exact E3.
  destruct (node_upd _ _ _ _ _ _ _ (fun g => gf_with_ver g n3) I3 ltac:(done)) as (h4 & E4 & I4). erewrite bind_ok by exact E4.
  destruct (node_fn _ _ _ _ _ _ _ I4) as (f4 & F4 & K4 & _).
  exists h4. split; [|done]. apply bfs_one; [done|]. erewrite bind_ok by exact F4. rewrite K4. cbn [visit_count].
  erewrite bind_ok by (apply get_ten_ok, I4). erewrite bind_ok by reflexivity. by rewrite Hf.
Qed.

Lemma zero_at h s T b cs : h_sto h !! s = Some (Sto T b (Some cs)) ->
  sto_zero s h = (Ok tt, put h s (Sto T b (Some (map (fun _ => Some (zero_val T)) cs)))).
Proof. intros Hs. unfold sto_zero. erewrite bind_ok by (by apply get_sto_ok). done. Qed.
Lemma ones_like_new h t r v : tensor_at h t r v -> fits (t_dt r) (shape r) ->
  exists u h', ones_like t h = (Ok u, h') /\ new_tensor h h' u (t_dt r) (shape r) false (fun _ => one_of (t_dt r)).
Proof.
  intros Ht Hf. destruct (proj2 (like_new h t r v Ht Hf)) as (u & h' & E & Hn). cbn [exec] in E. rewrite un_some, new_handle_eq in E.
  destruct (ones_like t h) as [[x|?|?|] h1]; try done. injection E as <- <-. eauto.
Qed.
(** the step of sum: the slice's gradient gets the slice's layout *)
Lemma sum_step h t v r rt f g gr w vg :
  h_ten h !! v = Some r -> t_rg r = true -> t_fn r = None -> t_grad r = None -> floating (t_dt r) = true ->
  holds h r w -> fits (t_dt r) (shape r) ->
  (exists idx, in_range (shape r) idx /\ size_prod (shape r) <= pos (t_lay r) idx) ->
  h_ten h !! t = Some rt -> t_grad rt = Some g -> t_fn rt = Some f -> gf_kind f = SumBack -> gf_in f = [v] ->
  h_ten h !! g = Some gr -> holds h gr vg -> shape gr = [] -> g <> v ->
  exists h', process t h = (UB OutOfBounds, h').
Proof.
  intros Hr Rg Fn Gr Fl Hh Hf (idx & Hi & Hpos) Ht Htg Htf Hk Hin Hg Hhg Hsg Ngv.
  pose proof (holds_allocable _ _ _ _ Hh Hf) as Ha. pose proof (allocable_prod _ _ Ha) as Hn.
  unfold process, get_fn. rewrite bind_assoc. erewrite bind_ok by (by apply get_ten_ok). rewrite Htf. cbn [deref]. rewrite bind_ret, Hk, Hin.
  cbn [step_back]. unfold input. cbn [lookup list_lookup deref].
  destruct (ones_like_new h v r w) as (o & h1 & E1 & He & Ho0 & ro & Ho & So0 & To & Lo & _ & Rgo & Go & Hho); [by split|done|].
  assert (h_ten h1 !! v = Some r) as Hr1 by (by apply He). assert (h_ten h1 !! t = Some rt) as Ht1 by (by apply He).
  assert (h_ten h1 !! g = Some gr) as Hg1 by (by apply He). assert (holds h1 r w) as Hh1 by (by eapply holds_extends). assert (holds h1 gr vg) as Hhg1 by (by eapply holds_extends).
  assert (v <> t) as Nvt by congruence.
  assert (t_sto gr <> length (h_sto h1)) as Ngs. { destruct (holds_some _ _ _ Hhg1) as [x Hx%lookup_lt_Some]. lia. }
  assert (t_sto ro <> length (h_sto h1)) as Nos. { destruct (holds_some _ _ _ Hho) as [x Hx%lookup_lt_Some]. lia. }
  assert (v < length (h_ten h1))%nat as Lv by (by eapply lookup_lt_Some). assert (g < length (h_ten h1))%nat as Lg by (by eapply lookup_lt_Some).
  assert (o < length (h_ten h1))%nat as Lo' by (by eapply lookup_lt_Some).
  set (gg := length (h_ten h1)) in *.
  set (dr := fresh_rec h1 (t_dt r) (t_lay r) false None).
  set (h2 := alloc_heap h1 (t_dt r) (t_lay r) (map (fun _ => Some (zero_val (t_dt r))) (replicate (Z.to_nat (size_prod (sizes (t_lay r)))) (None : cell))) false None).
  set (h3 := Hp (h_sto h2) (<[v := with_grad r (Some gg)]> (h_ten h2)) (h_ver h2)).
  assert (try_accumulate_update v h1 = (Ok tt, h3)) as E3.
  { unfold try_accumulate_update. erewrite bind_ok by (by apply get_ten_ok). rewrite Rg. cbn [negb]. rewrite Fn, bind_ret, Gr.
    erewrite bind_ok by (by apply create_ok). erewrite bind_ok by (by apply get_ten_ok, alloc_ten_old). rewrite bind_assoc || idtac.
    erewrite bind_ok by (by rewrite set_ten_eq). erewrite bind_ok.
    2: { apply get_ten_ok. cbn [h_ten]. rewrite list_lookup_insert_ne by (unfold gg in *; lia). apply alloc_ten. }
    erewrite zero_at by (cbn [h_sto t_sto fresh_rec]; apply alloc_sto). f_equal. unfold h3, h2, put. cbn [h_sto h_ten h_ver alloc_heap t_sto fresh_rec]. f_equal.
    by rewrite insert_app_r_alt, Nat.sub_diag by lia. }
  assert (h_ten h3 !! gg = Some dr) as Hd3. { cbn [h3 h_ten]. rewrite list_lookup_insert_ne by (unfold gg in *; lia). apply alloc_ten. }
  assert (forall x y, x <> v -> h_ten h1 !! x = Some y -> h_ten h3 !! x = Some y) as Hold.
  { intros x y Hx Hy. cbn [h3 h_ten]. rewrite list_lookup_insert_ne by done. by apply alloc_ten_old. }
  assert (o <> v) as Nov by (intros ->; congruence).
  assert (forall x y, holds h1 x y -> holds h3 x y) as Hhold.
  { intros x y Hx. eapply (holds_sto h2); [done|]. eapply holds_extends; [|exact Hx]. apply alloc_extends. }
  assert (exists h', try_accumulate_grad v (Some o) (Some g) h1 = (UB OutOfBounds, h')) as [h' E'].
  { unfold try_accumulate_grad. erewrite bind_ok by (by apply get_ten_ok). rewrite Rg. cbn [negb]. erewrite bind_ok by exact E3. cbn [deref]. rewrite bind_ret.
    erewrite bind_ok by (by apply get_ten_ok, Hold). erewrite bind_ok.
    2: { apply get_ten_ok. cbn [h3 h_ten]. apply list_lookup_insert. cbn. rewrite app_length. cbn. unfold gg in *. lia. }
    cbn [t_grad with_grad deref]. rewrite bind_ret. rewrite is_float_floating, To, Fl. unfold tensor_mul_add_f.
    assert (h_ten h3 !! g = Some gr) as Hg3 by (by apply Hold).
    assert (h_ten h3 !! o = Some ro) as Ho3 by (by apply Hold).
    erewrite bind_ok by (by apply get_ten_ok). erewrite bind_ok by (by apply get_ten_ok). erewrite bind_ok by (by apply get_ten_ok).
    unfold dispatch_ffi. cbn [t_dt dr fresh_rec]. rewrite !is_float_floating, To, Fl. cbn [andb]. rewrite bind_ret.
    unfold tensor_mul_acc_f. rewrite broadcast_range_max, bind_lift, broadcast_range_max, bind_lift. cbn [t_lay dr fresh_rec].
    unfold shape in Hsg, Lo. rewrite Lo, Hsg, bmax_idem, bmax_nil.
    rewrite for_each_run by exact (holds_nonneg _ _ _ Hh).
    pose proof (acc_loop dr ro gr (fun _ => one_of (t_dt r)) vg (size_prod (shape r)) (indices (sizes (t_lay r))) h3) as HL. rewrite To in HL. apply HL; try done; clear HL.
    - by apply Hhold.
    - by apply Hhold.
    - eexists _, _. split; [cbn [h3 h_sto t_sto dr fresh_rec t_dt]; apply alloc_sto|]. split.
      + rewrite map_length, replicate_length. unfold shape in *. lia.
      + apply Forall_map, Forall_true. by eexists.
    - by intros i ?%elem_of_indices.
    - intros i hx Hx. destruct Hh as [(cs & Hb) _]. 
      destruct (backed_idx_aug _ _ _ i Hb) as [Ei Pi].
      { change (in_range (shape r) i) in Hx. rewrite (in_range_length _ _ Hx). done. }
      { change (in_range (shape r) i) in Hx. by rewrite bidx_self. }
      rewrite bidx_self in Ei, Pi by done. split; [|cbn; lia]. unfold idx_aug, lift in *. cbn [dr t_lay fresh_rec]. injection Ei as ->. done.
    - apply Exists_exists. exists idx. split; [by apply elem_of_indices|done]. }
  erewrite bind_ub; [by eexists|]. rewrite bind_ret. erewrite bind_ok by exact E1.
  unfold out_grad. rewrite bind_assoc. erewrite bind_ok by (by apply get_ten_ok). rewrite Htg. cbn [deref]. rewrite bind_ret. exact E'.
Qed.
Lemma node_self t v k r rt f h : h_ten h !! v = Some r -> t_fn r = None -> h_ten h !! t = Some rt -> t_fn rt = Some f -> gf_kind f = k -> gf_in f = [v] ->
  node_inv t v k r rt h h.
Proof. intros H1 H2 H3 H4 H5 H6. split_and!; try done; [congruence|]. exists rt, f. by split_and!. Qed.
Lemma sum_backward_outside h t v r rt f w wt :
  tensor_at h v r w -> t_rg r = true -> t_fn r = None -> t_grad r = None -> floating (t_dt r) = true -> fits (t_dt r) (shape r) ->
  (exists idx, in_range (shape r) idx /\ size_prod (shape r) <= pos (t_lay r) idx) ->
  tensor_at h t rt wt -> t_rg rt = true -> t_lay rt = contig [] -> t_fn rt = Some f -> gf_kind f = SumBack -> gf_in f = [v] ->
  exists h', exec (OBackward (Some t)) h = (UB OutOfBounds, h').
Proof.
  intros [Hr Hh] Rg Fn Gr Fl Hf Hex [Ht Hht] Rgt Lt Ft Fk Fi.
  assert (exists h', backward t h = (UB OutOfBounds, h')) as [h' E].
  2: { exists h'. cbn [exec deref]. rewrite bind_ret. unfold no_result. by erewrite bind_ub by exact E. }
  unfold backward. erewrite bind_ok by (by apply get_ten_ok). rewrite Rgt, Ft, Lt. cbn [run_expect]. rewrite bind_ret, bind_ret.
  change (lnumel (contig []) =? 1) with true. cbn [run_expect]. rewrite bind_ret. unfold heap_size. erewrite bind_ok by reflexivity.
  destruct (node_refresh t v SumBack r rt h h (node_self _ _ _ _ _ _ _ Hr Fn Ht Ft Fk Fi) Fn) as (h1 & E1 & I1). erewrite bind_ok by exact E1.
  pose proof (node_length _ _ _ _ _ _ _ I1) as L1.
  destruct I1 as (S1 & O1 & V1 & Nvt & Len & r1 & f1 & T1 & F1 & K1 & In1 & (D1 & D2 & D3) & G1 & G2).
  assert (tensor_at h1 t r1 wt) as A1. { split; [done|]. apply (holds_same h1 rt); [by split_and!|]. by eapply holds_sto; [by rewrite S1|]. }
  destruct (ones_like_new h1 t r1 wt A1) as (o & h2 & E2 & He & Ho0 & ro & Ho & So0 & To & Lo & _ & Rgo & Go & Hho).
  { unfold shape. rewrite <- D2, Lt. apply allocable_nil. }
  erewrite bind_ok by exact E2. erewrite bind_ok by (by apply get_ten_ok, He). rewrite set_ten_eq || idtac.
  erewrite bind_ok by (by rewrite set_ten_eq).
  set (h3 := Hp _ _ _).
  assert (node_inv t v SumBack r (with_grad r1 (Some o)) h3 h3) as I3.
  { apply (node_self _ _ _ _ _ f1); try done; cbn [h3 h_ten].
    - rewrite list_lookup_insert_ne by congruence. by apply He.
    - apply list_lookup_insert. eapply lookup_lt_Some. by apply He. }
  destruct (node_bump _ _ _ _ _ _ _ I3) as (n4 & h4 & E4 & I4). erewrite bind_ok by exact E4.
  destruct (node_upd _ _ _ _ _ _ _ (fun g => gf_with_ver g n4) I4 ltac:(done)) as (h5 & E5 & I5). erewrite bind_ok by exact E5.
  destruct I5 as (S5 & O5 & V5 & _ & Len5 & r5 & f5 & T5 & F5 & K5 & In5 & _ & _ & G5).
  destruct (sum_step h5 t v r r5 f5 o ro w (fun _ => one_of (t_dt r1))) as [h6 E6]; try done.
  - eapply holds_sto; [by rewrite S5|]. change (holds h2 r w). eapply holds_extends; [done|]. by eapply holds_sto; [by rewrite S1|].
  - rewrite O5 by congruence. cbn [h3 h_ten]. by rewrite list_lookup_insert_ne by congruence.
  - by eapply holds_sto; [by rewrite S5|].
  - unfold shape in *. by rewrite Lo, <- D2, Lt.
  - congruence.
  - exists h6. apply bfs_bad; [lia|done].
Qed.

(** C57 *)
Lemma leaf_outside h v r w :
  tensor_at h v r w -> t_rg r = true -> t_fn r = None -> t_grad r = None -> floating (t_dt r) = true -> fits (t_dt r) (shape r) ->
  (exists idx, in_range (shape r) idx /\ size_prod (shape r) <= pos (t_lay r) idx) ->
  exists t h1 h2, exec (OSum (Some v)) h = (Ok (RHandle (Some t)), h1) /\ exec (OBackward (Some t)) h1 = (UB OutOfBounds, h2).
Proof.
  intros [Hr Hh] Rg Fn Gr Fl Hf Hex. pose proof (holds_allocable _ _ _ _ Hh Hf) as Ha. pose proof (allocable_prod _ _ Ha) as Hn. pose proof alloc_max_lt.
  pose proof (sum_ok h v r w Hr Hh ltac:(lia)) as Hs. unfold array_sum in Hs. rewrite Fl in Hs. destruct Hs as [Es Ty].
  cbn [exec]. rewrite un_some, new_handle_eq, Es, Rg.
  set (b := VF _) in *.
  destruct (sum_backward_outside (scal h (sum_type (t_dt r)) (Some b) true (red_fn SumBack true v)) (length (h_ten h)) v r
    (scal_rec h (sum_type (t_dt r)) true (red_fn SumBack true v)) (Gfn SumBack [v] 0 0 0) w (fun _ => b)) as [h2 E2]; try done.
  - split; [by apply alloc_ten_old|]. eapply holds_extends; [apply alloc_extends|done].
  - split; [apply alloc_ten|]. apply (alloc_holds h _ [] (fun _ => b)); [apply allocable_nil|]. intros; exact Ty.
  - eauto.
Qed.
End with_fops.
