(** Calls that return tensors on new buffers keep the invariant. *)
From Verif.Proofs Require Export Prog3 Api4.
From Verif.Model Require Export Exact Api.
#[local] Existing Instance Exact.

Lemma rm_dense l : Forall (fun n => 0 <= n) (sizes l) -> row_major_lay l -> dense l.
Proof.
  intros Hn H. split.
  - intros idx Hi. rewrite H by done. by apply row_major_bounds.
  - intros i j Hi Hj E. rewrite !H in E by done. by apply (row_major_inj (sizes l)).
Qed.
Lemma holds_contents h r w : holds h r w -> holds h r (contents h r).
Proof.
  intros [H1 H2]. split; [done|]. intros idx Hi. destruct (H2 idx Hi) as [H3 H4]. unfold contents. by rewrite H3.
Qed.
Lemma holds_value h x r w idx : h_ten h !! x = Some r -> holds h r w -> in_range (shape r) idx -> value h x idx = num (w idx).
Proof. intros Hr [_ H] Hi. destruct (H idx Hi) as [He _]. unfold value, contents. by rewrite Hr, He. Qed.

Definition node_new (h h' : heap) (D : nat -> Prop) (x : nat) (f : gradfn) : Prop :=
  gf_kind f <> NoBack /\ (forall y, y ∈ gf_in f -> D y) /\ node_fact h' x (gf_kind f) (gf_in f) /\
  forall kg rk, kg ∈ kg_of (gf_kind f) -> h_ten h' !! kg = Some rk -> h_sto h !! t_sto rk = None.

Lemma GI_fresh D T h h' x r w : GI D T h -> extends h h' -> h_ten h !! x = None -> h_ten h' !! x = Some r -> h_sto h !! t_sto r = None ->
  t_grad r = None -> holds h' r w -> fits (t_dt r) (shape r) -> dense (t_lay r) -> (t_rg r = false -> t_fn r = None) ->
  (forall f, t_fn r = Some f -> t_rg r = true /\ gf_acc f = 0 /\ node_new h h' D x f) ->
  GI (fun y => D y \/ y = x) T h'.
Proof.
  intros G Hext Hx Hr Hs Hg Hh Hf Hd Hc Hfn. pose proof (GI_step D T x h h' G (step_extends x h h' Hext)) as G'.
  assert (forall y r0, h_ten h !! y = Some r0 -> h_ten h' !! y = Some r0) as HT by apply Hext.
  assert (~ D x) as Dx. { intros Dx. destruct (g_rec _ _ _ G x Dx) as (? & ? & _). congruence. }
  assert (~ is_view h' x) as Vx.
  { intros (f & Hf' & Hk). unfold fn_of in Hf'. rewrite Hr in Hf'. by destruct (Hfn f Hf') as (_ & _ & ? & _). }
  apply (GI_add D T h' x r G' Hr Dx); try done.
  - by eapply holds_contents.
  - apply Hd.
  - intros y. unfold inputs, fn_of. rewrite Hr. destruct (t_fn r) as [f|] eqn:E; [|by intros ?%elem_of_nil].
    intros Hy. destruct (Hfn f eq_refl) as (_ & _ & _ & H & _). by apply H.
  - intros f E. destruct (Hfn f E) as (? & ? & _ & _ & ? & _). done.
  - auto.
  - intros y s Dy Ty Vy Hy.
    destruct (g_rec _ _ _ G y Dy) as (ry & Hry & _). pose proof (HT _ _ Hry) as Hry'.
    assert (~ is_view h y) as Vy'. { intros (f & Hf' & Hk). apply Vy. exists f. split; [|done]. unfold fn_of in *. by rewrite Hry'; rewrite Hry in Hf'. }
    assert (exists s', has_grad h y s') as (s' & Hs').
    { pose proof Hy as (r1 & g & gr & L1 & L2 & _). assert (r1 = ry) as -> by congruence.
      assert (tracked h y) as Ty'. { exists ry. split; [done|]. destruct (t_rg ry) eqn:E; [done|]. destruct (g_const _ _ _ G y ry Dy Hry E). congruence. }
      destruct (g_grad _ _ _ G y ry Dy Ty Ty' Vy' Hry) as [?|(s' & ? & _)]; [congruence|by exists s']. }
    assert (has_grad h' y s') as Hs''. { destruct Hs' as (r1 & g & gr & L1 & L2 & L3 & L4). exists r1, g, gr. split_and!; try done; try apply HT; done || apply L4. }
    rewrite (has_grad_fun h' y s s' Hy Hs''). destruct (grad_exists D T h y s' G Dy Ty Vy' Hs') as [z Hz]. split; [congruence|].
    intros f kg rk E Hk Hrk ->. destruct (Hfn f E) as (_ & _ & _ & _ & _ & H). specialize (H kg rk Hk Hrk). congruence.
Qed.

(** a call that returned a tensor on a buffer of its own *)
Lemma GI_call D T h o x h' dt ss rg w : GI D T h -> (forall t, o <> OBackward t) -> (forall t, o <> ORequires t false) ->
  exec o h = (Ok (RHandle (Some x)), h') -> new_tensor h h' x dt ss rg w -> fits dt ss ->
  (rg = true -> forall f, fn_of h' x = Some f -> node_new h h' D x f) ->
  GI (fun y => D y \/ y = x) T h'.
Proof.
  intros G Ho1 Ho2 E (Hext & Hx & r & Hr & Hs & Hdt & Hss & Hrm & Hrg & Hg & Hh) Hf Hfn.
  pose proof (fk_exec o h Ho1 Ho2) as K. unfold fk, wp in K. rewrite E in K. destruct K as [[_ K] _].
  assert (forall f, t_fn r = Some f -> zero_counters f /\ t_rg r = true) as K'.
  { intros f Ef. destruct (K x r f Hr Ef) as [?|(r0 & ? & _)]; [done|congruence]. }
  apply (GI_fresh D T h h' x r w); try done.
  - unfold shape. by rewrite Hdt, Hss.
  - apply rm_dense; [|done]. by eapply holds_nonneg.
  - intros Er. destruct (t_fn r) as [f|] eqn:Ef; [|done]. destruct (K' f eq_refl). congruence.
  - intros f Ef. destruct (K' f Ef) as [(_ & ? & _) ?]. split; [done|]. split; [done|]. apply Hfn; [congruence|]. unfold fn_of. by rewrite Hr.
Qed.

(** ** values in the new state *)
Lemma kept_ext h h' y r v : extends h h' -> h_ten h !! y = Some r -> holds h r v -> kept h h' y.
Proof.
  intros [H1 H2] Hr [(cs & (b & Hb) & _) _]. exists r, r. split_and!; try done; [by apply H2|]. by rewrite Hb, (H1 _ _ Hb).
Qed.
Section old.
Variables (D T : nat -> Prop) (h h' : heap).
Hypothesis (G : GI D T h) (Hext : extends h h').
Lemma old_kept y : D y -> kept h h' y.
Proof. intros Dy. destruct (g_rec _ _ _ G y Dy) as (r & Hr & Hh & _). by eapply kept_ext. Qed.
Lemma old_shape y : D y -> shape_of h' y = shape_of h y.
Proof. intros Dy. by apply kept_shape, old_kept. Qed.
Lemma old_value y idx : D y -> value h' y idx = value h y idx.
Proof. intros Dy. by apply kept_value, old_kept. Qed.
Lemma old_rec y r : h_ten h !! y = Some r -> h_ten h' !! y = Some r.
Proof. apply Hext. Qed.
End old.
Lemma shape_rec h x r : h_ten h !! x = Some r -> shape_of h x = shape r.
Proof. intros H. unfold shape_of, lay_of. by rewrite H. Qed.
Lemma value_rec h x r idx : h_ten h !! x = Some r -> value h x idx = num (contents h r idx).
Proof. intros H. unfold value. by rewrite H. Qed.

Section alloc.
Variables (D T : nat -> Prop) (h : heap) (dt : dtype) (ss : list Z) (w : list Z -> val) (rg : bool) (fn : option gradfn).
Let h' := alloc_heap h dt (contig ss) (rm_cells ss w) rg fn.
Let x := length (h_ten h).
Hypothesis G : GI D T h.
Hypothesis Ha : allocable dt ss.
Hypothesis Hw : forall idx, in_range ss idx -> has_ty dt (w idx).
Lemma alloc_value idx : in_range ss idx -> value h' x idx = num (w idx).
Proof. intros Hi. eapply holds_value; [apply alloc_ten|by apply alloc_holds|done]. Qed.
Lemma alloc_shape : shape_of h' x = ss.
Proof. by rewrite (shape_rec h' x _ (alloc_ten _ _ _ _ _ _)). Qed.
Lemma alloc_lay : lay_of h' x = contig ss.
Proof. unfold lay_of, h', x. by rewrite alloc_ten. Qed.
Hypothesis Hfn : match fn with
  | Some f => rg = true /\ gf_acc f = 0 /\ gf_kind f <> NoBack /\ kg_of (gf_kind f) = [] /\ (forall y, y ∈ gf_in f -> D y) /\
      node_fact h' x (gf_kind f) (gf_in f)
  | None => True end.
Hypothesis Hrg : rg = false -> fn = None.
Lemma GI_alloc : GI (fun y => D y \/ y = x) T h'.
Proof.
  apply (GI_fresh D T h h' x (fresh_rec h dt (contig ss) rg fn) w); try done.
  - apply alloc_extends.
  - by apply lookup_ge_None_2.
  - apply alloc_ten.
  - by apply lookup_ge_None_2.
  - by apply alloc_holds.
  - by destruct Ha.
  - apply rm_dense; [by eapply allocable_nonneg|]. intros idx Hi. apply pos_contig; [done|]. by eapply allocable_lt63.
  - intros f E. cbn [fresh_rec t_fn t_rg] in *. rewrite E in Hfn. destruct Hfn as (? & ? & ? & E2 & ? & ?). split; [done|]. split; [done|].
    split_and!; try done. intros kg rk Hk. rewrite E2 in Hk. by apply elem_of_nil in Hk.
Qed.
End alloc.

(** ** exact arithmetic *)
Definition qop (o : aop) : Qc -> Qc -> Qc := match o with AAdd => Qcplus | ASub => Qcminus | AMul => Qcmult | ADiv => Qcdiv end.
Lemma conv_num T D x : conv T D x = x.
Proof. unfold conv. by destruct (bool_decide _). Qed.
Lemma to_float_num T D v : to_float T D v = num v.
Proof. destruct v; [done|]. simpl. apply conv_num. Qed.
Lemma arith_num o L R D a b w : floating L || floating R = true -> cpp_arith o L R D a b = Some w -> num w = qop o (num a) (num b).
Proof.
  unfold cpp_arith. intros -> E. injection E as <-. cbn [num]. rewrite conv_num, !to_float_num. by destruct o.
Qed.
Lemma cvt_num T D v w : floating D = true -> cpp_cvt T D v = Some w -> num w = num v.
Proof. unfold cpp_cvt. intros -> E. injection E as <-. cbn [num]. apply to_float_num. Qed.
Lemma fsum_num T l : fsum T l = sumq (map num l).
Proof.
  unfold fsum. cbn [f_zero Exact f_add]. assert (forall a : Qc, fold_left (fun (a : Qc) x => (a + to_float T F64 x)%Qc) l a = (a + sumq (map num l))%Qc) as H.
  { induction l as [|v l IH]; intros a; simpl; [ring|]. rewrite IH, to_float_num. ring. }
  exact (eq_trans (H 0%Qc) (Qcplus_0_l _)).
Qed.
Lemma sum_num T ss v w : floating T = true -> array_sum T ss v = Some w -> num w = sum_over ss (fun idx => num (v idx)).
Proof.
  unfold array_sum. intros -> E. injection E as <-. cbn [num]. unfold sum_over. destruct ss as [|n ss].
  - rewrite to_float_num. simpl. ring.
  - rewrite fsum_num. unfold row_elems. by rewrite map_map.
Qed.
Lemma mean_num T ss v w : floating T = true -> array_mean T ss v = Some w ->
  num w = (sum_over ss (fun idx => num (v idx)) / qc_of_Z (size_prod ss))%Qc.
Proof.
  unfold array_mean. intros Hf. destruct (array_sum T ss v) as [s|] eqn:Es; [|done]. pose proof (sum_num T ss v s Hf Es) as Hs.
  unfold array_sum in Es. rewrite Hf in *. injection Es as <-. cbn [num] in Hs. intros E. injection E as <-.
  destruct (Z.eqb_spec (size_prod ss) 0) as [E|E].
  - rewrite E. cbn [num]. change (qc_of_Z 0) with 0%Qc. unfold Qcdiv. replace (/ 0)%Qc with 0%Qc by (by apply Qc_is_canon). cbn [f_zero Exact]. ring.
  - cbn [num]. by rewrite Hs.
Qed.
Lemma abs_num T v w : floating T = true -> has_ty T v -> abs_val T v = Some w -> num w = qabs (num v) /\ num (sign_val T v) = qsign (num v).
Proof.
  intros Hf Hty. destruct v as [z|q]; [destruct Hty as [Hty _]; by destruct T|]. unfold abs_val, sign_val. rewrite Hf. intros E. apply (inj Some) in E as <-. cbn [num].
  unfold qabs, qsign. destruct (f_le (f_of_Z (fmt T) 0) q) eqn:E.
  - change (Qle_bool 0%Qc q = true) in E. apply Qle_bool_iff in E. assert (~ (q < 0)%Qc) as Hn. { intros H. apply (Qclt_not_le _ _ H). exact E. }
    rewrite !decide_False by done. split; [done|]. reflexivity.
  - change (Qle_bool 0%Qc q = false) in E. assert (q < 0)%Qc as Hn. { apply Qcnot_le_lt. intros H. apply Qle_bool_iff in H. rewrite H in E. done. }
    rewrite !decide_True by done. split; done.
Qed.
