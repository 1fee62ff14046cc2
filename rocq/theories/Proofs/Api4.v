(** Copies, reductions, abs, cat through the public API. *)
From Verif.Proofs Require Export Api3 Cat Orders.
From Verif.Model Require Export Api.

Section with_fops.
Context {fo : FOps}.

Lemma copy_new o h t r v :
  o = OClone \/ o = OContiguous -> tensor_at h t r v -> fits (t_dt r) (shape r) ->
  exists t' h', exec (o (Some t)) h = (Ok (RHandle (Some t')), h') /\
    new_tensor h h' t' (t_dt r) (shape r) (t_rg r) v.
Proof.
  intros Ho [Ht Hh] Hf. pose proof (holds_allocable _ _ _ _ Hh Hf) as Ha.
  assert (exec (o (Some t)) h = new_handle (op_clone t) h) as -> by (by destruct Ho as [->| ->]).
  rewrite new_handle_eq, (clone_ok h t r v) by done. eexists _, _. split; [done|].
  apply alloc_new_tensor; [done|]. intros idx Hi. by eapply Hh.
Qed.

Lemma type_new h t r v dt :
  tensor_at h t r v -> fits dt (shape r) -> dt <> t_dt r -> (t_rg r = true -> floating dt = true) ->
  (forall w, (forall idx, in_range (shape r) idx -> cpp_cvt (t_dt r) dt (v idx) = Some (w idx)) ->
     exists t' h', exec (OTypeTo (Some t) dt) h = (Ok (RHandle (Some t')), h') /\
       new_tensor h h' t' dt (shape r) (t_rg r) w) /\
  ((exists idx, in_range (shape r) idx /\ cpp_cvt (t_dt r) dt (v idx) = None) ->
     exists h', exec (OTypeTo (Some t) dt) h = (UB FloatRange, h')).
Proof.
  intros [Ht Hh] Hf Hne Hrg. pose proof (holds_allocable _ _ _ _ Hh Hf) as Ha.
  cbn [exec]. rewrite un_some, new_handle_eq.
  destruct (to_dtype_ok h t r v dt Ht Hh Hf Hne) as [H1 H2].
  { destruct (t_rg r); [|done]. by rewrite Hrg. }
  split.
  - intros w Hw. rewrite (H1 w Hw). eexists _, _. split; [done|]. apply alloc_new_tensor; [done|].
    intros idx Hi. eapply cpp_cvt_ty. by apply Hw.
  - intros Hn. destruct (H2 Hn) as [cs ->]. by eexists.
Qed.
Lemma type_same h t r : h_ten h !! t = Some r -> (t_rg r = true -> floating (t_dt r) = true) ->
  exec (OTypeTo (Some t) (t_dt r)) h = (Ok (RHandle (Some t)), h).
Proof.
  intros Ht Hrg. cbn [exec]. rewrite un_some, new_handle_eq, (to_dtype_same h t r); [done..|].
  destruct (t_rg r); [|done]. by rewrite Hrg.
Qed.
Lemma type_reject h t r dt : h_ten h !! t = Some r -> t_rg r = true -> floating dt = false ->
  exec (OTypeTo (Some t) dt) h = (Throw RuntimeError, h).
Proof. intros Ht Hrg Hf. cbn [exec]. by rewrite un_some, new_handle_eq, (to_dtype_reject h t r). Qed.

(** laws of element conversion *)
Lemma cvt_widen T D v : has_ty T v -> floating D = false -> floating T = false -> width T <= width D ->
  cpp_cvt T D v = Some v /\ cpp_cvt D T v = Some v.
Proof.
  intros Hv HD HT Hw. unfold cpp_cvt. rewrite HD, HT.
  destruct v as [z|f]; [|apply has_ty_float in Hv; congruence].
  apply has_ty_int in Hv as [_ Hz].
  rewrite !reduce_id; try done; try apply width_pos.
  eapply in_width_mono; [|exact Hz]. pose proof (width_pos T). lia.
Qed.
Lemma cvt_narrow T D z w : floating D = false -> cpp_cvt T D (VI z) = Some w ->
  exists y, w = VI y /\ in_width (width D) y = true /\ y mod 2 ^ width D = z mod 2 ^ width D.
Proof.
  unfold cpp_cvt. intros ->. intros [= <-]. eexists. split; [done|].
  split; [apply reduce_in|apply reduce_congr]; apply width_pos.
Qed.

(** widening and back, through the API *)
Lemma type_roundtrip h t r v dt :
  tensor_at h t r v -> fits dt (shape r) -> fits (t_dt r) (shape r) -> dt <> t_dt r ->
  t_rg r = false -> floating dt = false -> floating (t_dt r) = false -> width (t_dt r) <= width dt ->
  exists t1 h1 t2 h2,
    exec (OTypeTo (Some t) dt) h = (Ok (RHandle (Some t1)), h1) /\
    exec (OTypeTo (Some t1) (t_dt r)) h1 = (Ok (RHandle (Some t2)), h2) /\
    new_tensor h h1 t1 dt (shape r) false v /\ new_tensor h1 h2 t2 (t_dt r) (shape r) false v.
Proof.
  intros Hat Hf Hf' Hne Hrg HD HT Hw.
  assert (forall idx, in_range (shape r) idx -> has_ty (t_dt r) (v idx)) as Hty by (intros; by eapply Hat).
  destruct (type_new h t r v dt Hat Hf Hne ltac:(by rewrite Hrg)) as [H1 _].
  destruct (H1 v) as (t1 & h1 & E1 & N1).
  { intros idx Hi. by apply (cvt_widen (t_dt r) dt); [apply Hty|..]. }
  rewrite Hrg in N1. exists t1, h1.
  pose proof N1 as (_ & _ & r1 & Hr1 & _ & Hd1 & Hs1 & _ & Hrg1 & _ & Hh1).
  destruct (type_new h1 t1 r1 v (t_dt r)) as [H2 _].
  { split; done. } { unfold shape in *. by rewrite Hs1. } { congruence. } { by rewrite Hrg1. }
  destruct (H2 v) as (t2 & h2 & E2 & N2).
  { intros idx Hi. rewrite Hd1. unfold shape in Hi. rewrite Hs1 in Hi. by apply (cvt_widen (t_dt r) dt); [apply Hty|..]. }
  exists t2, h2. split; [done|]. split; [done|]. split; [done|].
  unfold shape in N2. by rewrite Hs1, Hrg1 in N2.
Qed.

Lemma sum_new h t r v :
  tensor_at h t r v -> size_prod (shape r) < two63 ->
  match array_sum (t_dt r) (shape r) v with
  | Some x => exists t' h', exec (OSum (Some t)) h = (Ok (RHandle (Some t')), h') /\
                new_tensor h h' t' (sum_type (t_dt r)) [] (t_rg r) (fun _ => x)
  | None => exists u h', exec (OSum (Some t)) h = (UB u, h') /\ arith_ub u
  end.
Proof.
  intros [Ht Hh] Hp. cbn [exec]. rewrite un_some, new_handle_eq.
  pose proof (sum_ok h t r v Ht Hh Hp) as H. unfold shape.
  destruct (array_sum (t_dt r) (sizes (t_lay r)) v) as [x|].
  - destruct H as [-> Hty]. eexists _, _. split; [done|]. by apply scal_new.
  - destruct H as (u & c & -> & Hu). by eexists _, _.
Qed.
Lemma mean_new h t r v :
  tensor_at h t r v -> size_prod (shape r) < two63 ->
  match array_mean (t_dt r) (shape r) v with
  | Some x => exists t' h', exec (OMean (Some t)) h = (Ok (RHandle (Some t')), h') /\
                new_tensor h h' t' (sum_type (t_dt r)) [] (t_rg r) (fun _ => x)
  | None => exists u h', exec (OMean (Some t)) h = (UB u, h') /\ arith_ub u
  end.
Proof.
  intros [Ht Hh] Hp. cbn [exec]. rewrite un_some, new_handle_eq.
  pose proof (mean_ok h t r v Ht Hh Hp) as H. unfold shape.
  destruct (array_mean (t_dt r) (sizes (t_lay r)) v) as [x|].
  - destruct H as [-> Hty]. eexists _, _. split; [done|]. by apply scal_new.
  - destruct H as (u & c & -> & Hu). by eexists _, _.
Qed.

Lemma max_new h t r v :
  tensor_at h t r v -> t_rg r = false ->
  (exists i0, in_range (shape r) i0 /\ pos (t_lay r) i0 = 0) -> ordered (row_elems (shape r) v) ->
  exists best t' h', in_range (shape r) best /\
    (forall idx, in_range (shape r) idx -> val_le (v idx) (v best) = true) /\
    exec (OMax (Some t)) h = (Ok (RHandle (Some t')), h') /\
    new_tensor h h' t' (t_dt r) [] false (fun _ => v best).
Proof.
  intros [Ht Hh] Hrg Hc Ho. cbn [exec]. rewrite un_some, new_handle_eq.
  destruct (extremum_ok CGe h t r v (or_introl eq_refl) Ht Hh Hrg Hc Ho) as (best & Hb & Hd & E).
  unfold op_max. rewrite E. exists best. eexists _, _. split; [done|]. split; [exact Hd|]. split; [done|].
  apply scal_new. by eapply Hh.
Qed.
Lemma min_new h t r v :
  tensor_at h t r v -> t_rg r = false ->
  (exists i0, in_range (shape r) i0 /\ pos (t_lay r) i0 = 0) -> ordered (row_elems (shape r) v) ->
  exists best t' h', in_range (shape r) best /\
    (forall idx, in_range (shape r) idx -> val_le (v best) (v idx) = true) /\
    exec (OMin (Some t)) h = (Ok (RHandle (Some t')), h') /\
    new_tensor h h' t' (t_dt r) [] false (fun _ => v best).
Proof.
  intros [Ht Hh] Hrg Hc Ho. cbn [exec]. rewrite un_some, new_handle_eq.
  destruct (extremum_ok CLe h t r v (or_intror eq_refl) Ht Hh Hrg Hc Ho) as (best & Hb & Hd & E).
  unfold op_min. rewrite E. exists best. eexists _, _. split; [done|]. split; [exact Hd|]. split; [done|].
  apply scal_new. by eapply Hh.
Qed.

(** abs *)
Lemma laid_holds h r s lay w cs b :
  h_sto h !! s = Some (Sto (t_dt r) b (Some cs)) -> t_sto r = s -> t_lay r = lay ->
  lay_ok lay -> lay_in lay (Z.of_nat (length cs)) -> Z.of_nat (length cs) < two63 -> laid lay w cs ->
  (forall idx, in_range (sizes lay) idx -> has_ty (t_dt r) (w idx)) ->
  holds h r w.
Proof.
  intros Hs <- <- Hok Hin Hl Hlaid Hty. split.
  - exists cs. split; [by exists b|]. done.
  - intros idx Hi. split; [|by apply Hty]. apply elem_lookup. exists cs. split.
    + unfold cells. by rewrite Hs.
    + split; [by apply Hin|]. by apply Hlaid.
Qed.
Lemma abs_new h t r v :
  tensor_at h t r v -> fits (t_dt r) (shape r) ->
  lay_in (t_lay r) (size_prod (shape r)) -> lay_inj (t_lay r) ->
  (forall w, (forall idx, in_range (shape r) idx -> abs_val (t_dt r) (v idx) = Some (w idx)) ->
     exists t' h' r', exec (OAbs (Some t)) h = (Ok (RHandle (Some t')), h') /\
       extends h h' /\ h_ten h !! t' = None /\ h_ten h' !! t' = Some r' /\
       h_sto h !! t_sto r' = None /\ t_dt r' = t_dt r /\ t_lay r' = t_lay r /\
       t_rg r' = t_rg r /\ holds h' r' w) /\
  ((exists idx, in_range (shape r) idx /\ abs_val (t_dt r) (v idx) = None) ->
     exists h', exec (OAbs (Some t)) h = (UB SignedOverflow, h')).
Proof.
  intros [Ht Hh] Hf Hin Hinj.
  assert (buffer_filling (t_lay r)) as Hbf by done.
  pose proof (holds_allocable _ _ _ _ Hh Hf) as Ha. pose proof (allocable_prod _ _ Ha) as Hp.
  pose proof (allocable_lt63 _ _ Ha) as H63.
  assert (lay_ok (t_lay r)) as Hok by (by destruct Hh as [(? & _ & ? & _) _]).
  cbn [exec]. rewrite un_some, new_handle_eq.
  destruct (t_rg r) eqn:Hrg.
  - destruct (abs_run2 h t r v Ht Hh Hbf Hf Hrg) as [H1 H2]. split.
    + intros w Hw. destruct (H1 w Hw) as (cs1 & cs2 & Hl1 & Hl2 & Hc1 & Hc2 & ->).
      eexists _, _, (fresh_rec h (t_dt r) (t_lay r) true (abs_fn true h t)). split; [done|].
      split. { split; [|intros k x Hk; simpl; by apply lookup_app_l_Some].
        intros s x Hx. apply alloc_sto_old, alloc_sto_old. done. }
      split; [by apply lookup_ge_None_2|].
      split. { simpl. rewrite lookup_app_r, Nat.sub_diag by lia. done. }
      split; [by apply lookup_ge_None_2|]. do 3 (split; [done|]).
      eapply (laid_holds _ (fresh_rec h (t_dt r) (t_lay r) true (abs_fn true h t))); [exact (h2_sto1 h r cs1 cs2)|done|done|done| | | |]; cbn [t_lay t_dt fresh_rec].
      * rewrite Hl1. by rewrite Z2Nat.id by lia.
      * rewrite Hl1. lia.
      * done.
      * intros idx Hi. eapply abs_val_ty; [|by apply Hw]. by eapply Hh.
    + intros Hn. destruct (H2 Hn) as [h' ->]. by eexists.
  - destruct (abs_run1 h t r v Ht Hh Hbf Hf Hrg) as [H1 H2]. split.
    + intros w Hw. destruct (H1 w Hw) as (cs1 & Hl1 & Hc1 & ->).
      eexists _, _, (fresh_rec h (t_dt r) (t_lay r) false None). split; [done|].
      split; [apply alloc_extends|]. split; [by apply lookup_ge_None_2|].
      split; [apply alloc_ten|]. split; [by apply lookup_ge_None_2|]. do 3 (split; [done|]).
      eapply (laid_holds _ (fresh_rec h (t_dt r) (t_lay r) false None)); [exact (alloc_sto h (t_dt r) (t_lay r) cs1 false None)|done|done|done| | | |]; cbn [t_lay t_dt fresh_rec].
      * rewrite Hl1. by rewrite Z2Nat.id by lia.
      * rewrite Hl1. lia.
      * done.
      * intros idx Hi. eapply abs_val_ty; [|by apply Hw]. by eapply Hh.
    + intros Hn. destruct (H2 Hn) as [h' ->]. by eexists.
Qed.

(** cat *)
Lemma deref_all_app (xs ts : list nat) dim h : deref_all xs (map Some ts) dim h = (Ok (xs ++ ts), h).
Proof.
  revert xs. induction ts as [|t ts IH]; intros xs; cbn [map deref_all]; [by rewrite app_nil_r|]. by rewrite IH, <- app_assoc.
Qed.
Lemma deref_all_some (ts : list nat) dim h : deref_all [] (map Some ts) dim h = (Ok ts, h).
Proof. apply deref_all_app. Qed.
Lemma cat_new h ts rs vs r0 rest dim (d := Z.to_nat dim) :
  Forall2 (fun t r => h_ten h !! t = Some r) ts rs -> Forall2 (holds h) rs vs -> rs = r0 :: rest ->
  0 <= dim < Z.of_nat (length (shape r0)) ->
  Forall (fun r => same_but d (shape r0) (shape r)) rs ->
  Forall (fun n => n < two64) (cat_shape d r0 rs) -> fits (cat_type r0 rs) (cat_shape d r0 rs) ->
  exists t' h' w, exec (OCat (map Some ts) dim) h = (Ok (RHandle (Some t')), h') /\
    new_tensor h h' t' (cat_type r0 rs) (cat_shape d r0 rs) (existsb t_rg rs) w /\
    forall idx, in_range (cat_shape d r0 rs) idx ->
      exists k j r v, owner (sizes_along d rs) (nth d idx 0) = (k, j) /\
        rs !! k = Some r /\ vs !! k = Some v /\
        in_range (shape r) (<[d := j]> idx) /\
        cpp_cvt (t_dt r) (cat_type r0 rs) (v (<[d := j]> idx)) = Some (w idx).
Proof.
  intros Hts Hvs Hrs Hdim Hsame H64 Hf.
  destruct (cat_ok h ts rs vs r0 rest dim Hts Hvs Hrs Hdim Hsame H64 Hf) as (w & Hw & E).
  cbn [exec]. erewrite bind_ok by apply deref_all_some. rewrite new_handle_eq. fold d in E, Hw. rewrite E.
  eexists _, _, w. split; [done|].
  assert (d < length (shape r0))%nat as Hd by (unfold d; lia).
  assert (forall r, r ∈ rs -> exists v, holds h r v) as Hhold.
  { intros r [k Hk]%elem_of_list_lookup. destruct (Forall2_lookup_l _ _ _ _ _ Hvs Hk) as (v & _ & Hv). eauto. }
  assert (r0 ∈ rs) as Hr0 by (rewrite Hrs; left).
  assert (forall r, r ∈ rs -> 0 <= nth d (shape r) 0) as Hnn.
  { intros r Hr. destruct (Hhold r Hr) as [v Hv]. apply holds_nonneg in Hv.
    rewrite Forall_forall in Hsame. destruct (Hsame r Hr) as [Hl _].
    destruct (lookup_lt_is_Some_2 (shape r) d) as [x Hx]; [lia|]. rewrite (nth_lookup_Some _ _ _ _ Hx).
    rewrite Forall_lookup in Hv. by eapply Hv. }
  assert (Forall (fun n => 0 <= n) (sizes_along d rs)) as Hnns.
  { unfold sizes_along. apply Forall_map, Forall_forall. done. }
  assert (forall idx, in_range (cat_shape d r0 rs) idx ->
      exists k j r v, owner (sizes_along d rs) (nth d idx 0) = (k, j) /\
        rs !! k = Some r /\ vs !! k = Some v /\ in_range (shape r) (<[d := j]> idx) /\
        cpp_cvt (t_dt r) (cat_type r0 rs) (v (<[d := j]> idx)) = Some (w idx)) as Hall.
  { intros idx Hi. specialize (Hw idx Hi). unfold cat_elem in Hw.
    assert (length (cat_shape d r0 rs) = length (shape r0)) as Hlc by apply insert_length.
    pose proof (in_range_length _ _ Hi) as Hl.
    destruct (lookup_lt_is_Some_2 idx d) as [i Hdi]; [lia|].
    assert (cat_shape d r0 rs !! d = Some (total_len (sizes_along d rs))) as Hss by (by apply list_lookup_insert).
    assert (0 <= i < total_len (sizes_along d rs)) as Hit by (by eapply (in_range_lookup _ _ d)).
    rewrite (nth_lookup_Some _ _ _ _ Hdi) in Hw |- *.
    destruct (owner_spec _ _ Hnns Hit) as (n & Hn & Hj & _).
    destruct (owner _ i) as [k j]. cbn [fst snd] in *.
    destruct (rs !! k) as [r|] eqn:Hk; [|done]. destruct (vs !! k) as [v|] eqn:Hkv; [|done].
    exists k, j, r, v. do 3 (split; [done|]). split; [|done].
    unfold sizes_along in Hn. rewrite list_lookup_fmap, Hk in Hn. simpl in Hn. injection Hn as Hn.
    apply elem_of_list_lookup_2 in Hk. rewrite Forall_forall in Hsame.
    rewrite (same_but_insert d (shape r0) (shape r) n); [|by apply Hsame|done|done].
    replace (<[d := n]> (shape r0)) with (<[d := n]> (cat_shape d r0 rs)) by (apply list_insert_insert).
    by apply insert_in_range. }
  split; [|done]. apply alloc_new_tensor.
  - split; [|done]. apply Forall_lookup. intros k n Hk. split; [|rewrite Forall_lookup in H64; by eapply H64].
    destruct (decide (k = d)) as [->|Hne].
    + unfold cat_shape in Hk. rewrite list_lookup_insert in Hk by done. injection Hk as <-. by apply total_nonneg.
    + unfold cat_shape in Hk. rewrite list_lookup_insert_ne in Hk by done.
      destruct (Hhold r0 Hr0) as [v Hv]. apply holds_nonneg in Hv. rewrite Forall_lookup in Hv. by eapply Hv.
  - intros idx Hi. destruct (Hall idx Hi) as (k & j & r & v & _ & _ & _ & _ & Hc). by eapply cpp_cvt_ty.
Qed.

Lemma cat_reject h ts rs r0 rest dim (d := Z.to_nat dim) :
  Forall2 (fun t r => h_ten h !! t = Some r) ts rs -> rs = r0 :: rest ->
  ~ (0 <= dim < Z.of_nat (length (shape r0))) \/ ~ Forall (fun r => same_but d (shape r0) (shape r)) rs ->
  exec (OCat (map Some ts) dim) h = (Throw RuntimeError, h).
Proof.
  intros Hts Hrs Hbad. cbn [exec]. erewrite bind_ok by apply deref_all_some. rewrite new_handle_eq.
  unfold op_cat. erewrite bind_ok by (by apply get_all_ok). subst rs.
  destruct ((0 <=? dim) && (dim <? Z.of_nat (length (sizes (t_lay r0))))) eqn:Hc; [|done].
  destruct Hbad as [Hbad|Hbad]; [exfalso; apply Hbad; unfold shape; lia|].
  erewrite bind_ok by done. fold d.
  destruct (forallb (fun r => cat_compatible d (sizes (t_lay r0)) (sizes (t_lay r))) rest) eqn:Hf; [|done].
  exfalso. apply Hbad. rewrite forallb_forall in Hf. constructor; [done|].
  apply Forall_forall. intros r Hr. apply cat_compatible_spec, Hf. by apply elem_of_list_In.
Qed.
End with_fops.
