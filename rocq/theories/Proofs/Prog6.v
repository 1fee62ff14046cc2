(** Calls that return tensors on new buffers keep the invariant: the remaining ones. *)
From Verif.Proofs Require Export Prog5 Part4 Orders.
From Verif.Model Require Export Exact Api.
#[local] Existing Instance Exact.

Section ops.
Variables (D T : nat -> Prop) (h : heap) (H : list nat).
Hypothesis Hinv : tinv h.
Hypothesis G : GI D T h.
Hypothesis HD : forall x, x ∈ H -> D x.

Lemma keeps_neg a r : at_hand h H a r -> fits (dt_join I32 (t_dt r)) (shape r) -> keeps_GI D T h (ONeg (Some a)).
Proof.
  intros Hh Hf. pose proof (hand_at D T h H G HD a r Hh) as (Da & [Ha Hv] & _). intros x h' E. cbn [exec] in E. rewrite un_some, new_handle_eq in E. unfold op_neg in E.
  pose proof (keeps_scalar D T h G I32 (VI 0) ltac:(done)) as K.
  assert (exec (OScalar I32 (VI 0)) h = (Ok (RHandle (Some (length (h_ten h)))), scalar_heap h I32 (VI 0))) as E1 by (cbn [exec]; by rewrite new_handle_eq, create_scalar_ok).
  erewrite bind_ok in E by (apply create_scalar_ok). fold (scalar_heap h I32 (VI 0)) in E.
  pose proof (scalar_extends h I32 (VI 0)) as He.
  pose proof (GI_alloc D T h I32 [] (fun _ => VI 0) false None G (allocable_nil I32) ltac:(done) ltac:(done) ltac:(done)) as G1.
  change (alloc_heap h I32 (contig []) (rm_cells [] (fun _ => VI 0)) false None) with (scalar_heap h I32 (VI 0)) in G1.
  assert (tinv (scalar_heap h I32 (VI 0))) as Hinv1. { pose proof (tinv_exec (OScalar I32 (VI 0)) h Hinv) as Hx. by rewrite E1 in Hx. }
  set (h1 := scalar_heap h I32 (VI 0)) in *. set (z := length (h_ten h)) in *.
  set (rz := fresh_rec h I32 (contig []) false None).
  change (op_sub z a) with (op_arith ASub z a) in E. destruct (op_arith ASub z a h1) as [[t|?|?|] h2] eqn:E2; try done. injection E as <- <-.
  exists (fun y => (D y \/ y = z) \/ y = t). split; [tauto|]. split; [tauto|].
  eapply (arith_GI (fun y => D y \/ y = z) T h1 Hinv1 G1 ASub z a rz r); try done.
  - by right.
  - by left.
  - split; [apply alloc_ten|]. eapply holds_contents. apply (alloc_holds h I32 [] (fun _ => VI 0)); [apply allocable_nil|done].
  - split; [by apply He|]. eapply holds_contents. by eapply holds_extends.
  - apply compatible_nil.
  - change (shape rz) with (@nil Z). by rewrite bshape_nil.
Qed.

Lemma keeps_abs a r : at_hand h H a r -> dense (t_lay r) -> keeps_GI D T h (OAbs (Some a)).
Proof.
  intros Hh Hd. pose proof (hand_at D T h H G HD a r Hh) as (Da & [Ha Hv] & Hf & _).
  assert (buffer_filling (t_lay r)) as Hbf by done.
  pose proof (holds_allocable _ _ _ _ Hv Hf) as Hal. pose proof (allocable_prod _ _ Hal) as Hp. pose proof (allocable_lt63 _ _ Hal) as H63.
  assert (lay_ok (t_lay r)) as Hok by (by destruct Hv as [(? & _ & ? & _) _]).
  assert (forall idx, in_range (shape r) idx -> has_ty (t_dt r) (contents h r idx)) as Hty by (intros; by eapply holds_ty).
  destruct (t_rg r) eqn:Hrg.
  - destruct (abs_run2 h a r _ Ha Hv Hbf Hf Hrg) as [H1 H2]. fold (shape r) in *.
    destruct (all_defined_or (fun idx => abs_val (t_dt r) (contents h r idx)) (shape r)) as [[w Hw]|Hn].
    2:{ apply keeps_ub. destruct (H2 Hn) as [h' E]. cbn [exec]. rewrite un_some, new_handle_eq, E. by eexists _, _. }
    destruct (H1 w Hw) as (cs1 & cs2 & Hl1 & Hl2 & Hc1 & Hc2 & E).
    set (h' := abs_tracked h a r cs1 cs2) in *. set (x := length (h_ten h)) in *. set (rx := fresh_rec h (t_dt r) (t_lay r) true (abs_fn true h a)).
    eapply keeps_add; [cbn [exec]; rewrite un_some, new_handle_eq, E; done|].
    assert (extends h h') as Hext.
    { split; [|intros k y Hk; simpl; by apply lookup_app_l_Some]. intros s y Hy. unfold h', abs_tracked. cbn [h_sto]. apply alloc_sto_old, alloc_sto_old. done. }
    assert (h_ten h' !! x = Some rx) as Hx. { simpl. unfold x. rewrite lookup_app_r, Nat.sub_diag by lia. done. }
    assert (h_ten h' !! Datatypes.S x = Some (abs_g h r)) as Hg. { simpl. unfold x. rewrite lookup_app_r by lia. by replace (Datatypes.S (length (h_ten h)) - length (h_ten h))%nat with 1%nat by lia. }
    assert (holds h' rx w) as Hhx.
    { eapply (laid_holds _ rx); [exact (h2_sto1 h r cs1 cs2)|done|done|done| | | |]; cbn [t_lay t_dt fresh_rec rx].
      * rewrite Hl1. rewrite Z2Nat.id by (unfold shape in *; lia). apply Hd.
      * rewrite Hl1. unfold shape in *. lia.
      * done.
      * intros idx Hi. eapply abs_val_ty; [|by apply Hw]. by apply Hty. }
    assert (holds h' (abs_g h r) (fun idx => sign_val (t_dt r) (contents h r idx))) as Hhg.
    { eapply (laid_holds _ (abs_g h r)); [exact (h2_sto2 h r cs1 cs2)|done|done|done| | | |]; cbn [t_lay t_dt abs_g].
      * rewrite Hl2. rewrite Z2Nat.id by (unfold shape in *; lia). apply Hd.
      * rewrite Hl2. unfold shape in *. lia.
      * done.
      * intros idx Hi. apply sign_ty. }
    assert (floating (t_dt r) = true) as Hfl by (by eapply hand_float).
    assert (shape_of h' a = shape r) as Sa by (by rewrite (old_shape D T h h' G Hext a Da), (shape_rec h a r Ha)).
    assert (forall idx, value h' a idx = num (contents h r idx)) as Va by (intros idx; by rewrite (old_value D T h h' G Hext a idx Da), (value_rec h a r _ Ha)).
    assert (shape_of h' x = shape r) as Sx by (by rewrite (shape_rec h' x _ Hx)).
    assert (shape_of h' (Datatypes.S x) = shape r) as Sg by (by rewrite (shape_rec h' _ _ Hg)).
    apply (GI_fresh D T h h' x rx w); try done.
    + by apply lookup_ge_None_2.
    + by apply lookup_ge_None_2.
    + intros f Ef. cbn in Ef. apply (inj Some) in Ef as <-. split; [done|]. split; [done|]. split; [done|]. cbn [gf_kind gf_in].
      split. { intros y Hy. apply elem_of_list_singleton in Hy as ->. done. }
      split.
      * split; [|split].
        -- unfold node_ok. fold x. rewrite Sx, Sg, Sa. split; [|split; [done|by left]]. exists (abs_g h r). split; [done|]. by eapply holds_contents.
        -- unfold computes. rewrite Sx, Sa. left. split; [done|]. intros idx Hi. rewrite (holds_value h' x rx w idx Hx Hhx Hi), Va.
           eapply abs_num; [done|by apply Hty|by apply Hw].
        -- intros kg a' Ek Ea. injection Ek as <-. injection Ea as <-. left. rewrite Sx, Sa. split; [done|]. intros idx Hi. fold x. rewrite (holds_value h' _ _ _ idx Hg Hhg Hi), Va.
           eapply abs_num; [done|by apply Hty|by apply Hw].
      * intros kg rk Hk Hrk. cbn [kg_of] in Hk. apply elem_of_list_singleton in Hk as ->. fold x in Hrk. rewrite Hg in Hrk. apply (inj Some) in Hrk as <-.
        apply lookup_ge_None_2. simpl. lia.
  - destruct (abs_run1 h a r _ Ha Hv Hbf Hf Hrg) as [H1 H2]. fold (shape r) in *.
    destruct (all_defined_or (fun idx => abs_val (t_dt r) (contents h r idx)) (shape r)) as [[w Hw]|Hn].
    2:{ apply keeps_ub. destruct (H2 Hn) as [h' E]. cbn [exec]. rewrite un_some, new_handle_eq, E. by eexists _, _. }
    destruct (H1 w Hw) as (cs1 & Hl1 & Hc1 & E). eapply keeps_add; [cbn [exec]; rewrite un_some, new_handle_eq, E; done|].
    eapply (GI_fresh D T h _ _ (fresh_rec h (t_dt r) (t_lay r) false None) w); try done.
    + apply alloc_extends.
    + by apply lookup_ge_None_2.
    + apply alloc_ten.
    + by apply lookup_ge_None_2.
    + eapply (laid_holds _ (fresh_rec h (t_dt r) (t_lay r) false None)); [exact (alloc_sto h (t_dt r) (t_lay r) cs1 false None)|done|done|done| | | |]; cbn [t_lay t_dt fresh_rec].
      * rewrite Hl1. rewrite Z2Nat.id by (unfold shape in *; lia). apply Hd.
      * rewrite Hl1. unfold shape in *. lia.
      * done.
      * intros idx Hi. eapply abs_val_ty; [|by apply Hw]. by apply Hty.
Qed.

Lemma ext_ordered v T0 ss x0 : has_ty T0 x0 -> (forall idx, in_range ss idx -> has_ty T0 (v idx)) -> ordered (x0 :: row_elems ss v).
Proof.
  intros H0 Hv. apply ordered_exact. assert (forall y, y ∈ x0 :: row_elems ss v -> has_ty T0 y) as K.
  { intros y [->|Hy]%elem_of_cons; [done|]. apply elem_of_list_fmap in Hy as (idx & -> & Hi). apply Hv. by apply elem_of_indices. }
  intros y z Hy%K Hz%K. destruct y, z; try done; [apply has_ty_int in Hy as [E1 _]; apply has_ty_float in Hz; congruence|apply has_ty_int in Hz as [E1 _]; apply has_ty_float in Hy; congruence].
Qed.
Lemma val_le_num T0 v w : floating T0 = true -> has_ty T0 v -> has_ty T0 w -> val_le v w = true -> (num v <= num w)%Qc.
Proof.
  intros Hf Hv Hw. destruct v as [z|q]; [apply has_ty_int in Hv as [? _]; congruence|]. destruct w as [z|q']; [apply has_ty_int in Hw as [? _]; congruence|].
  simpl. intros E. by apply Qle_bool_iff in E.
Qed.
Lemma keeps_ext c a r x0 : c = CGe \/ c = CLe -> at_hand h H a r -> first_cell h r x0 -> (t_rg r = true -> shape r <> []) -> keeps_GI D T h (ext_op c a).
Proof.
  intros Hc Hh Hfc Hne. pose proof (hand_at D T h H G HD a r Hh) as (Da & [Ha Hv] & Hf & _).
  pose proof (holds_allocable _ _ _ _ Hv Hf) as Hal.
  assert (forall idx, in_range (shape r) idx -> has_ty (t_dt r) (contents h r idx)) as Hty by (intros; by eapply holds_ty).
  assert (ordered (x0 :: row_elems (shape r) (contents h r))) as Ho. { apply (ext_ordered _ (t_dt r)); [by destruct Hfc as (? & _ & _ & ?)|done]. }
  assert (builds (ext_op c a) = true) as Hbo by (by destruct Hc as [->| ->]).
  destruct (t_rg r) eqn:Hrg.
  - destruct (ext_tracked c h a r _ x0 Hc Ha Hv Hf Hrg Hfc Ho) as (m & best & (H1 & H2 & H3) & Hm & E1 & E2).
    specialize (Hne eq_refl). destruct H3 as [(_ & Hb & _)|(Hb & Em & _)].
    { destruct (E2 Hb Hne) as [h' E]. apply keeps_fail. intros ? ?. by rewrite ext_exec, E by done. }
    specialize (E1 Hb). set (x := length (h_ten h)) in *. set (T0 := t_dt r) in *. set (fn := Gfn (KnownGradBack (Datatypes.S x)) [a] 0 0 0) in *.
    set (h' := ext_heap h T0 (shape r) m (one_hot T0 best) true (Some fn)) in *.
    assert (exec (ext_op c a) h = (Ok (RHandle (Some x)), h')) as Ex by (by rewrite ext_exec, E1 by done).
    eapply keeps_add; [exact Ex|]. pose proof (ext_new h T0 (shape r) m (one_hot T0 best) (Some fn) Hal Hm) as Hnew. fold x h' in Hnew.
    destruct (builds_building _ Hbo) as [B1 B2].
    eapply (GI_call D T h _ x h'); [done|done|done|exact Ex|exact Hnew|apply allocable_nil|].
    intros _ f Ef. destruct Hnew as (Hext & _ & rx & Hrx & _ & _ & Hsx & _ & _ & _ & Hhx).
    assert (fn_of h' x = Some fn) as Ef'. { unfold fn_of. unfold h', ext_heap. rewrite (alloc_ten_old (scal h T0 (Some m) true (Some fn)) _ _ _ _ _ x (fresh_rec h T0 (contig []) true (Some fn))); [done|apply alloc_ten]. }
    rewrite Ef' in Ef. apply (inj Some) in Ef as <-.
    assert (h_ten h' !! Datatypes.S x = Some (ext_g h T0 (shape r))) as Hg.
    { rewrite <- (ext_g_eq h T0 (shape r) m true (Some fn)). replace (Datatypes.S x) with (length (h_ten (scal h T0 (Some m) true (Some fn)))) by (unfold x; simpl; rewrite app_length; simpl; lia). apply alloc_ten. }
    assert (holds h' (ext_g h T0 (shape r)) (one_hot T0 best)) as Hhg.
    { rewrite <- (ext_g_eq h T0 (shape r) m true (Some fn)). apply (alloc_holds _ _ _ (one_hot T0 best)); [done|]. intros. apply one_hot_ty. }
    assert (floating T0 = true) as Hfl by (by eapply hand_float).
    assert (shape_of h' a = shape r) as Sa by (by rewrite (old_shape D T h h' G Hext a Da), (shape_rec h a r Ha)).
    assert (forall idx, value h' a idx = num (contents h r idx)) as Va by (intros idx; by rewrite (old_value D T h h' G Hext a idx Da), (value_rec h a r _ Ha)).
    assert (shape_of h' x = []) as Sx by (by rewrite (shape_rec h' x _ Hrx)).
    assert (shape_of h' (Datatypes.S x) = shape r) as Sg by (by rewrite (shape_rec h' _ _ Hg)).
    assert (value h' x [] = num m) as Vx. { apply (holds_value h' x rx (fun _ => m) []); [done|done|]. unfold shape. unfold shape in Hsx. rewrite Hsx. constructor. }
    split; [done|]. cbn [gf_kind gf_in fn]. split. { intros y Hy. apply elem_of_list_singleton in Hy as ->. done. }
    split.
    + split; [|split].
      * unfold node_ok. rewrite Sx, Sg, Sa. split; [|split; [done|by right]]. exists (ext_g h T0 (shape r)). split; [done|]. by eapply holds_contents.
      * unfold computes. rewrite Sx, Sa. right. split; [done|]. split; [done|]. rewrite Vx.
        assert (exists idx, in_range (shape r) idx /\ num m = value h' a idx) as Hex. { exists best. split; [done|]. by rewrite Va, <- Em. }
        case_decide as Hd; (split; [done|]); rewrite Forall_forall in Hd.
        -- intros idx Hi. apply Hd. by apply elem_of_indices.
        -- intros idx Hi. rewrite Va. destruct Hc as [->| ->]; [destruct Hd|].
           ++ intros j Hj. apply elem_of_indices in Hj. rewrite Va. apply (val_le_num T0); [done|by apply Hty|done|]. by apply H2.
           ++ apply (val_le_num T0); [done|done|by apply Hty|]. by apply H2.
      * intros kg a' Ek Ea. injection Ek as <-. injection Ea as <-. right. rewrite Sx, Sa. split; [congruence|]. exists best. split; [done|]. split; [by rewrite Va, Vx, <- Em|].
        intros idx Hi. rewrite (holds_value h' _ _ _ idx Hg Hhg Hi). unfold one_hot. rewrite Hfl. case_decide; [by destruct T0|]. unfold zero_val. rewrite ?Hfl. by destruct T0.
    + intros kg rk Hk Hrk. cbn [kg_of] in Hk. apply elem_of_list_singleton in Hk as ->. rewrite Hg in Hrk. apply (inj Some) in Hrk as <-.
      apply lookup_ge_None_2. simpl. lia.
  - destruct (ext_untracked c h a r _ x0 Hc Ha Hv Hrg Hfc Ho) as (m & best & _ & Hm & E).
    eapply (keeps_const D T h _ (t_dt r) [] (fun _ => m)); [done|done|apply allocable_nil|]. eexists _, _. split; [rewrite ext_exec, E by done; done|]. by apply scal_new.
Qed.

Lemma keeps_cat ts r0 rest dim : Forall2 (at_hand h H) ts (r0 :: rest) ->
  shape_fits (cat_type r0 (r0 :: rest)) (cat_shape (Z.to_nat dim) r0 (r0 :: rest)) -> keeps_GI D T h (OCat (map Some ts) dim).
Proof.
  intros Hh [Hs Hf]. set (rs := r0 :: rest) in *. set (d := Z.to_nat dim) in *.
  assert (Forall2 (fun t r => h_ten h !! t = Some r) ts rs) as Hts by (eapply Forall2_impl; [exact Hh|]; by intros ? ? [_ ?]).
  destruct (decide (0 <= dim < Z.of_nat (length (shape r0)))) as [Hdim|Hn].
  2:{ apply keeps_fail. intros ? ?. rewrite (cat_reject h ts rs r0 rest dim Hts eq_refl); [done|by left]. }
  destruct (decide (Forall (fun r => same_but d (shape r0) (shape r)) rs)) as [Hsame|Hn].
  2:{ apply keeps_fail. intros ? ?. rewrite (cat_reject h ts rs r0 rest dim Hts eq_refl); [done|by right]. }
  set (vs := map (contents h) rs).
  assert (Forall2 (holds h) rs vs) as Hvs.
  { unfold vs. clear - Hh G HD. clearbody rs. induction Hh as [|t r ts rs Hr Hrs IH]; [constructor|]. simpl. constructor; [|done].
    by destruct (hand_at D T h H G HD t r Hr) as (_ & [_ ?] & _). }
  assert (Forall (fun n => n < two64) (cat_shape d r0 rs)) as H64 by (eapply Forall_impl; [exact Hs|]; intros ? [_ ?]; done).
  destruct (cat_ok h ts rs vs r0 rest dim Hts Hvs eq_refl Hdim Hsame H64 Hf) as (w & Hw & E). fold d in Hw, E.
  assert (exec (OCat (map Some ts) dim) h = (Ok (RHandle (Some (length (h_ten h)))),
      alloc_heap h (cat_type r0 rs) (contig (cat_shape d r0 rs)) (rm_cells (cat_shape d r0 rs) w) (existsb t_rg rs) (cat_fn (existsb t_rg rs) dim ts))) as Ex.
  { cbn [exec]. erewrite bind_ok by apply deref_all_some. by rewrite new_handle_eq, E. }
  eapply keeps_add; [exact Ex|].
  destruct (cat_new h ts rs vs r0 rest dim Hts Hvs eq_refl Hdim Hsame H64 Hf) as (t' & h'' & w' & E' & _ & Hw').
  assert (allocable (cat_type r0 rs) (cat_shape d r0 rs)) as Hal by done.
  assert (forall idx, in_range (cat_shape d r0 rs) idx -> has_ty (cat_type r0 rs) (w idx)) as Hty.
  { intros idx Hi. specialize (Hw idx Hi). unfold cat_elem in Hw. destruct (owner _ _) as [k j]. destruct (rs !! k); [|done]. destruct (vs !! k); [|done].
    by eapply cpp_cvt_ty. }
  apply GI_alloc; [done|done|done| |by intros ->].
  set (h' := alloc_heap _ _ _ _ _ _) in *. unfold cat_fn. destruct (existsb t_rg rs) eqn:Erg; [|done].
  assert (extends h h') as Hext by apply alloc_extends.
  split; [done|]. split; [done|]. cbn [gf_kind gf_in]. split; [done|]. split; [done|].
  assert (forall t, t ∈ ts -> D t) as Dts.
  { intros t [k Hk]%elem_of_list_lookup. destruct (Forall2_lookup_l _ _ _ _ _ Hh Hk) as (r & _ & Hr). by destruct (hand_at D T h H G HD t r Hr) as (? & _). }
  split; [done|].
  assert (floating (cat_type r0 rs) = true) as Hfl.
  { pose proof (tinv_exec (OCat (map Some ts) dim) h Hinv) as Hx. rewrite Ex in Hx. cbn [snd] in Hx.
    pose proof (ok_rg _ _ _ (Hx _ _ (alloc_ten _ _ _ _ _ _)) eq_refl) as Hy. cbn [t_dt fresh_rec] in Hy. by destruct (cat_type r0 rs). }
  assert (shape_of h' (length (h_ten h)) = cat_shape d r0 rs) as Sx by apply alloc_shape.
  assert (forall k t r, ts !! k = Some t -> rs !! k = Some r -> h_ten h !! t = Some r /\ shape_of h' t = shape r) as St.
  { intros k t r Hk Hr. assert (h_ten h !! t = Some r) as Ht. { destruct (Forall2_lookup_lr _ _ _ _ _ _ Hts Hk Hr). done. }
    split; [done|]. rewrite (old_shape D T h h' G Hext t), (shape_rec h t r Ht); [done|]. apply Dts. by eapply elem_of_list_lookup_2. }
  assert (map (fun t => nth d (shape_of h' t) 0) ts = sizes_along d rs) as Sz.
  { unfold sizes_along. apply list_eq. intros k. rewrite !list_lookup_fmap. destruct (ts !! k) as [t|] eqn:Hk.
    - destruct (Forall2_lookup_l _ _ _ _ _ Hts Hk) as (r & Hr & _). rewrite Hr. simpl. destruct (St k t r Hk Hr) as [_ ->]. done.
    - pose proof (Forall2_length _ _ _ Hts) as Hl. apply lookup_ge_None in Hk. rewrite (proj2 (lookup_ge_None rs k)) by lia. done. }
  split; [|split; [|done]].
  - unfold node_ok. destruct ts as [|t0 ts']; [inversion Hts|]. exists t0, ts'. split; [done|]. destruct (St 0%nat t0 r0 eq_refl eq_refl) as [_ S0]. rewrite S0.
    split; [done|]. cbv zeta. fold d. rewrite Sz. split; [|apply alloc_lay].
    apply Forall_lookup. intros k t Hk. destruct (Forall2_lookup_l _ _ _ _ _ Hts Hk) as (r & Hr & _). destruct (St k t r Hk Hr) as [_ ->].
    rewrite Forall_lookup in Hsame. by eapply Hsame.
  - unfold computes. rewrite Sx. intros idx Hi. cbv zeta. fold d. rewrite Sz. specialize (Hw idx Hi). unfold cat_elem in Hw.
    destruct (Hw' idx Hi) as (k & j & r & v & Ho & Hrk & Hvk & Hir & Hc). fold d in Ho, Hir, Hc. rewrite Ho. rewrite Ho in Hw. rewrite Hrk in Hw. rewrite Hvk in Hw.
    destruct (Forall2_lookup_r _ _ _ _ _ Hts Hrk) as (t & Hk & Ht). rewrite Hk.
    rewrite (old_value D T h h' G Hext t) by (apply Dts; by eapply elem_of_list_lookup_2). rewrite (value_rec h t r _ Ht).
    unfold h'. rewrite alloc_value by done.
    rewrite (cvt_num _ _ _ _ Hfl Hw). unfold vs in Hvk. rewrite list_lookup_fmap, Hrk in Hvk. apply (inj Some) in Hvk as <-. done.
Qed.
End ops.
