(** Memory safety of every call, and of histories. *)
From Verif.Spec Require Export Safe.
From Verif.Proofs Require Export Safe9 Api2 Terminate4.
From Verif.Model Require Export Api.

Section with_fops.
Context {fo : FOps}.
Notation any := (fun _ _ => True).

(** ** shapes of results *)
Lemma zip_max_le a b k m : (k = length b - length a)%nat -> (m = length a - length b)%nat ->
  Forall2 Z.le (bc_rev Z.max a b) (zip_with Z.max (a ++ replicate k 1) (b ++ replicate m 1)).
Proof.
  revert b k m. induction a as [|x a IH]; intros b k m -> ->.
  - simpl. rewrite app_nil_r, Nat.sub_0_r. destruct b as [|y b]; [constructor|]. change (bc_rev Z.max [] ?l) with l.
    induction (y :: b); simpl; constructor; [lia|done].
  - destruct b as [|y b].
    + rewrite Nat.sub_0_r. simpl (replicate (0 - _) _). rewrite app_nil_r, app_nil_l, bc_rev_nil_r. clear IH.
      induction (x :: a); simpl; constructor; [lia|done].
    + simpl. constructor; [lia|]. by apply IH.
Qed.
Lemma bmax_le a b : Forall2 Z.le (bmax a b) (max_shape a b).
Proof.
  unfold max_shape, bmax. set (n := Nat.max _ _). rewrite <- (rev_involutive (zip_with _ _ _)). rewrite !rev_alt. apply Forall2_reverse. rewrite <- !rev_alt.
  rewrite <- zip_with_rev by (rewrite !pad_length; lia). rewrite !rev_pad. apply zip_max_le; rewrite !rev_length; lia.
Qed.
Lemma size_prod_le a b : nn a -> Forall2 Z.le a b -> size_prod a <= size_prod b.
Proof.
  intros Hn H. induction H as [|x y a b Hxy H IH]; [done|]. apply Forall_cons in Hn as [Hx Hn]. specialize (IH Hn). pose proof (size_prod_nonneg a Hn) as Hp.
  change (x * size_prod a <= y * size_prod b). nia.
Qed.
Lemma bmax_nonneg a b : nn a -> nn b -> nn (bmax a b).
Proof.
  intros Ha Hb. unfold bmax. apply Forall_rev. apply Forall_rev in Ha, Hb. revert Ha Hb. generalize (rev a), (rev b). clear a b.
  intros a. induction a as [|x a IH]; intros [|y b] Ha Hb; simpl; [done|done|done|]. apply Forall_cons in Ha as [Hx Ha]. apply Forall_cons in Hb as [Hy Hb].
  constructor; [lia|]. by apply IH.
Qed.
Lemma bytes_bmax D a b : nn a -> nn b -> bytes_ok D (max_shape a b) -> bytes_fit D (bmax a b).
Proof.
  intros Ha Hb [_ H]. pose proof (bmax_nonneg a b Ha Hb) as Hn. split; [done|]. pose proof (size_prod_le _ _ Hn (bmax_le a b)) as Hle.
  pose proof (size_of_pos D) as Hz. change (2 ^ 64) with two64 in H. nia.
Qed.
Lemma zip_max_same a b k m : (k = length b - length a)%nat -> (m = length a - length b)%nat ->
  b = zip_with Z.max (a ++ replicate k 1) (b ++ replicate m 1) -> bc_rev Z.max a b = b.
Proof.
  revert b k m. induction a as [|x a IH]; intros b k m -> ->; [done|]. destruct b as [|y b]; [done|]. simpl. intros [= E1 E2]. f_equal; [done|]. by eapply IH.
Qed.
Lemma bmax_same a b : b = max_shape a b -> b = bmax a b.
Proof.
  intros E. unfold bmax. rewrite <- (rev_involutive b) at 1. f_equal. symmetry. eapply zip_max_same; [done|done|].
  assert (rev b = rev (max_shape a b)) as E' by (by rewrite <- E). rewrite E' at 1. unfold max_shape. set (n := Nat.max _ _).
  rewrite <- zip_with_rev by (rewrite !pad_length; lia). rewrite !rev_pad. do 3 f_equal; rewrite !rev_length; lia.
Qed.

(** ** one call *)
Definition handed (o : op) (v : ret) (h' : heap) : Prop := forall t, t ∈ obtained o v -> full_at h' t.
Lemma sf_handle o (m : E nat) h : (forall ss dt, o <> ONew ss dt) -> sf m (fun t h' => full_at h' t) h -> sf (new_handle m) (handed o) h.
Proof.
  intros Ho H. unfold new_handle. eapply sf_bind; [exact H|]. intros t h' G S Hf. apply sf_ret; [done|]. intros u Hu.
  assert (obtained o (RHandle (Some t)) = [t]) as E. { destruct o; try done. by destruct (Ho ss dt). } rewrite E in Hu. by apply elem_of_list_singleton in Hu as ->.
Qed.
Lemma sf_un o a (f : nat -> E nat) h : (forall ss dt, o <> ONew ss dt) -> sf (f a) (fun t h' => full_at h' t) h -> sf (un (Some a) f) (handed o) h.
Proof. intros Ho H. unfold un. eapply sf_deref_bind; [done|]. by apply sf_handle. Qed.
Lemma sf_bin o a b (f : nat -> nat -> E nat) h : (forall ss dt, o <> ONew ss dt) -> sf (f a b) (fun t h' => full_at h' t) h -> sf (bin (Some a) (Some b) f) (handed o) h.
Proof. intros Ho H. unfold bin. eapply sf_deref_bind; [done|]. eapply sf_deref_bind; [done|]. by apply sf_handle. Qed.
Lemma handed_nil o v h : obtained o v = [] -> handed o v h.
Proof. intros E t. rewrite E. by intros ?%elem_of_nil. Qed.
Lemma sf_unit o (m : E unit) h : (forall ss dt, o <> ONew ss dt) -> sf m any h -> sf (no_result m) (handed o) h.
Proof. intros Ho H. unfold no_result. eapply sf_bind; [exact H|]. intros ? h' _ S _. apply sf_ret; [done|]. apply handed_nil. by destruct o. Qed.
Lemma sf_query o a r (f : tensor -> ret) h : SI h -> h_ten h !! a = Some r -> handed o (f r) h -> sf (query (Some a) f) (handed o) h.
Proof. intros S Hr H. unfold query. eapply sf_deref_bind; [done|]. eapply sf_get_bind; [done|]. by apply sf_ret. Qed.
Lemma sf_deref_all {B} ts dim (k : list nat -> E B) Q h : sf (k ts) Q h -> sf (bind (deref_all [] (map Some ts) dim) k) Q h.
Proof.
  intros H. eapply sf_eq; [|exact H]. assert (forall xs h, deref_all xs (map Some ts) dim h = (Ok (xs ++ ts), h)) as E.
  { clear. induction ts as [|t ts IH]; intros xs h; cbn [map deref_all]; [by rewrite app_nil_r|]. by rewrite IH, <- app_assoc. }
  unfold bind. by rewrite E.
Qed.

Section call.
Variables (h : heap) (H : list nat).
Hypothesis HS : SI h.
Hypothesis Hi : tinv h.
Hypothesis Hv : vinv h.
Hypothesis HH : Forall (full_at h) H.
Lemma hold_full a r : holding h H a r -> full_at h a.
Proof. intros [Ha _]. rewrite Forall_forall in HH. by apply HH. Qed.
Lemma hold_get a r : holding h H a r -> h_ten h !! a = Some r.
Proof. by intros [_ ?]. Qed.
Lemma hold_bytes a r : holding h H a r -> bytes_fit (t_dt r) (shape r).
Proof. intros [_ Hr]. by apply (geom_bytes_fit h r HS), (SI_geom _ _ _ HS Hr). Qed.
Lemma hold_nn a r : holding h H a r -> nn (shape r).
Proof. intros [_ Hr]. apply (SI_geom _ _ _ HS Hr). Qed.
Lemma hold_room r : grad_fits r -> t_rg r = true -> roomy r.
Proof. intros Hg Hrg. destruct (Hg Hrg); [by left|by right]. Qed.
Lemma bytes_of dt ss : bytes_ok dt ss -> bytes_fit dt ss.
Proof. done. Qed.

Lemma sf_exec o : careful h H o -> (forall a, o <> ORequires a false) -> sf (exec o) (handed o) h.
Proof.
  intros Hc Hno. destruct Hc as [dt v|ss dt Hb|t Hn Hr|ss dt Hb|ss dt Hb|a r Ha|a r Ha|ss n dt Hb|ss x dt Hb|n m dt Hb|data ss dt Hb Hl|ss xs Hb|a r xs Ha Hdt
    |a b ra rb Ha Hb Hf|a b ra rb Ha Hb Hf|a b ra rb Ha Hb Hf|a b ra rb Ha Hb Hf Hd|a r Ha|a r Ha Hf|c a b ra rb Ha Hb Hf|a b ra rb Ha Hb|a r dt Ha Hf
    |a r s Ha Hg|a r i j Ha Hg|a r xs Ha Hg Hne H1 H2 H3|a b r rb Ha Hb Hg Hne|ts r0 rs dim Ha Hf Ht|a r Ha|a r Ha|a r Ha Hf|a r Ha Hf|a r Ha Hf
    |a r Ha|a r Ha|a r Ha|a r Ha Hg|t r Ha Hg|a r Ha|a r Ha|a r Ha Hn Hq|a r b Ha|a r Ha|a Ha|a r Ha|a r Ha|a r Ha|a r Ha|a r Ha|a r Ha|a r Ha]; cbn [exec].
  - apply sf_handle; [done|]. eapply sf_mono; [by apply sf_scalar|]. intros t h' _ _ Hm. by eapply made_full.
  - unfold new_handle. eapply sf_bind; [by apply sf_create_contig|]. intros t h' _ S _. apply sf_ret; [done|]. by apply handed_nil.
  - eapply sf_mono; [by apply sf_init|]. intros v h' _ _ (u & -> & Hu) u' Hu'. cbn in Hu'. by apply elem_of_list_singleton in Hu' as ->.
  - apply sf_handle; [done|]. eapply sf_mono; [by apply sf_zeros|]. intros t h' _ _ Hm. by eapply made_full.
  - apply sf_handle; [done|]. eapply sf_mono; [by apply sf_ones|]. intros t h' _ _ Hm. exact (plain_full _ _ _ _ Hm).
  - apply sf_un; [done|]. unfold zeros_like. eapply sf_get_bind; [by apply Ha|]. eapply sf_mono; [apply sf_zeros; [done|by apply (hold_bytes a)]|]. intros t h' _ _ Hm. by eapply made_full.
  - apply sf_un; [done|]. unfold ones_like. eapply sf_get_bind; [by apply Ha|]. eapply sf_mono; [apply sf_ones; [done|by apply (hold_bytes a)]|]. intros t h' _ _ Hm. exact (plain_full _ _ _ _ Hm).
  - apply sf_handle; [done|]. eapply sf_mono; [by apply sf_full_int|]. intros t h' _ _ Hm. exact (plain_full _ _ _ _ Hm).
  - apply sf_handle; [done|]. eapply sf_mono; [by apply sf_full_double|]. intros t h' _ _ Hm. exact (plain_full _ _ _ _ Hm).
  - apply sf_handle; [done|]. by apply sf_eye_op.
  - apply sf_handle; [done|]. by apply sf_from_blob.
  - apply sf_handle; [done|]. by apply sf_randn.
  - apply sf_un; [done|]. eapply sf_get_bind; [by apply Ha|]. pose proof (hold_bytes a r Ha) as Hb. rewrite Hdt in Hb |- *. by apply sf_randn.
  - apply sf_bin; [done|]. rewrite <- larger_join in Hf. apply (sf_op_add h a b ra rb); [done|by eapply hold_full|by eapply hold_full|by apply Ha|by apply Hb|].
    apply bytes_bmax; [by eapply hold_nn|by eapply hold_nn|done].
  - apply sf_bin; [done|]. rewrite <- larger_join in Hf. apply (sf_op_sub h a b ra rb); [done|by eapply hold_full|by eapply hold_full|by apply Ha|by apply Hb|].
    apply bytes_bmax; [by eapply hold_nn|by eapply hold_nn|done].
  - apply sf_bin; [done|]. rewrite <- larger_join in Hf. apply (sf_op_mul h a b ra rb); [done|by eapply hold_full|by eapply hold_full|by apply Ha|by apply Hb|].
    apply bytes_bmax; [by eapply hold_nn|by eapply hold_nn|done].
  - apply sf_bin; [done|]. rewrite <- larger_join in Hf. apply (sf_op_div h a b ra rb); [done|by eapply hold_full|by eapply hold_full|by apply Ha|by apply Hb| |].
    + apply bytes_bmax; [by eapply hold_nn|by eapply hold_nn|done].
    + intros Ht. destruct (Hd Ht) as (T1 & T2 & T3). split; [done|]. split; [done|]. by apply bmax_same.
  - apply sf_un; [done|]. apply sf_ret; [done|by eapply hold_full].
  - apply sf_un; [done|]. rewrite <- larger_join in Hf. apply (sf_op_neg h a r); [done|by eapply hold_full|by apply Ha|done].
  - apply sf_bin; [done|]. apply (sf_op_cmp h c a b ra rb); [done|by eapply hold_full|by eapply hold_full|by apply Ha|by apply Hb|].
    apply bytes_bmax; [by eapply hold_nn|by eapply hold_nn|done].
  - eapply sf_deref_bind; [done|]. eapply sf_deref_bind; [done|]. apply sf_unit; [done|]. eapply (sf_addeq h a b ra rb); [done|by eapply hold_full|by eapply hold_full|by apply Ha|by apply Hb].
  - apply sf_un; [done|]. apply (sf_to_dtype h a r); [done|by eapply hold_full|by apply Ha|done].
  - apply sf_un; [done|]. apply (sf_op_slice h a r); [done|by eapply hold_full|by apply Ha|by apply hold_room].
  - apply sf_un; [done|]. apply (sf_op_transpose h a r); [done|by eapply hold_full|by apply Ha|by apply hold_room].
  - apply sf_un; [done|]. apply (sf_op_reshape h a r); [done|by eapply hold_full|by apply Ha|done|done|done|]. intros Ht. split; [by apply hold_room|auto].
  - apply sf_bin; [done|]. apply (sf_op_reshape_as h a b r); [done|by eapply hold_full|by eapply hold_full|by apply Ha|]. intros Ht. split; [by apply hold_room|auto].
  - apply sf_deref_all. apply sf_handle; [done|]. apply (sf_op_cat h ts (r0 :: rs) r0 rs dim); [done| | |done|done|done].
    + clear -Ha HH. apply Forall_forall. intros t Ht. apply elem_of_list_lookup in Ht as [i Hi]. destruct (Forall2_lookup_l _ _ _ _ _ Ha Hi) as (r & _ & Hr).
      rewrite Forall_forall in HH. apply HH. apply Hr.
    + eapply Forall2_impl; [exact Ha|]. by intros t r [_ ?].
  - apply sf_un; [done|]. apply sf_op_sum; [done|by eapply hold_full].
  - apply sf_un; [done|]. apply sf_op_mean; [done|by eapply hold_full].
  - apply sf_un; [done|]. apply (sf_op_abs h a r); [done|by eapply hold_full|by apply Ha|done].
  - apply sf_un; [done|]. apply (sf_op_extremum h _ a r); [done|by eapply hold_full|by apply Ha|done].
  - apply sf_un; [done|]. apply (sf_op_extremum h _ a r); [done|by eapply hold_full|by apply Ha|done].
  - apply sf_un; [done|]. apply sf_op_clone; [done|by eapply hold_full].
  - apply sf_un; [done|]. apply sf_op_clone; [done|by eapply hold_full].
  - apply sf_un; [done|]. apply sf_detach; [done|by eapply hold_full].
  - pose proof (hold_get _ _ Ha) as Hr. apply (sf_query _ a r); [done|done|]. destruct (t_grad r) as [g|] eqn:Eg; [|by apply handed_nil].
    intros u Hu. cbn in Hu. apply elem_of_list_singleton in Hu as ->. destruct (ts_grad _ _ (si_ten _ HS _ _ Hr) _ Eg) as [(gr & x & Hgr & _ & _ & Hx & _ & Hal)].
    exists gr. split; [done|]. apply Hal. by apply (Hg g gr).
  - eapply sf_deref_bind; [done|]. apply sf_unit; [done|]. pose proof (hold_get _ _ Ha) as Hr. destruct Hg as [Hg|(Hun & Hcr & Hg)].
    + by apply (sf_backward_dense h t r).
    + by apply (sf_backward_fresh h t r).
  - eapply sf_deref_bind; [done|]. apply sf_unit; [done|]. by apply (sf_zero_grad h a r), Ha.
  - pose proof (hold_get _ _ Ha) as Hr. eapply sf_deref_bind; [done|]. apply sf_unit; [done|]. unfold set_requires_grad. eapply sf_get_bind; [done|].
    apply sf_expect_bind; [done|]. intros Hfl. eapply sf_set; [done|done| | |done].
    + split; [done|]. split; [done|]. intros f Ef. by exists f.
    + destruct (si_ten _ HS _ _ Hr) as [T1 T2 T3 T4]. split; [done|done| |].
      * cbn. intros g Eg. destruct (T3 g Eg) as [(gr & x & Hx)]. split. by exists gr, x.
      * cbn. intros f Ef. destruct (T4 f Ef) as [N1 N2 N3 N4 N5 N6]. by split.
  - by destruct (Hno (Some a)).
  - pose proof (hold_get _ _ Ha) as Hr. eapply sf_deref_bind; [done|]. eapply sf_get_bind; [done|]. apply sf_unit; [done|]. eapply sf_set; [done|done| | |done].
    + split; [done|]. split; [done|]. intros f Ef. by exists f.
    + destruct (si_ten _ HS _ _ Hr) as [T1 T2 T3 T4]. split; [done|done| |].
      * cbn. intros g Eg. destruct (T3 g Eg) as [(gr & x & Hx)]. split. by exists gr, x.
      * cbn. intros f Ef. destruct (T4 f Ef) as [N1 N2 N3 N4 N5 N6]. by split.
  - eapply sf_deref_bind; [done|]. eapply sf_bind; [apply sf_op_all; [done|by eapply hold_full]|]. intros b h' _ S _. apply sf_ret; [done|]. by apply handed_nil.
  - destruct a as [a|]; [|apply sf_ret; [done|by apply handed_nil]]. destruct (Ha a eq_refl) as [r Hr].
    eapply sf_bind; [apply sf_to_string; [done|by eapply hold_full]|]. intros b h' _ S _. apply sf_ret; [done|]. by apply handed_nil.
  - apply (sf_query _ a r); [done|by apply Ha|by apply handed_nil].
  - eapply sf_deref_bind; [done|]. unfold op_stride. eapply (sf_bind _ _ any).
    + eapply sf_get_bind; [by apply Ha|]. by apply sf_throw.
    + intros l h' _ S _. apply sf_ret; [done|]. by apply handed_nil.
  - apply (sf_query _ a r); [done|by apply Ha|by apply handed_nil].
  - apply (sf_query _ a r); [done|by apply Ha|by apply handed_nil].
  - apply (sf_query _ a r); [done|by apply Ha|by apply handed_nil].
  - apply (sf_query _ a r); [done|by apply Ha|by apply handed_nil].
  - apply (sf_query _ a r); [done|by apply Ha|by apply handed_nil].
Qed.
End call.

(** ** requires_grad(false) *)
Lemma forget_full h a r u : h_ten h !! a = Some r -> full_at h u -> full_at (Hp (h_sto h) (<[a := with_rg r false]> (h_ten h)) (h_ver h)) u.
Proof.
  intros Hr (q & Hq & Hf). destruct (decide (u = a)) as [->|Hu].
  - exists (with_rg r false). cbn. rewrite list_lookup_insert by (by eapply lookup_lt_Some). assert (q = r) as -> by congruence. done.
  - exists q. cbn. by rewrite list_lookup_insert_ne.
Qed.
Lemma forget_si h a r : SI h -> h_ten h !! a = Some r -> ~ is_node h a -> no_quotient h a ->
  SI (Hp (h_sto h) (<[a := with_rg r false]> (h_ten h)) (h_ver h)).
Proof.
  intros S Hr Hn Hq. set (h' := Hp _ _ _). assert (a < length (h_ten h))%nat as Hlt by (by eapply lookup_lt_Some).
  assert (forall u q, u <> a -> h_ten h !! u = Some q -> h_ten h' !! u = Some q) as Hne by (intros u q Hu Hq'; cbn; by rewrite list_lookup_insert_ne).
  assert (h_ten h' !! a = Some (with_rg r false)) as Ha by (by apply list_lookup_insert).
  assert (forall u q, h_ten h !! u = Some q -> exists q', h_ten h' !! u = Some q' /\ same_data q q') as Hsd.
  { intros u q Hu. destruct (decide (u = a)) as [->|]; [|exists q; split; [by apply Hne|done]]. eexists. split; [done|]. assert (q = r) as -> by congruence. done. }
  assert (forall q g, gok h q g -> gok h' q g) as Hgok.
  { intros q g [(gr & x & G1 & G2 & G3 & G4 & G5 & G6)]. destruct (Hsd _ _ G1) as (gr' & G1' & D1 & D2 & D3). split. exists gr', x. split; [done|].
    unfold shape in *. rewrite <- D1, <- D2, <- D3. done. }
  split; [apply S|]. intros u q' Hq'. destruct (decide (u = a)) as [->|Hu].
  - assert (q' = with_rg r false) as -> by congruence. destruct (si_ten _ S _ _ Hr) as [T1 T2 T3 T4]. split; [done|done| |].
    + cbn. intros g Eg. apply Hgok. destruct (T3 g Eg) as [(gr & x & Hx)]. split. by exists gr, x.
    + cbn. intros f Ef. destruct Hn. exists f. unfold fn_of. by rewrite Hr.
  - cbn in Hq'. rewrite list_lookup_insert_ne in Hq' by done. destruct (si_ten _ S _ _ Hq') as [T1 T2 T3 T4]. split; [done|done| |].
    + intros g Eg. by apply Hgok, T3.
    + intros f Ef. destruct (T4 f Ef) as [N1 N2 N3 N4 N5 N6]. split; [done|done| | | |].
      * eapply Forall_impl; [exact N3|]. intros i Hi. by apply forget_full.
      * intros g Eg. by apply forget_full, N4.
      * intros Ek. destruct (N5 Ek) as (x & y & rx & ry & E1 & E2 & E3 & E4 & E5 & E6).
        assert (a ∉ gf_in f) as Hain. { apply (Hq u f); [|done]. unfold fn_of. by rewrite Hq'. }
        rewrite E1 in Hain. exists x, y, rx, ry. split; [done|]. split; [apply Hne; [|done]; intros ->; apply Hain; by left|].
        split; [apply Hne; [|done]; intros ->; apply Hain; right; by left|]. done.
      * intros dim Ek. destruct (N6 dim Ek) as (rs & F & Htot).
        assert (exists rs', Forall2 (fun i q => h_ten h' !! i = Some q) (gf_in f) rs' /\ sizes_along (Z.to_nat dim) rs' = sizes_along (Z.to_nat dim) rs) as (rs' & F' & E').
        { clear -F Hsd. induction F as [|i q l rs Hq F (rs' & F' & E')]; [by exists []|]. destruct (Hsd _ _ Hq) as (q' & Hq' & _ & D & _).
          exists (q' :: rs'). split; [by constructor|]. cbn. unfold shape. rewrite <- D. f_equal. exact E'. }
        exists rs'. split; [done|]. by rewrite E'.
Qed.

(** ** histories *)
Lemma run_more ops : forall h rs h1 o x h2, run h ops = (Ok rs, h1) -> exec o h1 = (x, h2) -> (forall u, x <> UB u) -> x <> Diverge ->
  run h (ops ++ [o]) = (Ok (rs ++ [x]), h2).
Proof.
  induction ops as [|p ops IH]; intros h rs h1 o x h2 E1 E2 Hu Hd.
  - cbn [run] in E1. injection E1 as <- <-. cbn [run app]. rewrite E2. destruct x as [?|?|u|]; [done|done|by destruct (Hu u)|done].
  - cbn [run app] in *. destruct (exec p h) as [[?|?|?|] h'] eqn:Ep; try done;
      (destruct (run h' ops) as [[rs'|?|?|] h''] eqn:Er; try done; injection E1 as <- <-; by rewrite (IH _ _ _ _ _ _ Er E2 Hu Hd)).
Qed.
Lemma si_empty : SI empty_heap.
Proof. split; [constructor|]. by intros t r. Qed.
Lemma careful_size h H o : careful h H o -> size_ok o.
Proof.
  intros Hc. unfold size_ok. destruct Hc; cbn [size_args]; try (by constructor); by match goal with Hb : bytes_ok _ _ |- _ => apply Hb end.
Qed.
Lemma soft_fine u : soft u <-> ~ memory_error u.
Proof. by destruct u; cbn; intuition. Qed.
Lemma exec_safe h H o : SI h -> tinv h -> vinv h -> Forall (full_at h) H -> careful h H o ->
  match exec o h with
  | (Ok v, h') => SI h' /\ (forall u, full_at h u -> full_at h' u) /\ handed o v h'
  | (Throw _, h') => SI h' /\ (forall u, full_at h u -> full_at h' u)
  | (UB u, _) => soft u
  | (Diverge, _) => True
  end.
Proof.
  intros S Hi Hv HH Hc. assert ((exists a, o = ORequires a false) \/ forall a, o <> ORequires a false) as [[a ->]|Hno].
  { destruct o; try (right; by intros). destruct b; [right; by intros|left; by eexists]. }
  - inversion Hc; subst. match goal with Hh : holding h H _ _ |- _ => destruct Hh as [Ha Hr] end. cbn [exec]. unfold deref. rewrite bind_ret. unfold no_result, set_requires_grad.
    rewrite bind_assoc. erewrite bind_ok by (by apply get_ten_ok). rewrite bind_assoc, bind_ret. erewrite bind_ok by apply set_ten_eq. cbn.
    split; [by apply forget_si|]. split; [intros u; by apply forget_full|by apply handed_nil].
  - pose proof (sf_exec h H S Hi Hv HH o Hc Hno) as Hsf. unfold sf in Hsf. destruct (exec o h) as [[v|e|u|] h']; try done.
    + destruct Hsf as (G & S' & Hh). split; [done|]. split; [|done]. intros u. by apply full_at_grow.
    + destruct Hsf as (G & S'). split; [done|]. intros u. by apply full_at_grow.
Qed.
Lemma careful_safe ops : forall h H ops0 rs0, Forall size_ok ops0 -> run empty_heap ops0 = (Ok rs0, h) -> SI h -> Forall (full_at h) H -> careful_run h H ops ->
  match run h ops with (Ok _, _) => True | (UB u, _) => ~ memory_error u | _ => False end.
Proof.
  induction ops as [|o ops IH]; intros h H ops0 rs0 Hsz Hrun S HH Hc; [done|]. destruct Hc as [Ho Hc]. cbn [run].
  assert (reachable h) as Hre by (by exists ops0, rs0).
  pose proof (exec_safe h H o S (reachable_tinv _ Hre) (reachable_vinv _ Hre) HH Ho) as Hex.
  pose proof (exec_terminates ops0 rs0 h o Hsz Hrun (careful_size _ _ _ Ho)) as Hterm.
  assert (Forall size_ok (ops0 ++ [o])) as Hsz' by (apply Forall_app; split; [done|constructor; [by eapply careful_size|done]]).
  destruct (exec o h) as [[v|e|u|] h'] eqn:E.
  - destruct Hex as (S' & Hk & Hh). specialize (IH h' (obtained o v ++ H) (ops0 ++ [o]) (rs0 ++ [Ok v]) Hsz').
    assert (run empty_heap (ops0 ++ [o]) = (Ok (rs0 ++ [Ok v]), h')) as Hr' by (by eapply run_more).
    assert (Forall (full_at h') (obtained o v ++ H)) as HH'.
    { apply Forall_app. split; [by apply Forall_forall|]. eapply Forall_impl; [exact HH|]. exact Hk. }
    specialize (IH Hr' S' HH' Hc). destruct (run h' ops) as [[?|?|?|] ?]; done.
  - destruct Hex as (S' & Hk). specialize (IH h' H (ops0 ++ [o]) (rs0 ++ [Throw e]) Hsz').
    assert (run empty_heap (ops0 ++ [o]) = (Ok (rs0 ++ [Throw e]), h')) as Hr' by (by eapply run_more).
    assert (Forall (full_at h') H) as HH' by (eapply Forall_impl; [exact HH|exact Hk]).
    specialize (IH Hr' S' HH' Hc). destruct (run h' ops) as [[?|?|?|] ?]; done.
  - by apply soft_fine.
  - by apply Hterm.
Qed.
Lemma careful_history ops : careful_run empty_heap [] ops ->
  match run empty_heap ops with (Ok _, _) => True | (UB u, _) => ~ memory_error u | _ => False end.
Proof. intros Hc. by apply (careful_safe ops empty_heap [] [] []); [constructor|done|apply si_empty|constructor|]. Qed.
End with_fops.
