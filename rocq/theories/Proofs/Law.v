(** Laws that relate the results of several calls. *)
From Verif.Spec Require Export Law.
From Verif.Proofs Require Export Later Slice4 Track Step.

Section with_fops.
Context {fo : FOps}.

Lemma yields_nil h : yields h [] [] h. Proof. done. Qed.
Lemma yields_cons o h t h1 ops ts h' : exec o h = (Ok (RHandle (Some t)), h1) -> yields h1 ops ts h' -> yields h (o :: ops) (t :: ts) h'.
Proof. intros E H. unfold yields in *. cbn [run]. by rewrite E, H. Qed.
Lemma yields_inv o h t ops ts h' : yields h (o :: ops) (t :: ts) h' -> exists h1, exec o h = (Ok (RHandle (Some t)), h1) /\ yields h1 ops ts h'.
Proof.
  unfold yields. cbn [run]. destruct (exec o h) as [[x|e|u|] h1]; try done;
    (destruct (run h1 ops) as [[l|?|?|] h2] eqn:E; try done; intros H; injection H as H1 H2 H3; try done).
  subst. exists h1. done.
Qed.
Lemma reach o h x h' : reachable h -> exec o h = (Ok x, h') -> reachable h'.
Proof. intros. eapply reachable_exec; [done|done|by intros|done]. Qed.
Lemma step_at o h x h' t r v : mutates o = false -> exec o h = (x, h') -> tensor_at h t r v ->
  exists r', tensor_at h' t r' v /\ same_data r r'.
Proof. intros Hm E. eapply data_kept_at. pose proof (op_keeps_data h o Hm) as H. by rewrite E in H. Qed.
Lemma new_at h h' t D ss rg w : new_tensor h h' t D ss rg w -> exists r, tensor_at h' t r w /\ t_dt r = D /\ shape r = ss /\ t_rg r = rg.
Proof. intros (_ & _ & r & H1 & _ & H2 & H3 & _ & H4 & _ & H5). by exists r. Qed.
Lemma view_at h h' r t ss f rg v : new_view h h' r t ss f rg -> holds h r v ->
  exists r', tensor_at h' t r' (fun idx => v (f idx)) /\ t_dt r' = t_dt r /\ shape r' = ss /\ t_rg r' = rg.
Proof. intros (_ & _ & r' & H1 & H2 & _ & H3 & H4 & _ & H5) Hh. exists r'. split; [split; [done|by apply H5]|done]. Qed.
Lemma at_ext h t r v w : tensor_at h t r v -> (forall idx, in_range (shape r) idx -> v idx = w idx) -> tensor_at h t r w.
Proof. intros [H1 [H2 H3]] E. split; [done|]. split; [done|]. intros idx Hi. rewrite <- E by done. by apply H3. Qed.
Lemma sd_dt (r r' : tensor) : same_data r r' -> t_dt r' = t_dt r. Proof. by intros (-> & _). Qed.
Lemma sd_lay (r r' : tensor) : same_data r r' -> t_lay r' = t_lay r. Proof. by intros (_ & -> & _). Qed.
Lemma sd_shape (r r' : tensor) : same_data r r' -> shape r' = shape r. Proof. unfold shape. by intros (_ & -> & _). Qed.
Lemma arith_mutates o a b : mutates (exec_arith o a b) = false. Proof. by destruct o. Qed.

(** ** elementwise operations on tensors of one shape *)
Definition elementwise (B : nat -> nat -> op) (D : dtype -> dtype -> dtype) (e : dtype -> dtype -> val -> val -> option val) : Prop :=
  (forall a b, mutates (B a b) = false) /\
  forall h a b ra rb va vb ss, tensor_at h a ra va -> tensor_at h b rb vb -> shape ra = ss -> shape rb = ss -> fits (D (t_dt ra) (t_dt rb)) ss ->
  (forall w, (forall idx, in_range ss idx -> e (t_dt ra) (t_dt rb) (va idx) (vb idx) = Some (w idx)) ->
     exists t h' rt, exec (B a b) h = (Ok (RHandle (Some t)), h') /\ tensor_at h' t rt w /\ t_dt rt = D (t_dt ra) (t_dt rb) /\ t_lay rt = contig ss) /\
  ((exists idx, in_range ss idx /\ e (t_dt ra) (t_dt rb) (va idx) (vb idx) = None) -> undefined (B a b) h).
Lemma arith_elementwise o : f_commutative fo ->
  elementwise (fun a b => exec_arith o (Some a) (Some b)) dt_join (fun L R => cpp_arith o L R (dt_join L R)).
Proof.
  intros Hcm. split; [intros; apply arith_mutates|]. intros h a b ra rb va vb ss Ha Hb Sa Sb F.
  destruct (arith_new o h a b (fun _ => Hcm) ra rb va vb Ha Hb) as [HOk HUb].
  { rewrite Sa, Sb. apply compatible_self. } { rewrite Sa, Sb. apply no_zero_one_self. } { by rewrite Sa, Sb, bshape_self. }
  destruct (op_arith_spec o h a b ra rb va vb (proj1 Ha) (proj1 Hb) (proj2 Ha) (proj2 Hb)) as [Hok _].
  { unfold shape in *. rewrite Sa, Sb. apply compatible_self. } { unfold shape in *. rewrite Sa, Sb. apply no_zero_one_self. }
  { unfold shape in *. by rewrite Sa, Sb, bshape_self. } { done. }
  unfold shape in *. rewrite Sa, Sb, bshape_self in *. split.
  - intros w Hw. assert (forall idx, in_range ss idx -> cpp_arith o (t_dt ra) (t_dt rb) (dt_join (t_dt ra) (t_dt rb)) (va (bidx ss idx)) (vb (bidx ss idx)) = Some (w idx)) as Hw'.
    { intros idx Hi. rewrite bidx_self by done. by apply Hw. }
    destruct (HOk w Hw') as (t & h1 & E1 & N1). destruct (new_at _ _ _ _ _ _ _ N1) as (rt & Ht & Dt & St & _). exists t, h1, rt. split; [done|]. split; [done|]. split; [done|].
    rewrite exec_arith_eq, new_handle_eq, (Hok w) in E1.
    2:{ intros idx Hi. unfold arith_elem. rewrite Sa, Sb. by apply Hw'. }
    injection E1 as <- <-. destruct Ht as [Ht _]. rewrite alloc_ten in Ht. by injection Ht as <-.
  - intros (idx & Hi & Hn). apply HUb. exists idx. split; [done|]. by rewrite bidx_self.
Qed.
Lemma cmp_elementwise c :
  elementwise (fun a b => OCmp c (Some a) (Some b)) (fun _ _ => I8) (fun L R x y => Some (VI (if cpp_cmp c L R x y then 1 else 0))).
Proof.
  split; [done|]. intros h a b ra rb va vb ss Ha Hb Sa Sb F. split; [|intros (? & ? & ?); done]. intros w Hw.
  destruct (cmp_new c h a b ra rb va vb Ha Hb) as (t & h1 & E1 & N1).
  { rewrite Sa, Sb. apply compatible_self. } { rewrite Sa, Sb. apply no_zero_one_self. } { by rewrite Sa, Sb, bshape_self. }
  destruct (new_at _ _ _ _ _ _ _ N1) as (rt & Ht & Dt & St & _). rewrite Sa, Sb, bshape_self in *.
  exists t, h1, rt. split; [done|]. split.
  { eapply at_ext; [done|]. intros idx Hi. rewrite St in Hi. cbv beta. rewrite bidx_self by done. specialize (Hw idx Hi). by injection Hw. }
  split; [done|]. cbn [exec] in E1. rewrite bin_some, new_handle_eq, (op_cmp_spec c h a b ra rb va vb) in E1.
  2-3: apply Ha || apply Hb. 2-3: apply Ha || apply Hb.
  2-4: unfold shape in *; rewrite Sa, Sb.
  2: apply compatible_self. 2: apply no_zero_one_self. 2: by rewrite bshape_self.
  injection E1 as <- <-. destruct Ht as [Ht _]. rewrite alloc_ten in Ht. injection Ht as <-. cbn. unfold shape in *. by rewrite Sa, Sb, bshape_self.
Qed.

(** ** views commute with elementwise operations *)
Section views.
Variables (V : nat -> op) (ss ss' : list Z) (f : list Z -> list Z) (Q : layout -> Prop).
Hypothesis Vm : forall t, mutates (V t) = false.
Hypothesis Vok : forall h t r v, reachable h -> tensor_at h t r v -> shape r = ss -> Q (t_lay r) ->
  exists t' h', exec (V t) h = (Ok (RHandle (Some t')), h') /\ new_view h h' r t' ss' f (t_rg r).

Lemma views_of h a b ra rb va vb : reachable h -> tensor_at h a ra va -> tensor_at h b rb vb -> shape ra = ss -> shape rb = ss -> Q (t_lay ra) -> Q (t_lay rb) ->
  exists x y h' h'' rx ry, exec (V a) h = (Ok (RHandle (Some x)), h') /\ exec (V b) h' = (Ok (RHandle (Some y)), h'') /\ reachable h'' /\
    tensor_at h'' x rx (fun idx => va (f idx)) /\ tensor_at h'' y ry (fun idx => vb (f idx)) /\
    t_dt rx = t_dt ra /\ t_dt ry = t_dt rb /\ shape rx = ss' /\ shape ry = ss'.
Proof.
  intros Hr Ha Hb Sa Sb Qa Qb. destruct (Vok h a ra va Hr Ha Sa Qa) as (x & h1 & E1 & N1).
  pose proof (reach _ _ _ _ Hr E1) as R1. destruct (view_at _ _ _ _ _ _ _ va N1 (proj2 Ha)) as (rx & Hx & Dx & Sx & _).
  destruct (step_at _ _ _ _ _ _ _ (Vm a) E1 Hb) as (rb1 & Hb1 & Kb).
  destruct (Vok h1 b rb1 vb R1 Hb1) as (y & h2 & E2 & N2); [by rewrite (sd_shape _ _ Kb)|by rewrite (sd_lay _ _ Kb)|].
  pose proof (reach _ _ _ _ R1 E2) as R2. destruct (view_at _ _ _ _ _ _ _ vb N2 (proj2 Hb1)) as (ry & Hy & Dy & Sy & _).
  destruct (step_at _ _ _ _ _ _ _ (Vm b) E2 Hx) as (rx2 & Hx2 & Kx).
  exists x, y, h1, h2, rx2, ry. split_and!; try done.
  - by rewrite (sd_dt _ _ Kx).
  - by rewrite Dy, (sd_dt _ _ Kb).
  - by rewrite (sd_shape _ _ Kx).
Qed.

Lemma view_commutes B D e h a b ra rb va vb : elementwise B D e -> reachable h -> tensor_at h a ra va -> tensor_at h b rb vb ->
  shape ra = ss -> shape rb = ss -> Q (t_lay ra) -> Q (t_lay rb) -> Q (contig ss) -> fits (D (t_dt ra) (t_dt rb)) ss -> fits (D (t_dt ra) (t_dt rb)) ss' ->
  undefined (B a b) h \/
  exists t u x y z h', yields h [B a b; V t; V a; V b; B x y] [t; u; x; y; z] h' /\ same_array h' u z.
Proof.
  intros [Bm HB] Hr Ha Hb Sa Sb Qa Qb Qc F1 F2.
  destruct (HB h a b ra rb va vb ss Ha Hb Sa Sb F1) as [HOk HUb].
  destruct (all_defined_or (fun idx => e (t_dt ra) (t_dt rb) (va idx) (vb idx)) ss) as [[w Hw]|Hn].
  2:{ left. by apply HUb. }
  right. destruct (HOk w Hw) as (t & h1 & rt & E1 & Ht & Dt & Lt).
  assert (shape rt = ss) as St by (unfold shape; by rewrite Lt). pose proof (reach _ _ _ _ Hr E1) as R1.
  destruct (Vok h1 t rt w R1 Ht St) as (u & h2 & E2 & N2); [by rewrite Lt|].
  assert (forall idx, in_range ss' idx -> in_range ss (f idx)) as Vin.
  { intros idx Hi. destruct N2 as (_ & _ & r' & _ & _ & _ & _ & _ & H & _). rewrite <- St. by apply H. }
  pose proof (reach _ _ _ _ R1 E2) as R2. destruct (view_at _ _ _ _ _ _ _ w N2 (proj2 Ht)) as (ru & Hu & Du & Su & _).
  destruct (step_at _ _ _ _ _ _ _ (Bm a b) E1 Ha) as (ra1 & Ha1 & Ka1). destruct (step_at _ _ _ _ _ _ _ (Bm a b) E1 Hb) as (rb1 & Hb1 & Kb1).
  destruct (step_at _ _ _ _ _ _ _ (Vm t) E2 Ha1) as (ra2 & Ha2 & Ka2). destruct (step_at _ _ _ _ _ _ _ (Vm t) E2 Hb1) as (rb2 & Hb2 & Kb2).
  pose proof (same_data_trans _ _ _ Ka1 Ka2) as Ka. pose proof (same_data_trans _ _ _ Kb1 Kb2) as Kb.
  destruct (views_of h2 a b ra2 rb2 va vb R2 Ha2 Hb2) as (x & y & h3 & h4 & rx & ry & E3 & E4 & R4 & Hx & Hy & Dx & Dy & Sx & Sy).
  { by rewrite (sd_shape _ _ Ka). } { by rewrite (sd_shape _ _ Kb). } { by rewrite (sd_lay _ _ Ka). } { by rewrite (sd_lay _ _ Kb). }
  rewrite (sd_dt _ _ Ka) in Dx. rewrite (sd_dt _ _ Kb) in Dy.
  destruct (HB h4 x y rx ry _ _ ss' Hx Hy Sx Sy) as [HOk2 _]. { by rewrite Dx, Dy. }
  destruct (HOk2 (fun idx => w (f idx))) as (z & h5 & rz & E5 & Hz & Dz & Lz).
  { intros idx Hi. rewrite Dx, Dy. by apply Hw, Vin. }
  destruct (step_at _ _ _ _ _ _ _ (Vm a) E3 Hu) as (ru3 & Hu3 & K3). destruct (step_at _ _ _ _ _ _ _ (Vm b) E4 Hu3) as (ru4 & Hu4 & K4).
  destruct (step_at _ _ _ _ _ _ _ (Bm x y) E5 Hu4) as (ru5 & Hu5 & K5).
  pose proof (same_data_trans _ _ _ (same_data_trans _ _ _ K3 K4) K5) as Ku.
  exists t, u, x, y, z, h5. split.
  - do 5 (eapply yields_cons; [done|]). apply yields_nil.
  - exists ru5, rz, (fun idx => w (f idx)). split_and!; try done; [by rewrite (sd_dt _ _ Ku), Du, Dt, Dz, Dx, Dy|].
    rewrite (sd_shape _ _ Ku), Su. unfold shape. by rewrite Lz.
Qed.
End views.

(** ** transposition *)
Lemma exchange_length i j l : length (exchange i j l) = length l.
Proof. unfold exchange. by rewrite map_length, seq_length. Qed.
Lemma exchange_twice i j l : (i < length l)%nat -> (j < length l)%nat -> exchange i j (exchange i j l) = l.
Proof. intros Hi Hj. rewrite <- (swap_at_exchange i j l), <- swap_at_exchange by (rewrite ?swap_at_length; done). by apply swap_at_twice. Qed.
Lemma exchange_lookup i j l k : (i < length l)%nat -> (j < length l)%nat -> exchange i j l !! k = l !! (if Nat.eqb k i then j else if Nat.eqb k j then i else k).
Proof. intros Hi Hj. rewrite <- swap_at_exchange by done. by apply swap_at_lookup. Qed.
Lemma exchange_in i j ss idx : (i < length ss)%nat -> (j < length ss)%nat -> in_range ss idx -> in_range (exchange i j ss) (exchange i j idx).
Proof.
  intros Hi Hj H. pose proof (in_range_length _ _ H) as Hl. apply Forall2_same_length_lookup_2; [by rewrite !exchange_length|].
  intros k x y. rewrite !exchange_lookup by lia. apply (Forall2_lookup_lr _ _ _ _ _ _ H).
Qed.
Lemma exchange_perm i j ss : (i < length ss)%nat -> (j < length ss)%nat ->
  Permutation (map (exchange i j) (indices (exchange i j ss))) (indices ss).
Proof.
  intros Hi Hj. apply NoDup_Permutation.
  - apply NoDup_fmap_2_strong; [|apply NoDup_indices]. intros x y Hx%elem_of_indices Hy%elem_of_indices E.
    pose proof (in_range_length _ _ Hx) as Lx. pose proof (in_range_length _ _ Hy) as Ly. rewrite exchange_length in Lx, Ly.
    rewrite <- (exchange_twice i j x), E, exchange_twice by lia. done.
  - apply NoDup_indices.
  - intros idx. rewrite elem_of_list_fmap, elem_of_indices. split.
    + intros (y & -> & Hy%elem_of_indices). rewrite <- (exchange_twice i j ss) by done. apply exchange_in; by rewrite ?exchange_length.
    + intros H. pose proof (in_range_length _ _ H) as L. exists (exchange i j idx). split; [rewrite exchange_twice by lia; done|]. apply elem_of_indices. by apply exchange_in.
Qed.
Lemma exchange_prod i j ss : (i < length ss)%nat -> (j < length ss)%nat -> Forall (fun n => 0 <= n) ss -> size_prod (exchange i j ss) = size_prod ss.
Proof.
  intros Hi Hj H. pose proof (Permutation_length (exchange_perm i j ss Hi Hj)) as E. rewrite map_length in E. apply (f_equal Z.of_nat) in E.
  rewrite !length_indices in E; [done|done|]. apply Forall_lookup. intros k x. rewrite exchange_lookup by done. by apply Forall_lookup_1.
Qed.
Lemma transpose_commutes B D e h a b ra rb va vb d0 d1 : elementwise B D e -> reachable h -> tensor_at h a ra va -> tensor_at h b rb vb ->
  shape ra = shape rb -> fits (D (t_dt ra) (t_dt rb)) (shape ra) ->
  0 <= d0 < Z.of_nat (length (shape ra)) -> 0 <= d1 < Z.of_nat (length (shape ra)) -> d0 <> d1 ->
  undefined (B a b) h \/
  exists t u x y z h', yields h [B a b; OTranspose (Some t) d0 d1; OTranspose (Some a) d0 d1; OTranspose (Some b) d0 d1; B x y] [t; u; x; y; z] h' /\ same_array h' u z.
Proof.
  intros HB Hr Ha Hb Es F H0 H1 Hne.
  apply (view_commutes (fun t => OTranspose (Some t) d0 d1) (shape ra) (exchange (Z.to_nat d0) (Z.to_nat d1) (shape ra)) (exchange (Z.to_nat d0) (Z.to_nat d1)) (fun _ => True) ltac:(done)) with (D := D) (e := e) (ra := ra) (rb := rb) (va := va) (vb := vb); try done.
  - intros h1 t r v R Ht St _. rewrite <- St in *. destruct Ht as [Ht [(cs & _ & Hl & _) _]]. by apply transpose_view.
  - unfold fits in *. rewrite exchange_prod; [done|lia|lia|]. destruct Ha as [_ Ha]. by eapply holds_nonneg.
Qed.

(** ** slices *)
Lemma out_shape_le xs : forall ss, Forall (fun n => 0 <= n) ss -> all_legal ss xs -> 0 <= size_prod (out_shape ss xs) /\ (Forall (fun n => 0 < n) ss -> size_prod (out_shape ss xs) <= size_prod ss).
Proof.
  induction xs as [|x xs IH]; intros [|n ss] Hs Hl.
  - simpl. split; [lia|done]. - simpl. split; [by apply (size_prod_nonneg (n :: ss))|done]. - done.
  - apply Forall_cons in Hs as [Hn Hs]. destruct Hl as [Hx Hl]. destruct (IH ss Hs Hl) as [I1 I2]. destruct x as [i|b e s]; cbn [out_shape size_prod].
    + split; [done|]. intros [Hn' Hs']%Forall_cons. specialize (I2 Hs'). nia.
    + pose proof (sel_len_nonneg n b e s). pose proof (sel_len_le n b e s Hn Hx). split; [nia|]. intros [Hn' Hs']%Forall_cons. specialize (I2 Hs'). nia.
Qed.
Lemma contig_small ss : Forall (fun n => 0 < n) ss -> size_prod ss < two63 -> Forall (fun s => - 2 ^ 63 < s < 2 ^ 63) (strides (contig ss)).
Proof.
  intros Hp Hb. change (strides (contig ss)) with (contig_strides ss). rewrite contig_strides_exact by done. induction Hp as [|n ss Hn Hp IH]; [constructor|]. cbn [rm_strides size_prod] in *.
  pose proof (size_prod_pos _ Hp). unfold two63 in *. constructor; [nia|]. apply IH. nia.
Qed.
Lemma slice_commutes B D e h a b ra rb va vb s xs : elementwise B D e -> reachable h -> tensor_at h a ra va -> tensor_at h b rb vb ->
  shape ra = shape rb -> fits (D (t_dt ra) (t_dt rb)) (shape ra) -> Forall (fun n => 0 < n) (shape ra) -> small_strides ra -> small_strides rb ->
  subs_text s xs -> all_legal (shape ra) xs -> small_steps (shape ra) xs ->
  undefined (B a b) h \/
  exists t u x y z h', yields h [B a b; OSlice (Some t) s; OSlice (Some a) s; OSlice (Some b) s; B x y] [t; u; x; y; z] h' /\ same_array h' u z.
Proof.
  intros HB Hr Ha Hb Es F Hp Qa Qb Ht Hl Hsm.
  assert (size_prod (shape ra) < two63) as Hb63. { unfold fits in F. pose proof (size_of_pos (D (t_dt ra) (t_dt rb))). pose proof alloc_max_lt. pose proof (size_prod_pos _ Hp). nia. }
  assert (Forall (fun n => 0 < n < two63) (shape ra)) as Hb2.
  { clear -Hp Hb63. induction Hp as [|n ss Hn Hp IH]; [done|]. pose proof (size_prod_pos _ Hp). cbn [size_prod] in Hb63. constructor; [nia|]. apply IH. nia. }
  apply (view_commutes (fun t => OSlice (Some t) s) (shape ra) (out_shape (shape ra) xs) (src_index (shape ra) xs) (fun l => Forall (fun s => - 2 ^ 63 < s < 2 ^ 63) (strides l)) ltac:(done)) with (D := D) (e := e) (ra := ra) (rb := rb) (va := va) (vb := vb); try done.
  - intros h1 t r v R Ht1 St Q. rewrite <- St in *. destruct Ht1 as [Ht1 [(cs & Hbk) _]]. eapply slice_new; try done.
    + eapply Forall_impl; [exact Q|]. intros z Hz. unfold in_s64. simpl in Hz. lia.
    + eapply Forall_impl; [exact Hb2|]. simpl. intros z Hz. lia.
    + eapply subs_fit_backed; try done.
  - by apply contig_small.
  - unfold fits in *. destruct (out_shape_le xs (shape ra)) as [H1 H2]; [by eapply holds_nonneg, Ha|done|]. specialize (H2 Hp). pose proof (size_of_pos (D (t_dt ra) (t_dt rb))). nia.
Qed.
End with_fops.
