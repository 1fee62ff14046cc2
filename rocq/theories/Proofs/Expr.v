(** Expressions: the calls compute the denotation. *)
From Verif.Proofs Require Export Law3 Flags Cat ReshapeLay.
From Verif.Spec Require Export Expr Flags.
From Verif.Model Require Export Api.

Section with_fops.
Context {fo : FOps}.

Definition forward (o : op) : Prop := mutates o = false /\ no_setter o.
Definition is_arr (h : heap) (t : nat) (A : array) (b : bool) : Prop :=
  exists r, tensor_at h t r (a_v A) /\ t_dt r = a_dt A /\ shape r = a_ss A /\ t_rg r = a_rg A /\ (b = true -> roomy h r).

(** ** what calls keep *)
Lemma roomy_same h h' r r' : data_kept h h' -> same_data r r' -> roomy h r -> roomy h' r'.
Proof.
  intros [Ks _] K H. pose proof (sd_lay _ _ K) as Kl. pose proof (sd_dt _ _ K) as Kd. destruct K as (_ & _ & Ks'). unfold roomy, small_strides, shape in *. rewrite Kl. intros Hp.
  destruct (H Hp) as (H1 & H2 & cs & ((b & Hb) & Hl) & H3). split_and!; try done.
  exists cs. split; [|done]. unfold backed. rewrite Kl, Kd. split; [|done]. exists b. apply Ks. congruence.
Qed.
Lemma forward_keeps o h y h' t A b : forward o -> exec o h = (Ok y, h') -> is_arr h t A b -> is_arr h' t A b.
Proof.
  intros [Hm Hs] E (r & Ht & Hd & Hsh & Hg & Hro). pose proof (op_keeps_data h o Hm) as Hk. rewrite E in Hk. cbn in Hk.
  destruct (data_kept_at _ _ _ _ _ Hk Ht) as (r' & Ht' & K). exists r'. split; [done|].
  assert (run h [o] = (Ok [Ok y], h')) as Er by (unfold run; cbn; by rewrite E).
  destruct (flags_kept _ _ _ _ t r Er (proj1 Ht)) as (r2 & Hr2 & _ & Hg2). assert (r2 = r') as -> by (destruct Ht' as [? _]; congruence).
  rewrite (sd_dt _ _ K), (sd_shape _ _ K). split_and!; try done.
  - rewrite Hg2, <- Hg. destruct o; try done.
  - intros Hb. eapply roomy_same; [exact Hk|exact K|by apply Hro].
Qed.

(** ** new tensors are roomy *)
Lemma alloc_roomy h D ss w rg fn t r : size_prod ss < 2 ^ 62 -> holds (alloc_heap h D (contig ss) (rm_cells ss w) rg fn) r w ->
  h_ten (alloc_heap h D (contig ss) (rm_cells ss w) rg fn) !! t = Some r -> t = length (h_ten h) -> roomy (alloc_heap h D (contig ss) (rm_cells ss w) rg fn) r.
Proof.
  intros Hs Hh Hr ->. rewrite alloc_ten in Hr. injection Hr as <-. intros Hp. unfold shape in Hp. cbn in Hp. split; [|split].
  - unfold shape. cbn. by rewrite contig_strides_length.
  - apply contig_small; [done|]. unfold two63. lia.
  - destruct Hh as [(cs & (b & Hb) & Hk) _]. exists cs. split; [by split; [exists b|]|]. cbn in Hb.
    rewrite lookup_app_r, Nat.sub_diag in Hb by done. cbn in Hb. injection Hb as _ <-. rewrite rm_cells_length; [lia|]. eapply Forall_impl; [exact Hp|]. simpl. lia.
Qed.
Lemma new_arr h h1 h' t D ss rg w fn A : new_tensor h h' t D ss rg w -> h' = alloc_heap h1 D (contig ss) (rm_cells ss w) rg fn -> t = length (h_ten h1) ->
  size_prod ss < 2 ^ 62 -> a_dt A = D -> a_ss A = ss -> a_rg A = rg -> (forall idx, in_range ss idx -> a_v A idx = w idx) -> is_arr h' t A true.
Proof.
  intros N Eh Et Hs <- Es <- Hv. pose proof N as (_ & _ & r & Hr & _ & Dr & Sr & _ & Gr & _ & Hh). exists r. unfold shape. rewrite Sr. split_and!; try done.
  - eapply at_ext; [by split|]. intros idx Hi. symmetry. apply Hv. unfold shape in Hi. by rewrite Sr in Hi.
  - intros _. subst h'. by eapply alloc_roomy.
Qed.

Lemma table_spec D ss rg f A : table D ss rg f = Some A -> a_dt A = D /\ a_ss A = ss /\ a_rg A = rg /\ forall idx, in_range ss idx -> f idx = Some (a_v A idx).
Proof.
  unfold table. case_match eqn:E; [|done]. intros [= <-]. split_and!; try done. cbn. intros idx Hi. rewrite forallb_forall in E.
  specialize (E idx). rewrite <- elem_of_list_In, elem_of_indices in E. specialize (E Hi). by destruct (f idx).
Qed.
Lemma table_none D ss rg f : table D ss rg f = None -> exists idx, in_range ss idx /\ f idx = None.
Proof.
  unfold table. case_match eqn:E; [done|]. intros _. destruct (all_defined_or f ss) as [[w Hw]|H]; [|done]. exfalso.
  apply not_true_iff_false in E. apply E, forallb_forall. intros idx Hi. rewrite <- elem_of_list_In, elem_of_indices in Hi. by rewrite (Hw idx Hi).
Qed.

(** ** the steps. A call on arrays [As] gives the array of a denotation, or is undefined *)
Definition gives (o : op) (h : heap) (x : option array) (b : bool) : Prop :=
  match x with
  | Some B => exists t h', exec o h = (Ok (RHandle (Some t)), h') /\ is_arr h' t B b
  | None => exists u h', exec o h = (UB u, h') /\ step_ub u
  end.

Lemma g_arith o h a b A B ba bb : f_commutative fo -> is_arr h a A ba -> is_arr h b B bb -> compatible (a_ss A) (a_ss B) -> no_zero_one (a_ss A) (a_ss B) ->
  room (dt_join (a_dt A) (a_dt B)) (bshape (a_ss A) (a_ss B)) -> gives (exec_arith o (Some a) (Some b)) h (d_arith o A B) true.
Proof.
  intros Hcm (ra & Ha & Da & Sa & Ga & _) (rb & Hb & Db & Sb & Gb & _) Hc Hz [F R]. rewrite <- Da, <- Db, <- Sa, <- Sb in *.
  destruct (op_arith_spec o h a b ra rb _ _ (proj1 Ha) (proj1 Hb) (proj2 Ha) (proj2 Hb) Hc Hz F (fun _ => Hcm)) as [Hok _].
  destruct (arith_new o h a b (fun _ => Hcm) ra rb _ _ Ha Hb Hc Hz F) as [HOk HUb].
  unfold d_arith. rewrite <- Da, <- Db, <- Sa, <- Sb, <- Ga, <- Gb. destruct (table _ _ _ _) as [C|] eqn:ET; cbn [gives].
  - apply table_spec in ET as (E1 & E2 & E3 & Hv). destruct (HOk _ Hv) as (t & h' & E & N). exists t, h'. split; [done|].
    rewrite exec_arith_eq, new_handle_eq, (Hok _ Hv) in E. injection E as <- <-. by eapply new_arr.
  - apply table_none in ET. destruct (HUb ET) as (u & h' & E & Hu). exists u, h'. split; [done|by left].
Qed.
Lemma g_cmp c h a b A B ba bb : is_arr h a A ba -> is_arr h b B bb -> compatible (a_ss A) (a_ss B) -> no_zero_one (a_ss A) (a_ss B) ->
  room I8 (bshape (a_ss A) (a_ss B)) -> gives (OCmp c (Some a) (Some b)) h (d_cmp c A B) true.
Proof.
  intros (ra & Ha & Da & Sa & Ga & _) (rb & Hb & Db & Sb & Gb & _) Hc Hz [F R]. rewrite <- Sa, <- Sb in *.
  destruct (cmp_new c h a b ra rb _ _ Ha Hb Hc Hz F) as (t & h' & E & N). cbn [d_cmp gives]. exists t, h'. split; [done|].
  pose proof E as E'. cbn [exec] in E'. rewrite bin_some, new_handle_eq, (op_cmp_spec c h a b ra rb _ _ (proj1 Ha) (proj1 Hb) (proj2 Ha) (proj2 Hb) Hc Hz F) in E'. injection E' as <- <-.
  eapply new_arr; [exact N|reflexivity|done|done|done|cbn; congruence|done|]. intros idx Hi. cbn. by rewrite Da, Db, Sa, Sb.
Qed.
Lemma g_neg h a A ba : is_arr h a A ba -> room (dt_join I32 (a_dt A)) (a_ss A) -> gives (ONeg (Some a)) h (d_neg A) true.
Proof.
  intros (ra & Ha & Da & Sa & Ga & _) [F R]. rewrite <- Da, <- Sa in *. destruct (neg_new h a ra _ Ha F) as [HOk HUb].
  unfold d_neg. rewrite <- Da, <- Sa, <- Ga. destruct (table _ _ _ _) as [C|] eqn:ET; cbn [gives].
  - apply table_spec in ET as (E1 & E2 & E3 & Hv). destruct (HOk _ Hv) as (t & h' & E & N). exists t, h'. split; [done|].
    cbn [exec] in E. rewrite un_some, new_handle_eq in E. unfold op_neg in E. erewrite bind_ok in E by (apply create_scalar_ok). fold (scalar_heap h I32 (VI 0)) in E.
    pose proof (scalar_extends h I32 (VI 0)) as He. set (h1 := scalar_heap h I32 (VI 0)) in *. set (rz := fresh_rec h I32 (contig []) false None).
    assert (tensor_at h1 (length (h_ten h)) rz (fun _ => VI 0)) as Hz. { split; [apply alloc_ten|]. apply alloc_holds; [apply allocable_nil|done]. }
    pose proof (at_extends _ _ _ _ _ He Ha) as Ha1.
    destruct (op_arith_spec ASub h1 _ a rz ra _ _ (proj1 Hz) (proj1 Ha1) (proj2 Hz) (proj2 Ha1)) as [Hok _].
    { apply compatible_nil. } { apply no_zero_one_nil. } { change (sizes (t_lay rz)) with (@nil Z). by rewrite bshape_nil. } { done. }
    change (sizes (t_lay rz)) with (@nil Z) in Hok. rewrite bshape_nil in Hok. cbn [op_arith] in Hok. rewrite (Hok (a_v C)) in E.
    2:{ intros idx Hi. unfold arith_elem. rewrite bidx_self by done. by apply Hv. }
    injection E as <- <-. by eapply new_arr.
  - apply table_none in ET. destruct (HUb ET) as (u & h' & E & Hu). exists u, h'. split; [done|by left].
Qed.
Lemma g_cast D h a A ba : is_arr h a A ba -> room D (a_ss A) -> (a_rg A = true -> floating D = true) -> gives (OTypeTo (Some a) D) h (d_cast D A) ba.
Proof.
  intros (ra & Ha & Da & Sa & Ga & Ra) [F R] Hg. rewrite <- Sa, <- Ga in *. unfold d_cast. rewrite <- Da, <- Sa, <- Ga. destruct (decide (D = t_dt ra)) as [->|Hne].
  - destruct (table _ _ _ _) as [C|] eqn:ET; cbn [gives].
    + apply table_spec in ET as (E1 & E2 & E3 & Hv). exists a, h. split; [apply type_same; [apply Ha|done]|]. exists ra. split_and!; try done.
      eapply at_ext; [exact Ha|]. intros idx Hi. specialize (Hv idx Hi). rewrite cpp_cvt_self in Hv by (by eapply holds_ty, Hi; apply Ha). by injection Hv.
    + apply table_none in ET as (idx & Hi & Hn). rewrite cpp_cvt_self in Hn by (eapply holds_ty, Hi; apply Ha). done.
  - destruct (type_new h a ra _ D Ha F Hne Hg) as [HOk HUb].
    destruct (to_dtype_ok h a ra _ D (proj1 Ha) (proj2 Ha) F Hne) as [Hok _]. { destruct (t_rg ra); [|done]. by rewrite Hg. }
    destruct (table _ _ _ _) as [C|] eqn:ET; cbn [gives].
    + apply table_spec in ET as (E1 & E2 & E3 & Hv). destruct (HOk _ Hv) as (t & h' & E & N). exists t, h'. split; [done|].
      cbn [exec] in E. rewrite un_some, new_handle_eq, (Hok _ Hv) in E. injection E as <- <-. 
      assert (is_arr (alloc_heap h D (contig (shape ra)) (rm_cells (shape ra) (a_v C)) (t_rg ra) (clone_fn (t_rg ra) a)) (length (h_ten h)) C true) as (rx & H1 & H2 & H3 & H4 & H5) by (by eapply new_arr).
      exists rx. split_and!; try done. intros _. by apply H5.
    + apply table_none in ET. destruct (HUb ET) as (h' & E). exists FloatRange, h'. split; [done|by right].
Qed.
Lemma g_copy h a A ba : is_arr h a A ba -> room (a_dt A) (a_ss A) -> gives (OClone (Some a)) h (Some A) true.
Proof.
  intros (ra & Ha & Da & Sa & Ga & _) [F R]. rewrite <- Sa, <- Da in *. destruct (copy_new OClone h a ra _ (or_introl eq_refl) Ha F) as (t & h' & E & N).
  exists t, h'. split; [done|]. cbn [exec] in E. rewrite un_some, new_handle_eq, (clone_ok h a ra _ (proj1 Ha) (proj2 Ha) F) in E. injection E as <- <-.
  by eapply new_arr.
Qed.
Lemma g_sum h a A ba : is_arr h a A ba -> size_prod (a_ss A) < two63 -> gives (OSum (Some a)) h (d_sum A) true.
Proof.
  intros (ra & Ha & Da & Sa & Ga & _) Hp. rewrite <- Sa in Hp. unfold d_sum. rewrite <- Sa, <- Da, <- Ga.
  pose proof (sum_new h a ra _ Ha Hp) as H. pose proof (sum_ok h a ra _ (proj1 Ha) (proj2 Ha) Hp) as H0. unfold shape in *. destruct (array_sum _ _ _) as [x|]; cbn [gives].
  - destruct H as (t & h' & E & N). exists t, h'. split; [done|]. cbn [exec] in E. rewrite un_some, new_handle_eq, (proj1 H0) in E. injection E as <- <-. by eapply new_arr.
  - destruct H as (u & h' & E & Hu). exists u, h'. split; [done|by left].
Qed.
Lemma g_mean h a A ba : is_arr h a A ba -> size_prod (a_ss A) < two63 -> gives (OMean (Some a)) h (d_mean A) true.
Proof.
  intros (ra & Ha & Da & Sa & Ga & _) Hp. rewrite <- Sa in Hp. unfold d_mean. rewrite <- Sa, <- Da, <- Ga.
  pose proof (mean_new h a ra _ Ha Hp) as H. pose proof (mean_ok h a ra _ (proj1 Ha) (proj2 Ha) Hp) as H0. unfold shape in *. destruct (array_mean _ _ _) as [x|]; cbn [gives].
  - destruct H as (t & h' & E & N). exists t, h'. split; [done|]. cbn [exec] in E. rewrite un_some, new_handle_eq, (proj1 H0) in E. injection E as <- <-. by eapply new_arr.
  - destruct H as (u & h' & E & Hu). exists u, h'. split; [done|by left].
Qed.

(** ** views *)
Lemma view_roomy h h' r t' ss f rg v r' cs : new_view h h' r t' ss f rg -> h_ten h' !! t' = Some r' -> holds h r v -> backed h r cs -> Z.of_nat (length cs) < 2 ^ 62 ->
  (Forall (fun n => 0 < n) (shape r') -> length (strides (t_lay r')) = length (shape r') /\ small_strides r') -> roomy h' r'.
Proof.
  intros (Kd & _ & x & Hx & Dx & Sx & Hs & _ & _ & Hh) Hr' Hv ((b & Hb) & Hk) Hn Hp Hpos. assert (x = r') as -> by congruence. destruct (Hp Hpos) as [H1 H2]. split_and!; try done.
  destruct (Hh _ Hv) as [(cs' & (b' & Hb') & Hk') _]. exists cs'. split; [by split; [exists b'|]|].
  destruct Kd as [Ks _]. specialize (Ks _ _ Hb). rewrite Sx, Ks in Hb'. injection Hb' as _ _ <-. done.
Qed.
Lemma exchange_pos i j ss : (i < length ss)%nat -> (j < length ss)%nat -> Forall (fun n => 0 < n) (exchange i j ss) -> Forall (fun n => 0 < n) ss.
Proof.
  intros Hi Hj H. rewrite <- (exchange_twice i j ss) by done. rewrite <- (swap_at_exchange i j (exchange i j ss)) by (by rewrite exchange_length).
  apply View.Forall_swap; [done|by rewrite exchange_length..].
Qed.
Lemma g_transpose d0 d1 h a A ba : reachable h -> is_arr h a A ba -> 0 <= d0 < Z.of_nat (length (a_ss A)) -> 0 <= d1 < Z.of_nat (length (a_ss A)) -> d0 <> d1 ->
  gives (OTranspose (Some a) d0 d1) h (d_transpose d0 d1 A) ba.
Proof.
  intros Hr (ra & Ha & Da & Sa & Ga & Ra) H0 H1 Hne. rewrite <- Sa in H0, H1.
  assert (lay_ok (t_lay ra)) as Hok by (destruct Ha as [_ [(cs & _ & ? & _) _]]; done).
  destruct (transpose_new h a ra d0 d1 (proj1 Ha)) as (t & h' & r' & E & N & Hr' & L); try done.
  { intros g Hg. eapply (reachable_grads_exist h); [done|apply Ha|done]. }
  cbn [d_transpose gives]. exists t, h'. split; [done|]. destruct (view_at _ _ _ _ _ _ _ _ N (proj2 Ha)) as (rx & Hx & Dx & Sx & Gx).
  assert (rx = r') as -> by (destruct Hx; congruence). exists r'. cbn. split_and!; [done|congruence|by rewrite Sx, Sa|congruence|].
  intros Hb. specialize (Ra Hb). assert (Z.to_nat d0 < length (shape ra))%nat as L0 by lia. assert (Z.to_nat d1 < length (shape ra))%nat as L1 by lia.
  destruct (decide (Forall (fun n => 0 < n) (shape ra))) as [Hp|Hp].
  - destruct (Ra Hp) as (Q1 & Q2 & cs & Q3 & Q4). eapply view_roomy; [exact N|done|apply Ha|exact Q3|done|]. intros _. unfold small_strides, shape in *. rewrite L. cbn [swap_lay strides sizes]. rewrite !swap_at_length. split; [done|].
    apply View.Forall_swap; [done|lia|lia].
  - intros Hp'. exfalso. apply Hp. rewrite Sx in Hp'. eapply exchange_pos; [exact L0|exact L1|exact Hp'].
Qed.
Lemma sel_strides ss : forall sts xs off N, (length ss <= length sts)%nat ->
  Forall (fun n => 0 < n < 2 ^ 63) ss -> Forall (fun s => - 2 ^ 63 < s < 2 ^ 63) sts ->
  (forall idx, in_range ss idx -> 0 <= off + dot sts idx < N) -> N <= 2 ^ 63 ->
  all_legal ss xs -> small_steps ss xs -> Forall (fun n => 0 < n) (out_shape ss xs) -> Forall (fun s => - 2 ^ 63 < s < 2 ^ 63) (sel_lay ss sts xs).1.2.
Proof.
  induction ss as [|n ss IH]; intros sts xs off N Hl Hpos Hst Hin HN Hleg Hsm Hout; [destruct sts; constructor|].
  destruct sts as [|st sts]; [done|]. simpl in Hl.
  apply Forall_cons_1 in Hpos as [Hn Hpos]. apply Forall_cons_1 in Hst as [Hs Hst].
  assert (forall i, 0 <= i < n -> - 2 ^ 63 < st * i < 2 ^ 63) as Hi.
  { intros i Hi. assert (in_range (n :: ss) (i :: map (fun _ => 0) ss)) as H1 by (apply Forall2_cons_2; [lia|eapply in_range_zeros, Forall_impl; [exact Hpos|simpl; lia]]).
    assert (in_range (n :: ss) (0 :: map (fun _ => 0) ss)) as H2 by (apply Forall2_cons_2; [lia|eapply in_range_zeros, Forall_impl; [exact Hpos|simpl; lia]]).
    apply Hin in H1. apply Hin in H2. simpl in H1, H2. rewrite dot_zeros in H1, H2. lia. }
  assert (forall idx, in_range ss idx -> 0 <= off + dot sts idx < N) as Hin'.
  { intros idx H. assert (in_range (n :: ss) (0 :: idx)) as H1 by (apply Forall2_cons_2; [lia|done]).
    apply Hin in H1. simpl in H1. lia. }
  cbn [sel_lay]. destruct xs as [|x xs]; cbn [tail].
  - rewrite dim_whole by lia. destruct (Z.eqb_spec n 0) as [|_]; [lia|]. cbn [fst snd]. constructor; [done|]. eapply IH; try done; [lia|by destruct ss|by destruct ss|].
    destruct ss; [constructor|]. eapply Forall_impl; [exact Hpos|]. simpl. lia.
  - destruct Hleg as [Hx Hleg]. destruct x as [i|b e s]; cbn [small_steps out_shape] in *.
    + cbn [dim_res fst snd]. eapply IH; try done; lia.
    + destruct Hsm as [Hsm1 Hsm]. apply Forall_cons_1 in Hout as [Ho Hout]. cbn [dim_res]. destruct (Z.eqb_spec (sel_len n b e s) 0) as [|_]; [lia|]. cbn [fst snd].
      constructor; [|eapply IH; try done; lia]. destruct Hsm1 as [E|E].
      * assert (py_step s = 1 \/ py_step s = -1) as [-> | ->] by lia; lia.
      * specialize (Hi (Z.abs (py_step s)) ltac:(lia)). lia.
Qed.
Lemma g_slice s xs h a A : reachable h -> is_arr h a A true -> subs_text s xs -> Forall (fun n => 0 < n < two63) (a_ss A) -> all_legal (a_ss A) xs -> small_steps (a_ss A) xs ->
  gives (OSlice (Some a) s) h (d_slice xs A) true.
Proof.
  intros Hr (ra & Ha & Da & Sa & Ga & Ra) Htx Hp Hleg Hsm. specialize (Ra eq_refl). rewrite <- Sa in *.
  destruct Ra as (Q1 & Q2 & cs & Q3 & Q4). { eapply Forall_impl; [exact Hp|]. simpl. lia. }
  assert (Forall (fun n => 0 < n < 2 ^ 63) (shape ra)) as Hp' by exact Hp. unfold small_strides in Q2.
  pose proof (subs_fit_backed h ra cs xs Q3 Hp' Q2 Hleg Hsm) as Hfit. pose proof Q3 as (Hb & Hok & Hin & Hn). unfold shape in *.
  assert (slice_layout (t_lay ra) s = Ok (sel_layout (t_lay ra) xs)) as El.
  { apply slice_layout_text; try done; [eapply Forall_impl; [exact Q2|]; unfold in_s64; simpl; lia|eapply Forall_impl; [exact Hp|]; simpl; lia]. }
  destruct (sel_layout_ok _ _ Hok Hleg) as [Hok' Es].
  destruct (view_op_new (OSlice (Some a) s) h a ra (sel_layout (t_lay ra) xs) (src_index (sizes (t_lay ra)) xs)) as (t' & h' & r' & E & Hv & Hr' & L); try done.
  { apply Ha. }
  { intros g Hg. eapply (reachable_grads_exist h); [done|apply Ha|done]. }
  { apply exec_slice; [apply Ha|done]. }
  { intros idx Hi. rewrite Es in Hi. eapply sel_layout_pos; try done. unfold two63, two64 in *. lia. }
  rewrite Es in Hv. cbn [d_slice gives]. exists t', h'. split; [done|]. destruct (view_at _ _ _ _ _ _ _ _ Hv (proj2 Ha)) as (rx & Hx & Dx & Sx & Gx).
  assert (rx = r') as -> by (destruct Hx; congruence). exists r'. cbn. unfold shape in *. split_and!; [by rewrite <- Sa|congruence|by rewrite Sx, Sa|congruence|].
  intros _. eapply view_roomy; [exact Hv|done|apply Ha|exact Q3|done|]. unfold small_strides, shape. rewrite L, Es. intros Hpo. cbn [sel_layout strides].
  destruct (sel_lay_shape (sizes (t_lay ra)) (strides (t_lay ra)) xs) as [_ E2]; [lia|done|eapply Forall_impl; [exact Hp|]; simpl; lia|]. split; [done|].
  apply (sel_strides _ _ _ (offset (t_lay ra)) (Z.of_nat (length cs))); try done; [lia|unfold two63 in Hn; lia].
Qed.
Lemma roomy_plain h r : roomy h r -> Forall (fun n => 0 < n < two63) (shape r) -> plain_lay (t_lay r).
Proof.
  intros H Hp. destruct H as (Q1 & Q2 & cs & (_ & _ & Hin & _) & Q4). { eapply Forall_impl; [exact Hp|]. simpl. lia. }
  unfold plain_lay, small_strides, shape in *. revert Hin Q1 Q2 Hp. unfold lay_in, pos. generalize (offset (t_lay r)), (strides (t_lay r)), (sizes (t_lay r)). intros off sts ss.
  revert sts. induction ss as [|n ss IH]; intros [|st sts] Hin Hl Hst Hpos; try done.
  apply Forall_cons_1 in Hpos as [Hn Hpos]. apply Forall_cons_1 in Hst as [Hs Hst].
  assert (forall idx, in_range ss idx -> 0 <= off + dot sts idx < Z.of_nat (length cs)) as Hin'.
  { intros idx Hi. assert (in_range (n :: ss) (0 :: idx)) as H1 by (apply Forall2_cons_2; [lia|done]). apply Hin in H1. simpl in H1. lia. }
  constructor; [|apply IH; try done; simpl in Hl; lia].
  assert (in_range (n :: ss) (n - 1 :: map (fun _ => 0) ss)) as H1 by (apply Forall2_cons_2; [lia|eapply in_range_zeros, Forall_impl; [exact Hpos|simpl; lia]]).
  assert (in_range (n :: ss) (0 :: map (fun _ => 0) ss)) as H2 by (apply Forall2_cons_2; [lia|eapply in_range_zeros, Forall_impl; [exact Hpos|simpl; lia]]).
  apply Hin in H1. apply Hin in H2. simpl in H1, H2. rewrite dot_zeros in H1, H2. unfold in_ll, two63 in *. split; [|lia].
  destruct (decide (n = 1)) as [->|]; [lia|]. assert (Z.abs (st * n) <= 2 * Z.abs (st * (n - 1))) by nia. lia.
Qed.
Lemma sf_small l ss : Forall (fun n => 0 < n) ss -> Z.abs l * size_prod ss < two63 ->
  nth 0 (strides_from l ss) 0 = (match ss with [] => 0 | _ => l * size_prod (tail ss) end) /\ Forall (fun s => - 2 ^ 63 < s < 2 ^ 63) (strides_from l ss).
Proof.
  intros Hp. induction Hp as [|n ss Hn Hp IH]; intros Hb; [split; [done|constructor]|]. pose proof (size_prod_pos _ Hp) as Hpp. cbn [size_prod tail] in *.
  assert (Z.abs l * size_prod ss < two63) as Hb' by nia. destruct (IH Hb') as [H1 H2]. destruct ss as [|m ss].
  - cbn [strides_from nth size_prod] in *. split; [lia|]. constructor; [|constructor]. unfold two63 in *. lia.
  - change (strides_from l (n :: m :: ss)) with (s64 (u64 (nth 0 (strides_from l (m :: ss)) 0 * m)) :: strides_from l (m :: ss)). rewrite H1. cbn [tail].
    assert (s64 (u64 (l * size_prod ss * m)) = l * size_prod (m :: ss)) as E.
    { rewrite s64_u64. cbn [size_prod] in *. replace (l * size_prod ss * m) with (l * (m * size_prod ss)) by ring. apply s64_id. assert (Z.abs (l * (m * size_prod ss)) < two63) by (rewrite Z.abs_mul, (Z.abs_eq (m * size_prod ss)) by lia; lia). lia. }
    rewrite E. split; [done|]. constructor; [|done]. assert (Z.abs (l * size_prod (m :: ss)) < two63) by (rewrite Z.abs_mul, (Z.abs_eq (size_prod (m :: ss))) by lia; lia). unfold two63 in *. lia.
Qed.
Lemma resh_roomy h h' r r' v w ss : data_kept h h' -> holds h r v -> holds h' r' w -> t_dt r' = t_dt r -> shape r' = ss -> ss <> [] -> length (strides (t_lay r')) = length ss ->
  roomy h r -> Forall (fun n => 0 < n < two63) (shape r) -> size_prod (shape r) < 2 ^ 62 -> size_prod ss = size_prod (shape r) -> resh_form h' r r' ss -> roomy h' r'.
Proof.
  intros Kd Hv Hw Dr Sr Hne Hl Hro Hp Hb Hs Hf Hpos. rewrite Sr in *. destruct Hro as (Q1 & Q2 & cs & Q3 & Q4). { eapply Forall_impl; [exact Hp|]. simpl. lia. }
  assert (forall b c, h_sto h' !! t_sto r' = Some (Sto (t_dt r') b (Some c)) -> Z.of_nat (length c) < 2 ^ 62 -> exists c, backed h' r' c /\ Z.of_nat (length c) < 2 ^ 62) as Hbk.
  { intros b c Hc Hn. destruct Hw as [(c' & (b' & Hb') & Hk) _]. exists c'. split; [by split; [exists b'|]|]. rewrite Hc in Hb'. injection Hb' as _ <-. done. }
  assert (t_sto r' = t_sto r -> exists c, backed h' r' c /\ Z.of_nat (length c) < 2 ^ 62) as Hsame.
  { intros E. pose proof Q3 as ((b & Hbb) & _). eapply (Hbk b cs); [|done]. rewrite E, Dr. by apply Kd. }
  destruct Hf as [(Es & [->|[E|(l & Hi & Hla & E)]])|(E & b & c & Hc & Hn)].
  - done.
  - split_and!; [done| |by apply Hsame]. unfold small_strides. rewrite E. apply Forall_map, Forall_true. intros x. simpl. lia.
  - split_and!; [done| |by apply Hsame]. unfold small_strides. rewrite E. apply sf_small; [done|].
    pose proof Q3 as (_ & Hok & Hin & _). unfold shape in *.
    assert (Forall (fun n => 0 < n) (sizes (t_lay r))) as Hgt by (eapply Forall_impl; [exact Hp|]; simpl; lia).
    destruct (isometry_dot (sizes (t_lay r)) (strides (t_lay r)) true) as (l' & Hl' & _ & Hdot); try done.
    { eapply Forall_impl; [exact Hp|]. simpl. lia. } { intros E0. rewrite E0 in Q1. destruct (strides (t_lay r)); done. }
    assert (l' = l) as -> by congruence. pose proof (Hin _ (in_range_zeros _ Hgt)) as B1. pose proof (Hin _ (in_range_last _ Hgt)) as B2.
    unfold pos in B1, B2. rewrite (Hdot _ (in_range_zeros _ Hgt)), row_major_zeros in B1. rewrite (Hdot _ (in_range_last _ Hgt)), row_major_last in B2.
    pose proof (size_prod_pos _ Hgt) as Hpp. rewrite Hs. assert (Z.abs l * (size_prod (sizes (t_lay r)) - 1) < 2 ^ 62) as Hx by (destruct (Z.abs_spec l) as [[_ ->]|[_ ->]]; lia).
    assert (- 2 ^ 63 < l < 2 ^ 63) as Hsm. { apply last_Some in Hla as (pre & Hla). unfold small_strides in Q2. rewrite Hla in Q2. apply Forall_app in Q2 as [_ Q2]. by inversion Q2. }
    unfold two63. destruct (decide (size_prod (sizes (t_lay r)) = 1)) as [->|]; [lia|]. nia.
  - split_and!; [done| |]. { unfold small_strides. rewrite E. apply (contig_small ss); [done|]. rewrite Hs. unfold two63. lia. }
    eapply (Hbk b c); [by rewrite Dr|]. lia.
Qed.
Lemma g_reshape xs ss h a A : reachable h -> is_arr h a A true -> Forall in_ll xs -> Forall (fun n => 0 < n < two63) (a_ss A) -> room (a_dt A) (a_ss A) ->
  asks_for xs (size_prod (a_ss A)) ss -> (wildcards xs = 1%nat -> 0 < given xs < 2 ^ 64) -> (a_rg A = true -> a_ss A = [] -> xs = []) ->
  gives (OReshape (Some a) xs) h (d_reshape ss A) (match ss with [] => false | _ => true end).
Proof.
  intros Hr (ra & Ha & Da & Sa & Ga & Ra) Hll Hp [F R] Hask Hw Hg. rewrite <- Sa, <- Da, <- Ga in *.
  destruct (reshape_new h a ra _ xs ss Hr Ha (roomy_plain _ _ (Ra eq_refl) Hp) F Hask Hll Hw Hg) as (t & h' & E & Kd & _ & r' & w & Hr' & Dr & Sr & Gr & Hh & Hseq).
  cbn [d_reshape gives]. exists t, h'. split; [done|]. exists r'. cbn. split_and!; try done; [|congruence|congruence|].
  - apply (at_ext _ _ _ w); [by split|]. rewrite Sr, <- Sa, <- Hseq. intros idx Hi.
    symmetry. apply nth_lookup_Some. rewrite list_lookup_fmap, (indices_lookup ss idx) by done. reflexivity.
  - intros Hss. destruct (reshape_form h a ra _ xs ss t h' (proj1 Ha) (proj2 Ha) F Hask Hll Hw E) as (r2 & Hr2 & Hf). assert (r2 = r') as -> by congruence.
    assert (ss <> []) as Hne by (by destruct ss).
    eapply (resh_roomy h h' ra r'); [done|apply Ha|exact Hh|done|done|done| |by apply Ra|done|done|apply Hask|exact Hf].
    destruct Hf as [(_ & [?|[-> |(l & _ & _ & ->)]])|(-> & _)]; [done|apply map_length|apply strides_from_length|apply contig_strides_length].
Qed.
Lemma g_cat d h a b A B ba bb : is_arr h a A ba -> is_arr h b B bb -> (d < length (a_ss A))%nat -> same_but d (a_ss A) (a_ss B) ->
  let ss := <[d := nth d (a_ss A) 0 + nth d (a_ss B) 0]> (a_ss A) in
  Forall (fun n => n < two64) ss -> room (dt_join (a_dt A) (a_dt B)) ss -> gives (OCat [Some a; Some b] (Z.of_nat d)) h (d_cat d A B) true.
Proof.
  intros (ra & Ha & Da & Sa & Ga & _) (rb & Hb & Db & Sb & Gb & _) Hd Hsame ss H64 [F R].
  assert (cat_shape d ra [ra; rb] = ss) as Cs. { unfold cat_shape, sizes_along, ss. cbn [map total_len fold_right]. rewrite Sa, Sb. f_equal. lia. }
  assert (cat_type ra [ra; rb] = dt_join (a_dt A) (a_dt B)) as Ct. { unfold cat_type. cbn [fold_left]. by rewrite Da, Db, dt_join_self. }
  assert (existsb t_rg [ra; rb] = a_rg A || a_rg B) as Cg by (cbn; by rewrite Ga, Gb, orb_false_r).
  pose proof (cat_new h [a; b] [ra; rb] [a_v A; a_v B] ra [rb] (Z.of_nat d)) as HC. pose proof (cat_ok h [a; b] [ra; rb] [a_v A; a_v B] ra [rb] (Z.of_nat d)) as HK.
  cbv zeta in HC, HK. rewrite !Nat2Z.id, Cs, Ct, Cg in HC, HK.
  assert (Forall2 (fun t r => h_ten h !! t = Some r) [a; b] [ra; rb]) as P1 by (constructor; [apply Ha|constructor; [apply Hb|constructor]]).
  assert (Forall2 (holds h) [ra; rb] [a_v A; a_v B]) as P2 by (constructor; [apply Ha|constructor; [apply Hb|constructor]]).
  assert (Forall (fun r => same_but d (shape ra) (shape r)) [ra; rb]) as P3. { constructor; [by split|constructor; [by rewrite Sa, Sb|constructor]]. }
  assert (0 <= Z.of_nat d < Z.of_nat (length (shape ra))) as P4 by (rewrite Sa; lia).
  destruct (HC P1 P2 eq_refl P4 P3 H64 F) as (t & h' & w & E & N & Hw). destruct (HK P1 P2 eq_refl P4 P3 H64 F) as (w' & Hw' & E'). clear HC HK.
  assert (exec (OCat [Some a; Some b] (Z.of_nat d)) h = new_handle (op_cat [a; b] (Z.of_nat d)) h) as Ex by (cbn [exec]; by erewrite bind_ok by (apply (deref_all_some [a; b]))).
  cbn [map] in E. rewrite Ex, new_handle_eq, E' in E. injection E as <- <-.
  assert (forall idx, in_range ss idx -> (if nth d idx 0 <? nth d (a_ss A) 0 then cpp_cvt (a_dt A) (dt_join (a_dt A) (a_dt B)) (a_v A idx)
      else cpp_cvt (a_dt B) (dt_join (a_dt A) (a_dt B)) (a_v B (<[d := nth d idx 0 - nth d (a_ss A) 0]> idx))) = Some (w' idx)) as Hdef.
  { intros idx Hi. specialize (Hw' idx Hi). rewrite <- Hw'. unfold cat_elem, sizes_along. cbn [map owner]. rewrite Sa, Sb.
    destruct (nth d idx 0 <? nth d (a_ss A) 0) eqn:Ei.
    - simpl. rewrite Da, list_insert_id; [done|]. pose proof (in_range_length _ _ Hi) as Hl. unfold ss in Hl. rewrite insert_length in Hl.
      destruct (nth_lookup_or_length idx d 0) as [H|H]; [done|lia].
    - destruct (nth d idx 0 - nth d (a_ss A) 0 <? nth d (a_ss B) 0) eqn:Ej; [simpl; by rewrite Db|]. exfalso.
      pose proof (in_range_length _ _ Hi) as Hl. unfold ss in Hl, Hi. rewrite insert_length in Hl.
      destruct (nth_lookup_or_length idx d 0) as [H|H]; [|lia]. pose proof (Forall2_lookup_lr _ _ _ _ _ _ Hi (list_lookup_insert _ _ _ Hd) H) as Hx. simpl in Hx. lia. }
  unfold d_cat. destruct (table _ _ _ _) as [C|] eqn:ET; cbn [gives].
  - apply table_spec in ET as (E1 & E2 & E3 & Hv). eexists _, _. split; [rewrite Ex, new_handle_eq, E'; reflexivity|].
    assert (forall idx, in_range ss idx -> a_v C idx = w' idx) as Hvv. { intros idx Hi. specialize (Hv idx Hi). cbv beta zeta in Hv. rewrite (Hdef idx Hi) in Hv. by injection Hv. }
    assert (forall idx, in_range ss idx -> w' idx = w idx) as Hww.
    { intros idx Hi. destruct (Hw idx Hi) as (k & j & rk & vk & Ho & Hrk & Hvk & _ & Hc). specialize (Hw' idx Hi). unfold cat_elem in Hw'. rewrite Ho, Hrk, Hvk, Hc in Hw'. congruence. }
    assert (rm_cells ss w' = rm_cells ss w) as Erm. { unfold rm_cells. apply map_ext_in. intros idx Hi. rewrite <- elem_of_list_In, elem_of_indices in Hi. by rewrite Hww. }
    eapply new_arr; [exact N|by rewrite Erm|done|done|done|done|done|]. intros idx Hi. by rewrite Hvv, Hww.
  - apply table_none in ET as (idx & Hi & Hn). cbv beta zeta in Hn. rewrite (Hdef idx Hi) in Hn. done.
Qed.

(** ** expressions *)
Definition keeps (h h' : heap) : Prop := forall t A b, is_arr h t A b -> is_arr h' t A b.
Definition computes (m : M heap nat) (h : heap) (x : option array) (b : bool) : Prop :=
  match x with
  | Some A => exists t h', m h = (Ok t, h') /\ reachable h' /\ is_arr h' t A b /\ keeps h h'
  | None => exists u h', m h = (UB u, h') /\ step_ub u
  end.
Lemma call_computes o h x b : reachable h -> forward o -> gives o h x b -> computes (call o) h x b.
Proof.
  intros Hr Hf. unfold gives, computes, call. destruct x as [A|].
  - intros (t & h' & E & Ha). exists t, h'. rewrite E. split; [done|]. split; [by eapply Law.reach|]. split; [done|]. intros t2 A2 b2. by eapply forward_keeps.
  - intros (u & h' & E & Hu). exists u, h'. by rewrite E.
Qed.
Lemma computes_bind (m : M heap nat) f h x b g b' : computes m h x b ->
  (forall A t h', x = Some A -> reachable h' -> keeps h h' -> is_arr h' t A b -> computes (f t) h' (g A) b') ->
  computes (bind m f) h (bind1 x g) b'.
Proof.
  intros Hm Hf. destruct x as [A|]; cbn [bind1 computes] in *.
  - destruct Hm as (t & h1 & E & R & Ha & K). specialize (Hf A t h1 eq_refl R K Ha). destruct (g A) as [B|]; cbn [computes] in *.
    + destruct Hf as (t2 & h2 & E2 & R2 & Hb & K2). exists t2, h2. erewrite bind_ok by exact E. split; [done|]. split; [done|]. split; [done|]. intros t3 A3 b3 H. by apply K2, K.
    + destruct Hf as (u & h2 & E2 & Hu). exists u, h2. by erewrite bind_ok by exact E.
  - destruct Hm as (u & h1 & E & Hu). exists u, h1. by erewrite bind_ub by exact E.
Qed.
Lemma arith_forward o x y : forward (exec_arith o x y). Proof. by destruct o. Qed.
Lemma eval_ok (env : nat -> option array) e : f_commutative fo -> forall h, reachable h -> (forall t A, env t = Some A -> is_arr h t A true) -> accepted env e ->
  computes (eval e) h (den env e) (ready e).
Proof.
  intros Hcm. assert (forall a g b' (f : nat -> M heap nat) h,
    (forall h, reachable h -> (forall t A, env t = Some A -> is_arr h t A true) -> accepted env a -> computes (eval a) h (den env a) (ready a)) ->
    reachable h -> (forall t A, env t = Some A -> is_arr h t A true) -> accepted env a ->
    (forall A t h', den env a = Some A -> reachable h' -> (forall t A, env t = Some A -> is_arr h' t A true) -> is_arr h' t A (ready a) -> computes (f t) h' (g A) b') ->
    computes (bind (eval a) f) h (bind1 (den env a) g) b') as H1.
  { intros a g b' f h IH R L Hac Hf. eapply computes_bind; [by apply IH|]. intros A t h' EA R' K Ha. apply Hf; try done. intros t2 A2 H2. by apply K, L. }
  assert (forall a b g b' (f : nat -> nat -> op) h,
    (forall h, reachable h -> (forall t A, env t = Some A -> is_arr h t A true) -> accepted env a -> computes (eval a) h (den env a) (ready a)) ->
    (forall h, reachable h -> (forall t A, env t = Some A -> is_arr h t A true) -> accepted env b -> computes (eval b) h (den env b) (ready b)) ->
    reachable h -> (forall t A, env t = Some A -> is_arr h t A true) -> accepted env a -> accepted env b ->
    (forall x y, forward (f x y)) ->
    (forall A B t u h', den env a = Some A -> den env b = Some B -> is_arr h' t A (ready a) -> is_arr h' u B (ready b) -> gives (f t u) h' (g A B) b') ->
    computes (let! x := eval a in let! y := eval b in call (f x y)) h (bind2 (den env a) (den env b) g) b') as H2.
  { intros a b g b' f h IHa IHb R L Ha Hb Hfw Hf. unfold bind2. apply H1; [done..|]. intros A t h1 EA R1 L1 Ht.
    eapply computes_bind; [by apply IHb|]. intros B u h2 EB R2 K2 Hu. apply call_computes; [done|done|]. apply Hf; try done. by apply K2. }
  induction e as [t|o a IHa b IHb|c a IHa b IHb|a IHa|a IHa D|a IHa|a IHa|a IHa|a IHa d0 d1|a IHa s xs|a IHa xs ss|a IHa b IHb d]; intros h R L Hac; cbn [eval den ready accepted] in *.
  - destruct (env t) as [A|] eqn:EA; [|done]. exists t, h. split; [done|]. split; [done|]. split; [by apply L|]. by intros ???.
  - destruct Hac as (Ha & Hb & Hon). apply (H2 a b _ _ (fun x y => exec_arith o (Some x) (Some y))); try done; [intros; apply arith_forward|].
    intros A B t u h' EA EB Ht Hu. destruct (Hon A B EA EB) as (C1 & C2 & C3). by eapply g_arith.
  - destruct Hac as (Ha & Hb & Hon). apply (H2 a b _ _ (fun x y => OCmp c (Some x) (Some y))); try done.
    intros A B t u h' EA EB Ht Hu. destruct (Hon A B EA EB) as (C1 & C2 & C3). by eapply g_cmp.
  - destruct Hac as (Ha & Hon). apply H1; try done. intros A t h' EA R' L' Ht. apply call_computes; [done|done|]. eapply g_neg; [done|by apply Hon].
  - destruct Hac as (Ha & Hon). apply H1; try done. intros A t h' EA R' L' Ht. apply call_computes; [done|done|]. destruct (Hon A EA) as [C1 C2]. by eapply g_cast.
  - destruct Hac as (Ha & Hon). replace (den env a) with (bind1 (den env a) Some) by (by destruct (den env a)). apply H1; try done.
    intros A t h' EA R' L' Ht. apply call_computes; [done|done|]. eapply g_copy; [done|by apply Hon].
  - destruct Hac as (Ha & Hon). apply H1; try done. intros A t h' EA R' L' Ht. apply call_computes; [done|done|]. eapply g_sum; [done|by apply Hon].
  - destruct Hac as (Ha & Hon). apply H1; try done. intros A t h' EA R' L' Ht. apply call_computes; [done|done|]. eapply g_mean; [done|by apply Hon].
  - destruct Hac as (Ha & Hon). apply H1; try done. intros A t h' EA R' L' Ht. apply call_computes; [done|done|]. destruct (Hon A EA) as (C1 & C2 & C3). by apply g_transpose.
  - destruct Hac as (Ha & Hre & Htx & Hon). rewrite Hre in *. apply H1; try done; [by rewrite Hre|]. intros A t h' EA R' L' Ht. rewrite Hre in Ht. apply call_computes; [done|done|].
    destruct (Hon A EA) as (C1 & C2 & C3). by apply g_slice.
  - destruct Hac as (Ha & Hre & Hll & Hon). rewrite Hre in *. apply H1; try done; [by rewrite Hre|]. intros A t h' EA R' L' Ht. rewrite Hre in Ht. apply call_computes; [done|done|].
    destruct (Hon A EA) as (C1 & C2 & C3 & C4 & C5). by apply g_reshape.
  - destruct Hac as (Ha & Hb & Hon). apply (H2 a b _ _ (fun x y => OCat [Some x; Some y] (Z.of_nat d))); try done.
    intros A B t u h' EA EB Ht Hu. destruct (Hon A B EA EB) as (C1 & C2 & C3 & C4). by eapply g_cat.
Qed.

Lemma is_has h t A b : is_arr h t A b -> has_arr h t A.
Proof. intros (r & H1 & H2 & H3 & H4 & _). by exists r. Qed.
Lemma has_is h t A : has_arr h t A -> is_arr h t A false.
Proof. intros (r & H1 & H2 & H3 & H4). by exists r. Qed.
Lemma leaves_is h env : leaves_ok h env <-> forall t A, env t = Some A -> is_arr h t A true.
Proof.
  split.
  - intros L t A EA. destruct (L t A EA) as [(r & H1 & H2 & H3 & H4) Hr]. exists r. split_and!; try done. intros _. apply Hr, H1.
  - intros L t A EA. pose proof (L t A EA) as H. split; [by eapply is_has|]. intros r Hr. destruct H as (r' & [H1 _] & _ & _ & _ & H5). assert (r' = r) as -> by congruence. by apply H5.
Qed.
Lemma expr_den (env : nat -> option array) e h : f_commutative fo -> reachable h -> leaves_ok h env -> accepted env e ->
  match den env e with
  | Some A => exists t h', eval e h = (Ok t, h') /\ has_arr h' t A /\ reachable h' /\ leaves_ok h' env /\ forall u B, has_arr h u B -> has_arr h' u B
  | None => exists u h', eval e h = (UB u, h') /\ step_ub u
  end.
Proof.
  intros Hcm R L Hac. pose proof (proj1 (leaves_is h env) L) as L'. pose proof (eval_ok env e Hcm h R L' Hac) as H. destruct (den env e) as [A|]; cbn [computes] in H; [|done].
  destruct H as (t & h' & E & R' & Ha & K). exists t, h'. split; [done|]. split; [by eapply is_has|]. split; [done|]. split.
  - apply leaves_is. intros u B EB. by apply K, L'.
  - intros u B HB. eapply is_has, K, has_is, HB.
Qed.
Lemma expr_same (env : nat -> option array) e1 e2 A B h : f_commutative fo -> reachable h -> leaves_ok h env -> accepted env e1 -> accepted env e2 ->
  den env e1 = Some A -> den env e2 = Some B -> arr_eq A B ->
  exists t h1 u h2, eval e1 h = (Ok t, h1) /\ eval e2 h1 = (Ok u, h2) /\ same_array h2 t u.
Proof.
  intros Hcm R L A1 A2 D1 D2 (E1 & E2 & E3). pose proof (expr_den env e1 h Hcm R L A1) as H1. rewrite D1 in H1. destruct H1 as (t & h1 & Ev1 & Ht & R1 & L1 & _).
  pose proof (expr_den env e2 h1 Hcm R1 L1 A2) as H2. rewrite D2 in H2. destruct H2 as (u & h2 & Ev2 & Hu & R2 & L2 & K). exists t, h1, u, h2. split; [done|]. split; [done|].
  destruct (K _ _ Ht) as (rt & At & Dt & St & _). destruct Hu as (ru & Au & Du & Su & _). exists rt, ru, (a_v A). split_and!; try congruence.
  eapply at_ext; [exact Au|]. intros idx Hi. rewrite Su, <- E2 in Hi. symmetry. by apply E3.
Qed.
End with_fops.
