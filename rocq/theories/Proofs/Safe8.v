(** Memory safety of backward: the step of each kind of node. *)
From Verif.Proofs Require Export Safe7.
From Verif.Model Require Export Api.

(** ** the part of a contiguous layout that belongs to one input of cat *)
Lemma piece_lay_pos dm ss tot s n idx : size_prod ss < two63 -> (dm < length ss)%nat -> ss !! dm = Some tot -> 0 <= s -> s + n <= tot ->
  in_range (<[dm := n]> ss) idx ->
  pos (Lay (<[dm := n]> ss) (contig_strides ss) (u64 (s * nth dm (contig_strides ss) 0))) idx = pos (contig ss) (<[dm := (nth dm idx 0 + s)%Z]> idx).
Proof.
  intros Hp Hd Ht Hs Hle Hi. destruct (piece_index dm ss tot s n idx) as (I1 & I2 & I3 & I4); [done..|].
  assert (in_range ss (map (fun _ => 0) ss)) as Iz.
  { pose proof (in_range_pos _ _ I1) as Hpos. clear -Hpos. induction Hpos; constructor; [lia|done]. }
  assert (map (fun _ => 0) ss !! dm = Some 0) as Hz by (etrans; [exact (list_lookup_fmap _ _ _)|by rewrite Ht]).
  assert (in_range ss (<[dm := 0 + s]> (map (fun _ => 0) ss))) as Iz'.
  { replace ss with (<[dm := tot]> ss) at 1 by (by apply list_insert_id). apply insert_in_range; [done|lia]. }
  pose proof (row_major_bounds _ _ Iz') as Hb. rewrite <- pos_contig in Hb by done. unfold pos in Hb. cbn [contig offset strides] in Hb.
  rewrite (dot_shift (contig_strides ss) _ dm s 0 ltac:(by rewrite length_contig_strides) Hz) in Hb.
  assert (forall st (l : list Z), dot st (map (fun _ => 0) l) = 0) as Hdz.
  { clear. intros st l. revert st. induction l as [|y l IH]; intros [|z st]; cbn [map dot]; [done..|]. rewrite IH. lia. }
  rewrite Hdz in Hb. destruct (lookup_lt_is_Some_2 idx dm I4) as [i Hi']. rewrite (nth_lookup_Some _ _ _ _ Hi').
  unfold pos. cbn [contig offset strides]. rewrite (dot_shift (contig_strides ss) _ dm s i ltac:(by rewrite length_contig_strides) Hi').
  rewrite u64_id by (unfold two63, two64 in *; lia). lia.
Qed.
Lemma piece_sane ss dm tot s n N : nn ss -> (dm < length ss)%nat -> ss !! dm = Some tot -> tot < two64 -> 0 <= s -> 0 <= n -> s + n <= tot -> 0 <= N < two63 ->
  lay_sane (contig ss) N -> lay_sane (Lay (<[dm := n]> ss) (contig_strides ss) (u64 (s * nth dm (contig_strides ss) 0))) N.
Proof.
  intros Hn Hd Ht H64 Hs Hn0 Hle HN Hl. destruct (decide (n = 0)) as [->|Hnz].
  { left. cbn [sizes]. apply elem_of_list_lookup. exists dm. by apply list_lookup_insert. }
  destruct Hl as [H0|(L1 & L2 & L3)].
  { left. cbn [sizes contig] in *. apply elem_of_list_lookup in H0 as [k Hk]. apply elem_of_list_lookup. exists k.
    destruct (decide (k = dm)) as [->|Hne]; [|by rewrite list_lookup_insert_ne]. assert (tot = 0) by congruence. lia. }
  right. pose proof (inj_count (contig ss) N Hn L2 L3 ltac:(lia)) as Hc. cbn [sizes contig] in Hc.
  assert (forall idx, in_range (<[dm := n]> ss) idx -> in_range ss (<[dm := (nth dm idx 0 + s)%Z]> idx)) as Hin.
  { intros idx Hi. by apply (piece_index dm ss tot s n idx). }
  split; [|split].
  - split; [cbn; rewrite insert_length, length_contig_strides; done|]. split; [|apply u64_range]. cbn [sizes]. destruct L1 as (_ & Lf & _).
    apply Forall_insert; [done|lia].
  - intros idx Hi. cbn [sizes] in Hi. rewrite (piece_lay_pos dm ss tot s n) by (done || lia). by apply L2, Hin.
  - intros i j Hi Hj E. cbn [sizes] in Hi, Hj. rewrite !(piece_lay_pos dm ss tot s n) in E by (done || lia). apply L3 in E; [|by apply Hin..].
    pose proof (in_range_length _ _ Hi) as Li. pose proof (in_range_length _ _ Hj) as Lj. rewrite insert_length in Li, Lj.
    apply list_eq. intros k. destruct (decide (k = dm)) as [->|Hne].
    + destruct (lookup_lt_is_Some_2 i dm) as [x Hx]; [lia|]. destruct (lookup_lt_is_Some_2 j dm) as [y Hy]; [lia|].
      assert (<[dm := nth dm i 0 + s]> i !! dm = <[dm := nth dm j 0 + s]> j !! dm) as E' by (by rewrite E).
      rewrite !list_lookup_insert in E' by lia. rewrite (nth_lookup_Some _ _ _ _ Hx), (nth_lookup_Some _ _ _ _ Hy) in E'. rewrite Hx, Hy. f_equal.
      apply (inj Some) in E'. lia.
    + assert (<[dm := nth dm i 0 + s]> i !! k = <[dm := nth dm j 0 + s]> j !! k) as E' by (by rewrite E).
      by rewrite !list_lookup_insert_ne in E' by done.
Qed.

Section with_fops.
Context {fo : FOps}.
Notation any := (fun _ _ => True).

(** a tracked tensor with gradient [g] *)
Definition active (h : heap) (u g : nat) : Prop :=
  exists r, h_ten h !! u = Some r /\ t_rg r = true /\ t_grad r = Some g /\ full_at h g.
Lemma active_keep h h' u g : grow h h' -> kg h h' -> active h u g -> active h' u g.
Proof.
  intros G K (r & Hr & Hrg & Hg & Hf). destruct (K _ _ Hr) as (r' & Hr' & E & Eg). exists r'. split; [done|]. split; [congruence|].
  split; [|by eapply full_at_grow]. rewrite Eg; [done|]. by rewrite Hg.
Qed.
Lemma active_full h u g : active h u g -> full_at h g.
Proof. by intros (r & _ & _ & _ & Hf). Qed.
Lemma active_float h u g : SI h -> active h u g -> is_float_at h g.
Proof.
  intros S (r & Hr & Hrg & Hg & Hf) gr Hgr. destruct (grad_rec _ _ _ _ S Hr Hg) as (gr' & Hgr' & E & _). assert (gr' = gr) as -> by congruence.
  rewrite E. by eapply si_float.
Qed.
Lemma sf_out_bind {B} u g (k : nat -> E B) (Q : B -> heap -> Prop) h : active h u g -> sf (k g) Q h -> sf (bind (out_grad u) k) Q h.
Proof.
  intros (r & Hr & _ & Hg & _) H. unfold out_grad. eapply sf_eq; [symmetry; apply bind_assoc|]. eapply sf_get_bind; [done|]. by eapply sf_deref_bind.
Qed.
Lemma sf_input_bind {B} ins i a (k : nat -> E B) (Q : B -> heap -> Prop) h : ins !! i = Some a -> sf (k a) Q h -> sf (bind (input ins i) k) Q h.
Proof. intros Hi H. by eapply sf_deref_bind. Qed.
Lemma room_get h u : room h u -> is_Some (h_ten h !! u).
Proof. intros (r & -> & _). by eexists. Qed.
Lemma full_get h u : full_at h u -> is_Some (h_ten h !! u).
Proof. intros (r & -> & _). by eexists. Qed.
Lemma get_grow h h' u : grow h h' -> is_Some (h_ten h !! u) -> is_Some (h_ten h' !! u).
Proof. intros G [r Hr]. destruct (gw_ten _ _ G _ _ Hr) as (r' & -> & _). by eexists. Qed.

(** the inputs [ins] have their gradients *)
Definition accd (h0 : heap) (ins : list nat) (h : heap) : Prop :=
  Forall (fun i => ready_if h i /\ is_Some (h_ten h !! i)) ins /\ kg h0 h.
(** one more accumulation after some *)
Lemma sf_acc2 h0 h p w o l : SI h -> grow h0 h -> accd h0 l h -> room h0 p ->
  (forall x, w = Some x -> full_at h x) -> (forall x, o = Some x -> full_at h x) ->
  (forall y, o = Some y -> exists x, w = Some x /\ (is_float_at h x \/ is_float_at h y)) ->
  sf (try_accumulate_grad p w o) (fun _ h' => accd h0 (l ++ [p]) h' /\ kg h h') h.
Proof.
  intros S G [Hl K] Hr Hw Ho Hf. eapply sf_mono; [apply sf_acc; try done; by eapply room_keep|]. intros ? h' G' S' [H K'].
  split; [|done]. split; [|by eapply kg_trans]. apply Forall_app. split.
  - eapply Forall_impl; [exact Hl|]. intros i [H1 H2]. split; [by eapply ready_if_keep|by eapply get_grow].
  - apply Forall_singleton. split; [done|]. eapply get_grow; [|by eapply room_get]. by eapply grow_trans.
Qed.

Lemma accd_keep h0 ins h h' : grow h h' -> kg h h' -> accd h0 ins h -> accd h0 ins h'.
Proof.
  intros G K [Hl K0]. split; [|by eapply kg_trans]. eapply Forall_impl; [exact Hl|]. intros i [H1 H2]. split; [by eapply ready_if_keep|by eapply get_grow].
Qed.
Lemma sf_create_view_at h dt lay s x : SI h -> fullsto h s -> h_sto h !! s = Some x -> sto_ty x = dt -> sto_bytes x <= alloc_max ->
  nn (sizes lay) -> strides_fit lay -> lay_sane lay (cap x) ->
  sf (create_view dt lay s) (fun v h' => full_at h' v /\ kg h h') h.
Proof.
  intros S Hf Hx HT Hb Hn Hs Hl. set (nr := fresh_rec dt lay s).
  assert (geom (add_ten h nr) nr) as Hng.
  { split; [|done]. exists x. done. }
  split; [apply add_ten_grow|]. split; [apply add_ten_si; [done|by apply fresh_si]|]. split; [|by eapply kg_app].
  exists nr. split; [apply lookup_snoc|]. unfold full. eapply fullsto_grow; [apply add_ten_grow|done].
Qed.

Lemma sf_cat_back h0 me r g dim ss tot : forall ins rs s h l, SI h -> grow h0 h -> accd h0 l h ->
  h_ten h0 !! me = Some r -> t_lay r = contig ss -> nn ss -> active h me g ->
  (Z.to_nat dim < length ss)%nat -> ss !! Z.to_nat dim = Some tot -> tot < two64 ->
  Forall (room h0) ins -> Forall2 (fun i x => h_ten h0 !! i = Some x) ins rs ->
  Forall (fun x => nn (shape x) /\ shape x = <[Z.to_nat dim := nth (Z.to_nat dim) (shape x) 0]> ss) rs -> 0 <= s ->
  s + total_len (sizes_along (Z.to_nat dim) rs) <= tot ->
  sf (cat_back me dim ins s) (fun _ => accd h0 (l ++ ins)) h.
Proof.
  intros ins. set (dm := Z.to_nat dim).
  induction ins as [|t ins IH]; intros rs s h l S G Hl Hme El Hnn Hact Hd Ht H64 Hroom Hrs Hsh Hs Hle; cbn [cat_back].
  { rewrite app_nil_r. by apply sf_ret. }
  apply Forall_cons in Hroom as [Hrt Hroom]. destruct rs as [|x0 rs]; [by inversion Hrs|]. apply Forall2_cons in Hrs as [Hx0 Hrs].
  apply Forall_cons in Hsh as [[Hnx Esx] Hsh]. cbn [sizes_along map total_len fold_right] in Hle. fold (sizes_along dm rs) in Hle. fold (total_len (sizes_along dm rs)) in Hle.
  set (n := nth dm (shape x0) 0) in *.
  assert (forall x, x ∈ rs -> 0 <= nth dm (shape x) 0) as Hnz.
  { intros x Hx. rewrite Forall_forall in Hsh. destruct (Hsh x Hx) as [Hxn _]. destruct (decide (dm < length (shape x))%nat) as [Hlt|Hge].
    - destruct (lookup_lt_is_Some_2 _ _ Hlt) as [y Hy]. rewrite (nth_lookup_Some _ _ _ _ Hy). by eapply (Forall_lookup_1 _ _ _ _ Hxn).
    - rewrite nth_overflow by lia. done. }
  assert (0 <= total_len (sizes_along dm rs)) as Htl.
  { apply total_nonneg. unfold sizes_along. apply Forall_map, Forall_forall. intros x Hx. by apply Hnz. }
  assert (0 <= n) as Hn0.
  { unfold n. eapply (Forall_lookup_1 _ (shape x0) dm); [done|]. rewrite Esx at 1. by rewrite list_lookup_insert. }
  destruct (gw_ten _ _ G _ _ Hme) as (r1 & Hr1 & (D1 & D2 & D3) & _). destruct (gw_ten _ _ G _ _ Hx0) as (x1 & Hx1 & (X1 & X2 & X3) & _).
  pose proof Hact as (r1' & Hr1' & Erg & Eg & Hfg). assert (r1' = r1) as -> by congruence.
  eapply sf_get_bind; [done|]. eapply sf_get_bind; [done|]. cbv zeta. eapply sf_deref_bind; [done|].
  destruct (ts_grad _ _ (si_ten _ S _ _ Hr1) _ Eg) as [(gr & x & Hgr & E1 & E2 & Hx & Hls & _)]. eapply sf_get_bind; [done|].
  rewrite <- D2, <- X2, El in *. cbn [strides contig]. fold dm.
  destruct (geom_count h gr S (SI_geom _ _ _ S Hgr)) as (x' & Hx' & HT & Hb & Hc & _). assert (x' = x) as -> by congruence.
  change (sizes (t_lay x0)) with (shape x0). fold n. rewrite Esx at 1.
  eapply sf_bind; [eapply (sf_create_view_at h _ _ _ x); try done|].
  - destruct Hfg as (gr' & Hgr' & Hfg). assert (gr' = gr) as -> by congruence. done.
  - congruence.
  - lia.
  - cbn [sizes]. apply Forall_insert; [done|lia].
  - split; cbn [sizes strides]; rewrite insert_length, length_contig_strides; [lia|done].
  - eapply piece_sane; try done; lia.
  - intros v h1 G1 S1 [Fv K1]. eapply sf_bind; [eapply (sf_acc2 h0 h1 t (Some v) None l); try done|].
    + by eapply grow_trans.
    + by eapply accd_keep.
    + by intros ? [= <-].
    + intros ? h2 G2 S2 [Hl2 K2]. replace (l ++ t :: ins) with ((l ++ [t]) ++ ins) by (by rewrite <- app_assoc).
      rewrite u64_id by lia. eapply (IH rs (s + n) h2 (l ++ [t])); try done; [..|lia|lia].
      * eapply grow_trans; [done|]. by eapply grow_trans.
      * apply (active_keep h1); [done|done|]. by apply (active_keep h).
Qed.

Definition step_pre (h : heap) (me : nat) (r : tensor) (f : gradfn) (g : nat) : Prop :=
  SI h /\ h_ten h !! me = Some r /\ t_fn r = Some f /\ active h me g /\ Forall (room h) (gf_in f) /\
  fn_fits h r (gf_kind f) (gf_in f).
Lemma sf_step_cat h me r f g dim : step_pre h me r f g -> gf_kind f = CatBack dim ->
  sf (step_back me (gf_kind f) (gf_in f)) (fun _ => accd h (gf_in f)) h.
Proof.
  intros (S & Hr & Hf & Hact & Hroom & Hfit) Ek.
  destruct (ts_node _ _ (si_ten _ S _ _ Hr) _ Hf) as [N1 N2 N3 N4 N5 N6].
  assert (accd h [] h) as A0 by (split; [constructor|apply kg_refl]).
  pose proof (grow_refl h) as G0. rewrite Ek in *.
  assert (exists rs r0, Forall2 (fun i x => h_ten h !! i = Some x) (gf_in f) rs /\ rs !! 0%nat = Some r0 /\
    0 <= dim < Z.of_nat (length (shape r0)) /\
    Forall (fun x => cat_compatible (Z.to_nat dim) (shape r0) (shape x) = true) (tail rs) /\
    t_lay r = contig (<[Z.to_nat dim := fold_left (fun n x => u64 (n + nth (Z.to_nat dim) (shape x) 0)) rs 0]> (shape r0))) as (rs & r0 & Hrs & H0 & Hdim & Hcc & El).
  { cbn [fn_fits] in Hfit. destruct (gf_in f) as [|? [|? [|]]]; destruct Hfit as (rs & r0 & H1 & H2 & H3 & H4 & H5 & _); by exists rs, r0. }
  destruct (N6 dim eq_refl) as (rs' & Hrs' & H64). assert (rs' = rs) as ->.
  { apply list_eq. intros k. destruct (rs !! k) as [x|] eqn:Ex.
    - destruct (Forall2_lookup_r _ _ _ _ _ Hrs Ex) as (i & Hi & Hix). destruct (Forall2_lookup_l _ _ _ _ _ Hrs' Hi) as (y & Hy & Hiy). congruence.
    - apply lookup_ge_None in Ex. apply lookup_ge_None. rewrite <- (Forall2_length _ _ _ Hrs'), (Forall2_length _ _ _ Hrs). done. }
  assert (Forall (fun x => nn (shape x)) rs) as Hnn.
  { apply Forall_lookup. intros k x Hx. destruct (Forall2_lookup_r _ _ _ _ _ Hrs Hx) as (i & _ & Hix). apply (SI_geom _ _ _ S Hix). }
  destruct rs as [|r0' rest]; [done|]. cbn in H0. injection H0 as ->. cbn [tail] in Hcc. set (dm := Z.to_nat dim) in *.
  assert (dm < length (shape r0))%nat as Hd by (unfold dm; lia).
  assert (Forall (fun x => same_but dm (shape r0) (shape x)) (r0 :: rest)) as Hsame.
  { constructor; [by split|]. eapply Forall_impl; [exact Hcc|]. intros x. apply cat_compatible_spec. }
  assert (Forall (fun n => 0 <= n) (sizes_along dm (r0 :: rest))) as Hnns.
  { unfold sizes_along. apply Forall_map, Forall_forall. intros x Hx. rewrite Forall_forall in Hnn, Hsame. specialize (Hnn x Hx).
    destruct (Hsame x Hx) as [Hl _]. destruct (lookup_lt_is_Some_2 (shape x) dm) as [y Hy]; [lia|]. rewrite (nth_lookup_Some _ _ _ _ Hy).
    by eapply (Forall_lookup_1 _ _ _ _ Hnn). }
  change (fun n x => u64 (n + nth dm (shape x) 0)) with (fun n x => u64 (n + nth dm (sizes (t_lay x)) 0)) in El.
  rewrite fold_u64_total, Z.add_0_l in El by (done || lia). set (tot := total_len (sizes_along dm (r0 :: rest))) in *.
  cbn [step_back]. eapply (sf_mono _ (fun _ => accd h ([] ++ gf_in f))); [|done].
  eapply (sf_cat_back h me r g dim _ tot (gf_in f) (r0 :: rest) 0 h []); try done; fold dm.
  + apply Forall_insert; [|by apply total_nonneg]. by apply Forall_cons in Hnn as [? _].
  + by rewrite insert_length.
  + by apply list_lookup_insert.
  + apply Forall_forall. intros x Hx. rewrite Forall_forall in Hnn, Hsame. split; [by apply Hnn|].
    rewrite list_insert_insert. apply (same_but_insert dm (shape r0) (shape x)); [by apply Hsame|done|done].
Qed.
Lemma sf_step h me r f g : step_pre h me r f g ->
  sf (step_back me (gf_kind f) (gf_in f)) (fun _ => accd h (gf_in f)) h.
Proof.
  intros Hpre. pose proof Hpre as (S & Hr & Hf & Hact & Hroom & Hfit).
  destruct (ts_node _ _ (si_ten _ S _ _ Hr) _ Hf) as [N1 N2 N3 N4 N5 N6].
  assert (accd h [] h) as A0 by (split; [constructor|apply kg_refl]).
  pose proof (grow_refl h) as G0. pose proof (active_full _ _ _ Hact) as Fg. pose proof (active_float _ _ _ S Hact) as Flg.
  destruct (gf_kind f) as [| | | | | | | |dim|kg'] eqn:Ek.
  9:{ rewrite <- Ek. by eapply sf_step_cat. }
  all: cbn [fn_fits] in Hfit; cbn [step_back].
  all: try (destruct (gf_in f) as [|a [|b [|]]] eqn:Ein; try done).
  all: try (apply Forall_cons in Hroom as [Ra Rb']; apply Forall_cons in N3 as [Fa Fb']).
  all: try (apply Forall_cons in Rb' as [Rb _]; apply Forall_cons in Fb' as [Fb _]).
  all: try (eapply sf_input_bind; [done|]; cbv beta).
  all: try (eapply sf_input_bind; [done|]; cbv beta).
  - eapply sf_out_bind; [done|]. eapply sf_bind; [eapply (sf_acc2 h h a _ _ []); try done; by intros ? [= <-]|].
    intros ? h1 G1 S1 [A1 K1]. pose proof (active_keep _ _ _ _ G1 K1 Hact) as Hact1. eapply sf_out_bind; [done|].
    eapply sf_mono; [eapply (sf_acc2 h h1 b _ _ [a]); try done; intros ? [= <-]; by eapply active_full|]. by intros ? h2 _ _ [? _].
  - eapply sf_out_bind; [done|]. eapply sf_bind; [eapply (sf_acc2 h h a _ _ []); try done; by intros ? [= <-]|].
    intros ? h1 G1 S1 [A1 K1]. pose proof (active_keep _ _ _ _ G1 K1 Hact) as Hact1. eapply sf_out_bind; [done|].
    eapply sf_bind; [by apply (sf_kg _ [] []), sf_scalar; [apply nb_create_scalar, SI_sized|]|]. intros m h2 G2 S2 [Hm K2].
    pose proof (active_keep _ _ _ _ G2 K2 Hact1) as Hact2.
    eapply sf_mono; [eapply (sf_acc2 h h2 b (Some g) (Some m) [a]); try done|by intros ? h3 _ _ [? _]].
    + by eapply grow_trans.
    + by eapply accd_keep.
    + intros ? [= <-]. by eapply active_full.
    + intros ? [= <-]. by eapply made_full.
    + intros y _. exists g. split; [done|]. left. by eapply active_float.
  - eapply sf_out_bind; [done|]. eapply sf_bind; [eapply (sf_acc2 h h a (Some b) (Some g) []); try done|].
    + by intros ? [= <-].
    + by intros ? [= <-].
    + intros y [= <-]. exists b. split; [done|]. by right.
    + intros ? h1 G1 S1 [A1 K1]. pose proof (active_keep _ _ _ _ G1 K1 Hact) as Hact1. eapply sf_out_bind; [done|].
      eapply sf_mono; [eapply (sf_acc2 h h1 b (Some a) (Some g) [a]); try done|by intros ? h2 _ _ [? _]].
      * intros ? [= <-]. by eapply full_at_grow.
      * intros ? [= <-]. by eapply active_full.
      * intros y [= <-]. exists a. split; [done|]. right. by eapply active_float.
  - destruct (N5 eq_refl) as (a' & b' & ra & rb & [= <- <-] & Ha & Hb & Rga & Rgb & Esb).
    destruct Hfit as (ra' & rb' & Ha' & Hb' & Hbr & _). assert (ra' = ra) as -> by congruence. assert (rb' = rb) as -> by congruence.
    rewrite broadcast_range_max in Hbr. injection Hbr as Hbr.
    assert (length (shape ra) <= length (shape r))%nat as Hlen by (rewrite <- Hbr, bmax_length; lia).
    eapply sf_bind; [apply (sf_kg _ [a] [a]), sf_update; [by apply nb_update, SI_sized|done|done]|]. intros ? h1 G1 S1 [[Hrd1 _] K1].
    specialize (Hrd1 ra Ha Rga). pose proof Hrd1 as (ra1 & ga & Ha1 & Ega & Fga). eapply sf_get_bind; [done|]. eapply sf_deref_bind; [done|].
    pose proof (active_keep _ _ _ _ G1 K1 Hact) as Hact1. eapply sf_out_bind; [done|].
    destruct (grad_rec _ _ _ _ S1 Ha1 Ega) as (gar & Hgar & Edga & Esga).
    destruct (gw_ten _ _ G1 _ _ Ha) as (ra1' & Ha1' & (Da1 & Da2 & _) & Rga1 & _). assert (ra1' = ra1) as -> by congruence. specialize (Rga1 Rga).
    pose proof Hact1 as (r1 & Hr1 & Rg1 & Eg1 & Fg1). destruct (grad_rec _ _ _ _ S1 Hr1 Eg1) as (gr1 & Hgr1 & Edg1 & Esg1).
    destruct (gw_ten _ _ G1 _ _ Hr) as (r1' & Hr1' & (D1 & D2 & _) & _). assert (r1' = r1) as -> by congruence.
    destruct (gw_ten _ _ G1 _ _ Hb) as (rb1 & Hb1 & (Db1 & Db2 & _) & Rgb1 & _). specialize (Rgb1 Rgb).
    pose proof (full_at_grow _ _ _ G1 Fb) as Fb1.
    eapply (sf_bind _ _ (fun _ h2 => h_ten h2 = h_ten h1)).
    { unfold tensor_div_back_numerator_f. do 3 (eapply sf_get_bind; [done|]). apply sf_dispatch_ffi_bind.
      - rewrite Edga. by eapply (si_float h1).
      - by apply (active_float _ _ _ S1 Hact1).
      - eapply sf_mono; [apply sf_st; [apply st_div_num|apply sf_div_num; [done|by apply (full_rd h1 ga)|by apply (full_rd h1 g)|by apply (full_rd h1 b)|..]]|by intros ? h2 _ _ [_ ?]].
        + rewrite Esga, Esg1. unfold shape in *. by rewrite <- Da2, <- D2.
        + rewrite Esg1. unfold shape in *. by rewrite <- Db2, <- D2, Esb. }
    intros ? h2 G2 S2 Et2. pose proof (kg_ten h1 h2 Et2) as K2.
    assert (room h2 b) as Rb2 by (apply (room_keep h1); [done|done|]; by apply (room_keep h)).
    eapply sf_bind; [apply (sf_kg _ [b] [b]), sf_update; [by apply nb_update, SI_sized|done|done]|]. intros ? h3 G3 S3 [[Hrd3 _] K3].
    rewrite Et2 in Hrd3. specialize (Hrd3 rb1 Hb1 Rgb1). pose proof Hrd3 as (rb3 & gb & Hb3 & Egb & Fgb).
    assert (grow h1 h3) as G13 by (by eapply grow_trans). assert (kg h1 h3) as K13 by (by eapply kg_trans).
    assert (grow h h3) as G03 by (by eapply grow_trans). assert (kg h h3) as K03 by (by eapply kg_trans).
    pose proof (active_keep _ _ _ _ G13 K13 Hact1) as Hact3. pose proof Hact3 as (r3 & Hr3 & Rg3 & Eg3 & Fg3).
    destruct (gw_ten _ _ G03 _ _ Hr) as (r3' & Hr3' & (D31 & D32 & _) & _). assert (r3' = r3) as -> by congruence.
    destruct (gw_ten _ _ G03 _ _ Hb) as (rb3' & Hb3' & (Db31 & Db32 & _) & Rgb3 & _). assert (rb3' = rb3) as -> by congruence. specialize (Rgb3 Rgb).
    destruct (grad_rec _ _ _ _ S3 Hb3 Egb) as (gbr & Hgbr & Edgb & Esgb). destruct (grad_rec _ _ _ _ S3 Hr3 Eg3) as (gr3 & Hgr3 & Edg3 & Esg3).
    do 2 (eapply sf_get_bind; [done|]).
    assert (is_float (t_dt rb3) = true) as Fl1 by (by eapply (si_float h3)). assert (is_float (t_dt r3) = true) as Fl2 by (by eapply (si_float h3)).
    eapply (sf_bind _ _ (fun _ h4 => h4 = h3)); [unfold dispatch_ff; rewrite Fl1, Fl2; by apply sf_ret|]. intros ? h4 _ _ ->.
    eapply sf_deref_bind; [done|]. eapply sf_out_bind; [done|]. do 2 (eapply sf_get_bind; [done|]).
    pose proof (full_at_grow _ _ _ G03 Fb) as Fb3.
    assert (full_at h3 me) as Fme3 by (eapply full_at_grow; [exact G03|]; by exists r).
    assert (shape rb3 = shape r3) as Esb3 by (unfold shape in *; by rewrite <- Db32, <- D32).
    eapply sf_mono; [apply sf_st; [apply st_div_den|]|].
    + apply sf_div_den; [done|by apply (full_rd h3 gb)|by apply (full_rd h3 g)|by apply (full_rd h3 me)|by apply (full_rd h3 b)|done|done|congruence|by rewrite Esg3|by rewrite Esb3].
    + intros ? h4 G4 S4 [_ Et4]. apply (accd_keep _ _ h3); [done|by apply kg_ten|]. split; [|done].
      constructor; [|constructor; [|constructor]].
      * split; [|eapply get_grow; [exact G03|by eexists]]. intros ? _ _. by apply (ready_keep h1).
      * split; [|by eexists]. by intros ? _ _.
  - destruct (full_at_get _ _ Fa) as [ra Ha]. pose proof (SI_geom _ _ _ S Ha) as Hga.
    eapply sf_bind; [apply (sf_kg _ [] []); [apply nb_ones_like, SI_sized, S|]; unfold ones_like; eapply sf_get_bind; [done|]; apply sf_ones; [done|by apply (geom_bytes_fit h ra S)]|].
    intros o h1 G1 S1 [Hp K1]. pose proof (active_keep _ _ _ _ G1 K1 Hact) as Hact1. eapply sf_out_bind; [done|].
    eapply sf_mono; [eapply (sf_acc2 h h1 a (Some o) (Some g) []); try done|by intros ? h2 _ _ [? _]].
    + intros ? [= <-]. by eapply plain_full.
    + intros ? [= <-]. by eapply active_full.
    + intros y [= <-]. exists o. split; [done|]. right. by eapply active_float.
  - destruct (full_at_get _ _ Fa) as [ra Ha]. pose proof (SI_geom _ _ _ S Ha) as Hga. eapply sf_get_bind; [done|].
    eapply sf_bind; [apply (sf_kg _ [] []); [apply nb_full_double; [apply SI_sized, S|apply Hga]|]; apply sf_full_double; [done|by apply (geom_bytes_fit h ra S)]|].
    intros o h1 G1 S1 [Hp K1].
    eapply sf_mono; [eapply (sf_acc2 h h1 a (Some o) None []); try done|by intros ? h2 _ _ [? _]].
    + intros ? [= <-]. by eapply plain_full.
  - eapply sf_mono; [eapply (sf_acc2 h h a None None []); try done|by intros ? h2 _ _ [? _]].
  - eapply sf_out_bind; [done|]. eapply sf_mono; [eapply (sf_acc2 h h a (Some g) None []); try done|by intros ? h2 _ _ [? _]]. by intros ? [= <-].
  - eapply sf_out_bind; [done|]. eapply sf_mono; [eapply (sf_acc2 h h a (Some kg') (Some g) []); try done|by intros ? h2 _ _ [? _]].
    + intros ? [= <-]. by apply N4.
    + by intros ? [= <-].
    + intros y [= <-]. exists kg'. split; [done|]. by right.
Qed.
End with_fops.
