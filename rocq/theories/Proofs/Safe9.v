(** Memory safety of backward: the whole pass. *)
From Verif.Proofs Require Export Safe8.
From Verif.Model Require Export Api.

Section with_fops.
Context {fo : FOps}.
Notation any := (fun _ _ => True).

(** ** a step that only changes counters *)
Lemma on_fn_si h h' e : SI h -> h_sto h' = h_sto h -> (forall x, h_ten h' !! x = on_fn e x <$> h_ten h !! x) ->
  (forall x f, gf_kind (e x f) = gf_kind f /\ gf_in (e x f) = gf_in f) -> grow h h' /\ SI h'.
Proof.
  intros S Es Et He.
  assert (forall s k, filled h s k -> filled h' s k) as Hfl by (intros s k; unfold filled; by rewrite Es).
  assert (grow h h') as G.
  { split.
    - intros t r Hr. exists (on_fn e t r). rewrite Et, Hr. split; [done|]. split; [done|]. split; [done|]. intros f Hf. exists (e t f). cbn. rewrite Hf.
      split; [done|]. apply He.
    - rewrite Es. apply rs_refl.
    - done.
    - intros s. unfold allocd. by rewrite Es.
    - intros s x Hx. unfold allocd. rewrite Es. by left. }
  split; [done|]. eapply SI_step; [done|done|]. intros t r'. rewrite Et. destruct (h_ten h !! t) as [r|] eqn:Er; [|done]. intros [= <-]. left.
  exists t, r. split; [done|]. split; [split; [done|]; split; [done|]; intros f Hf; exists (e t f); cbn; rewrite Hf; split; [done|]; apply He|].
  split; [done|]. split; [done|]. cbn. destruct (t_fn r) as [f|] eqn:Ef; cbn; [|done]. cbn. intros f' [= <-].
  exists f. split; [done|]. apply He.
Qed.
Lemma on_fn_kg h h' e : (forall x, h_ten h' !! x = on_fn e x <$> h_ten h !! x) -> kg h h'.
Proof. intros Et u x Hx. exists (on_fn e u x). rewrite Et, Hx. done. Qed.

(** ** one node of the main loop *)
(** what the step of [x] leaves of the other records *)
Definition pk (x : nat) (new : list nat) (h h' : heap) : Prop :=
  h_ver h' = h_ver h /\
  forall u r, h_ten h !! u = Some r -> exists r', h_ten h' !! u = Some r' /\ same_data r r' /\ t_rg r' = t_rg r /\
    (t_fn r = None -> t_fn r' = None) /\
    (forall f, t_fn r = Some f -> exists f', t_fn r' = Some f' /\ gf_kind f' = gf_kind f /\ gf_in f' = gf_in f /\ (gf_ver f' = gf_ver f \/ u ∈ new)) /\
    (u <> x -> is_Some (t_grad r) -> t_grad r' = t_grad r).
(** in the queue: reached in this pass, with its gradient *)
Definition queued (h : heap) (x : nat) : Prop :=
  exists r f g, h_ten h !! x = Some r /\ t_fn r = Some f /\ gf_ver f = h_ver h /\ active h x g.
Lemma sf_process h x r f g : step_pre h x r f g -> gf_ver f = h_ver h ->
  sf (process x) (fun new h' => pk x new h h' /\ NoDup new /\
    Forall (fun y => y ∈ gf_in f /\ (exists r0 f0, h_ten h !! y = Some r0 /\ t_fn r0 = Some f0 /\ gf_ver f0 < h_ver h) /\ queued h' y) new) h.
Proof.
  intros Hpre Hv. pose proof Hpre as (S & Hr & Hf & Ha & Hroom & Hfit). eapply sf_eq; [symmetry; apply process_eq|].
  assert (fn_of h x = Some f) as Hfx by (unfold fn_of; by rewrite Hr).
  eapply (sf_bind _ _ (fun _ h2 => pk x [] h h2 /\ Forall (fun i => is_Some (h_ten h2 !! i) /\ (i <> x -> ready_if h2 i)) (gf_in f))).
  { unfold back_part. eapply (sf_eq (step_back x (gf_kind f) (gf_in f) ;;; let! r := get_ten x in if t_ret r then mret tt else set_ten x (with_grad r None))).
    { erewrite (bind_ok (get_fn x)) by (by apply get_fn_ok). done. }
    eapply sf_bind.
    { apply (sf_and _ (fun _ => accd h (gf_in f)) (fun _ h' => sb (gf_in f) (gf_in f) h h')); [by apply (sf_step h x r f g)|].
      intros [] h' E. pose proof (nb_step x r (gf_kind f) (gf_in f) h (SI_sized _ S) Hfit) as H. unfold nb, nd, wp in H. rewrite E in H. by destruct H as (_ & H & _). }
    intros ? h1 G1 S1 [[Hacc _] Hsb]. destruct Hsb as (V1 & K1 & _).
    assert (pk x [] h h1) as Hpk.
    { split; [done|]. intros u ru Hu. destruct (K1 _ _ Hu) as (ru' & Hu' & D & Erg & _ & Fn & Eg & _). exists ru'. split; [done|]. split; [done|]. split; [done|].
      split; [intros E; by rewrite E in Fn|]. split.
      - intros fu Efu. rewrite Efu in Fn. eexists. split; [exact Fn|]. split; [done|]. split; [done|]. by left.
      - intros _ [gg Egg]. destruct Eg as [?|(? & _)]; [done|congruence]. }
    destruct (K1 _ _ Hr) as (r1 & Hr1 & D1 & _). eapply sf_get_bind; [done|]. destruct (t_ret r1).
    { apply sf_ret; [done|]. split; [done|]. eapply Forall_impl; [exact Hacc|]. intros i [H1 H2]. split; [done|]. by intros _. }
    assert (x < length (h_ten h1))%nat as Hlt by (by eapply lookup_lt_Some).
    eapply sf_set; [done|done| | |].
    - split; [done|]. split; [done|]. intros f1 Ef1. by exists f1.
    - destruct (si_ten _ S1 _ _ Hr1) as [T1 T2 T3 T4]. split; [done|done|done|]. cbn. intros f1 Ef1. destruct (T4 f1 Ef1) as [N1 N2 N3 N4 N5 N6]. by split.
    - set (h2 := Hp _ _ _).
      assert (forall u ru, u <> x -> h_ten h1 !! u = Some ru -> h_ten h2 !! u = Some ru) as Hne.
      { intros u ru Hu Hru. cbn [h2 h_ten]. by rewrite list_lookup_insert_ne. }
      assert (h_ten h2 !! x = Some (with_grad r1 None)) as Hx2 by (cbn [h2 h_ten]; by apply list_lookup_insert).
      split.
      + destruct Hpk as [Vp Hp']. split; [done|]. intros u ru Hu. destruct (Hp' _ _ Hu) as (ru' & Hu' & A1 & A2 & A3 & A4 & A5).
        destruct (decide (u = x)) as [->|Hux].
        * assert (ru' = r1) as -> by congruence. exists (with_grad r1 None). split; [done|]. split; [done|]. split; [done|]. split; [done|]. split; [done|]. done.
        * exists ru'. split; [by apply Hne|]. by split_and!.
      + eapply Forall_impl; [exact Hacc|]. intros i [H1 [ri Hi]]. destruct (decide (i = x)) as [->|Hix]; [split; [by eexists|done]|].
        split; [rewrite (Hne i ri) by done; by eexists|]. intros _ r' Hr'. rewrite (Hne i ri) in Hr' by done. apply (inj Some) in Hr' as <-. intros Hrg.
        destruct (H1 ri Hi Hrg) as (r2 & g2 & Q1 & Q2 & (gr & Q3 & Q4)). assert (r2 = ri) as -> by congruence. exists ri, g2. split; [by apply Hne|]. split; [done|].
        destruct (decide (g2 = x)) as [->|Hg2]; [|exists gr; split; [by apply Hne|done]]. exists (with_grad r1 None). split; [done|].
        assert (gr = r1) as -> by congruence. exact Q4. }
  intros ? h2 G2 S2 [Hpk Hin]. pose proof Hpk as [V2 K2]. destruct (K2 _ _ Hr) as (r2 & Hr2 & D2 & _ & _ & F2 & _). destruct (F2 f Hf) as (f2 & Hf2 & Ek & Ei & Hv2).
  assert (gf_ver f2 = h_ver h) as Hv2'. { destruct Hv2 as [->|Hn]; [done|]. by apply elem_of_nil in Hn. }
  eapply (sf_eq (visit_ready (gf_in f))).
  { erewrite (bind_ok (get_fn x)) by (apply get_fn_ok; unfold fn_of; by rewrite Hr2). by rewrite Ei. }
  destruct (visit_ready_spec (gf_in f) h2) as (new & h3 & E3 & Hvis).
  { intros i Hi. rewrite Forall_forall in Hin. by apply Hin. }
  destruct Hvis as (Es & Ev & Et & Hnd & Hnew). destruct (on_fn_si h2 h3 _ S2 Es Et) as [G3 S3].
  { intros y fy. by destruct (decide _). }
  unfold sf. rewrite E3. split; [done|]. split; [done|]. split.
  { split; [congruence|]. intros u ru Hu. destruct (K2 _ _ Hu) as (ru' & Hu' & A1 & A2 & A3 & A4 & A5).
    eexists. rewrite Et, Hu'. split; [done|]. split; [done|]. split; [done|]. split.
    { intros En. cbn. by rewrite (A3 En). } split; [|done].
    intros fu Hfu. destruct (A4 fu Hfu) as (fu' & B1 & B2 & B3 & B4). cbn. rewrite B1. cbn. eexists. split; [done|]. destruct (decide (u ∈ new)) as [Hun|Hun].
    - split; [done|]. split; [done|]. by right.
    - split; [done|]. split; [done|]. left. destruct B4 as [?|B4]; [done|]. by apply elem_of_nil in B4. }
  split; [done|]. apply Forall_forall. intros y Hy. pose proof Hy as Hy'. apply Hnew in Hy' as [Hyi (fy & Hfy & Hc)]. split; [done|].
  unfold c_ready in Hc. apply andb_prop in Hc as [Hc _]. apply Z.ltb_lt in Hc. rewrite V2 in Hc.
  unfold fn_of in Hfy. destruct (h_ten h2 !! y) as [ry2|] eqn:Ey2; [|done].
  assert (y <> x) as Hyx. { intros ->. assert (f2 = fy) as -> by congruence. lia. }
  assert (is_Some (h_ten h !! y)) as [ry Hry].
  { rewrite Forall_forall in Hroom. destruct (Hroom y Hyi) as (ry & -> & _). by eexists. }
  destruct (K2 _ _ Hry) as (ry2' & Hry2' & A1 & A2 & A3 & A4 & A5). assert (ry2' = ry2) as -> by congruence.
  split.
  - destruct (t_fn ry) as [f0|] eqn:Ef0; [|rewrite A3 in Hfy by done; done]. exists ry, f0. split; [done|]. split; [done|].
    destruct (A4 f0 eq_refl) as (f0' & B1 & _ & _ & B4). assert (f0' = fy) as -> by congruence. destruct B4 as [B4|B4]; [lia|by apply elem_of_nil in B4].
  - assert (t_rg ry2 = true) as Hrg by (by eapply no_rg, (ts_node _ _ (si_ten _ S2 _ _ Ey2))).
    rewrite Forall_forall in Hin. destruct (Hin y Hyi) as [_ Hrd]. destruct (Hrd Hyx ry2 Ey2 Hrg) as (ry2' & gy & Q1 & Q2 & Q3).
    assert (ry2' = ry2) as -> by congruence.
    eexists _, _, gy. split; [rewrite Et, Ey2; done|]. cbn. rewrite Hfy. cbn. split; [done|]. split; [by rewrite decide_True|].
    exists (on_fn (fun (x0 : nat) (f0 : gradfn) => if decide (x0 ∈ new) then gf_with_ver f0 (h_ver h2) else f0) y ry2).
    split; [by rewrite Et, Ey2|]. split; [done|]. split; [done|]. by eapply full_at_grow.
Qed.
Lemma queued_keep h h' x new y : grow h h' -> pk x new h h' -> y <> x -> y ∉ new -> queued h y -> queued h' y.
Proof.
  intros G [V K] Hyx Hyn (r & f & g & Hr & Hf & Hv & (r1 & Hr1 & Hrg & Hg & Hfull)). assert (r1 = r) as -> by congruence.
  destruct (K _ _ Hr) as (r' & Hr' & D & Erg & _ & Hfn & Hgr). destruct (Hfn f Hf) as (f' & Hf' & _ & _ & Hv').
  exists r', f', g. split; [done|]. split; [done|]. split. { destruct Hv' as [?|?]; [lia|done]. }
  exists r'. split; [done|]. split; [congruence|]. split; [|by eapply full_at_grow]. rewrite Hgr; [done|done|by rewrite Hg].
Qed.
Lemma sf_bfs (R : list nat -> list nat -> heap -> Prop) :
  (forall P x Q h r f, R P (x :: Q) h -> SI h -> h_ten h !! x = Some r -> t_fn r = Some f -> Forall (room h) (gf_in f) /\ fn_fits h r (gf_kind f) (gf_in f)) ->
  (forall P x Q h r f new h', R P (x :: Q) h -> process x h = (Ok new, h') -> grow h h' -> pk x new h h' -> h_ten h !! x = Some r -> t_fn r = Some f ->
     (forall y, y ∈ new -> y ∈ gf_in f) -> R (P ++ [x]) (Q ++ new) h') ->
  forall fuel P Q h, SI h -> NoDup Q -> Forall (queued h) Q -> R P Q h -> sf (bfs fuel process Q) any h.
Proof.
  intros R1 R2 fuel. induction fuel as [|fuel IH]; intros P Q h S Hnd HQ HR.
  { destruct Q as [|x Q]; [by apply sf_ret|]. done. }
  destruct Q as [|x Q]; [by apply sf_ret|]. cbn [bfs]. apply NoDup_cons in Hnd as [Hx Hnd]. apply Forall_cons in HQ as [(r & f & g & Hr & Hf & Hv & Ha) HQ].
  destruct (R1 _ _ _ _ _ _ HR S Hr Hf) as [Hroom Hfit].
  eapply sf_bind.
  { eapply (sf_and _ _ (fun new h' => process x h = (Ok new, h'))); [eapply (sf_process h x r f g); [|done]|].
    - by split_and!.
    - by intros new h'. }
  intros new h' G' S' [(Hpk & Hndn & Hnew) E]. rewrite Forall_forall in Hnew.
  assert (forall y, y ∈ Q -> y ∉ new) as Hdis.
  { intros y Hy Hyn. destruct (Hnew y Hyn) as (_ & (r0 & f0 & H1 & H2 & H3) & _). rewrite Forall_forall in HQ.
    destruct (HQ y Hy) as (r1 & f1 & _ & K1 & K2 & K3 & _). assert (r0 = r1) as -> by congruence. assert (f0 = f1) as -> by congruence. lia. }
  apply (IH (P ++ [x])); [done| | |].
  - apply NoDup_app. split; [done|]. split; [exact Hdis|done].
  - apply Forall_app. split; [|by apply Forall_forall; intros y Hy; apply Hnew].
    apply Forall_forall. intros y Hy. rewrite Forall_forall in HQ. eapply (queued_keep h); [done|done| |by apply Hdis|by apply HQ]. by intros ->.
  - eapply R2; try done. intros y Hy. by apply Hnew.
Qed.

(** ** before the main loop *)
Definition prel (t : nat) (h0 h : heap) : Prop :=
  forall u r0, h_ten h0 !! u = Some r0 -> exists r, h_ten h !! u = Some r /\ same_data r0 r /\ t_rg r = t_rg r0 /\
    (t_fn r0 = None -> t_fn r = None) /\
    (forall f, t_fn r0 = Some f -> exists f', t_fn r = Some f' /\ gf_kind f' = gf_kind f /\ gf_in f' = gf_in f) /\
    (u <> t -> t_grad r = t_grad r0).
Lemma lay_sane_le l n m : lay_sane l n -> n <= m -> lay_sane l m.
Proof. intros [H|(H1 & H2 & H3)] Hle; [by left|]. right. split; [done|]. split; [|done]. intros idx Hi. specialize (H2 idx Hi). lia. Qed.
Lemma sf_prepare h0 t r0 : SI h0 -> tinv h0 -> vinv h0 -> h_ten h0 !! t = Some r0 -> lay_in (t_lay r0) (size_prod (shape r0)) ->
  sf (prepare t) (fun _ h => queued h t /\ prel t h0 h /\ t_rg r0 = true /\ is_Some (t_fn r0) /\ lnumel (t_lay r0) = 1) h0.
Proof.
  intros S Hi Hv Hr0 Hlay. unfold prepare. eapply sf_get_bind; [done|]. apply sf_expect_bind; [done|]. intros Hrg. apply sf_expect_bind; [done|].
  destruct (t_fn r0) as [f0|] eqn:Hf0; [|done]. intros _. apply sf_expect_bind; [done|]. intros Hone. apply Z.eqb_eq in Hone.
  assert (fn_of h0 t = Some f0) as Hft by (unfold fn_of; by rewrite Hr0).
  destruct (refresh_ok h0 t f0 Hi Hv Hft) as (R & h1 & E1 & HdR & HR & S1 & V1 & T1).
  destruct (on_fn_si h0 h1 _ S S1 T1) as [G1 SI1].
  { intros y fy. unfold e2. by destruct (decide (y ∈ R)). }
  eapply (sf_bind _ _ (fun _ h => h = h1)). { unfold sf. rewrite E1. done. }
  intros ? h _ _ ->.
  assert (h_ten h1 !! t = Some (on_fn (e2 h0 R (h_ver h0 + 2) R R) t r0)) as Hr1 by (rewrite T1, Hr0; done).
  set (r1 := on_fn _ _ _) in Hr1. pose proof (SI_geom _ _ _ SI1 Hr1) as Hg1.
  eapply sf_bind.
  { eapply (sf_and _ _ (fun _ h' => sb [] [] h1 h')).
    - unfold ones_like. eapply sf_get_bind; [done|]. apply sf_ones; [done|by apply (geom_bytes_fit h1 r1 SI1)].
    - intros o h' E. pose proof (nb_ones_like t h1 (SI_sized _ SI1)) as H. unfold nb, nd, wp in H. rewrite E in H. by destruct H as (_ & H & _). }
  intros o h2 G2 SI2 [Hp Hsb]. pose proof Hsb as (V2 & K2 & _). destruct (K2 _ _ Hr1) as (r2 & Hr2 & D2 & Erg2 & _ & Fn2 & _).
  destruct Hp as (ro & Hro & Hfo & E3 & E4 & _). destruct D2 as (D2a & D2b & D2c).
  eapply sf_get_bind; [done|]. eapply (sf_bind _ _ (fun _ h => h = Hp (h_sto h2) (<[t := with_grad r2 (Some o)]> (h_ten h2)) (h_ver h2))).
  { eapply sf_set_grad; [done|done| |done].
    destruct (geom_count h2 ro SI2 (SI_geom _ _ _ SI2 Hro)) as (x & Hx & HT & Hb & Hc & Hle & Hl). eapply gok_of; [done|..|done| |done].
    - rewrite E3. congruence.
    - unfold shape. rewrite E4. cbn. by rewrite <- D2b.
    - rewrite <- D2b. eapply lay_sane_le; [apply (lay_sane_room h1); [done|done]|]. etrans; [|exact Hle]. unfold shape. rewrite E4. done. }
  intros ? h3 G3 SI3 ->. set (h3 := Hp _ _ _) in *.
  assert (t < length (h_ten h2))%nat as Hlt by (by eapply lookup_lt_Some).
  unfold bump. set (h4 := Hp (h_sto h3) (h_ten h3) (h_ver h3 + 1)).
  assert (grow h3 h4) as G4.
  { split; [by apply tens_eq|apply rs_refl|done|done|]. intros s x Hx Ha. by left. }
  eapply (sf_bind _ _ (fun v h => v = h_ver h4 /\ h = h4)). { split; [done|]. split; [by eapply SI_cells|done]. }
  intros ? h _ SI4 [-> ->].
  assert (h_ten h4 !! t = Some (with_grad r2 (Some o))) as Ht4 by (cbn; by apply list_lookup_insert).
  assert (t_fn r1 = Some (e2 h0 R (h_ver h0 + 2) R R t f0)) as Hf1 by (cbn; by rewrite Hf0).
  rewrite Hf1 in Fn2. eapply sf_upd_fn; [done|done|done|done|done|]. set (h5 := Hp _ _ _).
  assert (forall u ru, u <> t -> h_ten h2 !! u = Some ru -> h_ten h5 !! u = Some ru) as Hne.
  { intros u ru Hu Hru. cbn. rewrite !list_lookup_insert_ne by done. done. }
  set (r5 := with_fn _ _) in h5.
  assert (h_ten h5 !! t = Some r5) as Ht5. { cbn. rewrite list_lookup_insert; [done|]. by rewrite insert_length. }
  split; [|split; [|done]].
  - exists r5. eexists. exists o. split; [done|]. split; [done|]. split; [done|]. exists r5. split; [done|]. split; [cbn; by rewrite Erg2|]. split; [done|].
    destruct (decide (o = t)) as [->|Hot].
    + exists r5. split; [done|]. assert (ro = r2) as -> by congruence. exact Hfo.
    + exists ro. split; [by apply Hne|]. exact Hfo.
  - intros u ru Hu. destruct (K2 u (on_fn (e2 h0 R (h_ver h0 + 2) R R) u ru)) as (ru2 & Hu2 & Du & Ergu & _ & Fnu & Egu & _); [by rewrite T1, Hu|].
    assert (t_grad ru2 = t_grad ru) as Egu'. { destruct Egu as [?|(_ & _ & _ & []%not_elem_of_nil)]. done. }
    destruct (decide (u = t)) as [->|Hut].
    + assert (ru = r0) as -> by congruence. assert (ru2 = r2) as -> by congruence. exists r5. split; [done|]. split; [done|]. split; [done|]. split; [congruence|].
      split; [|done]. intros f Hf. assert (f = f0) as -> by congruence. eexists. split; [done|]. unfold e2. by destruct (decide _).
    + exists ru2. split; [by apply Hne|]. split; [done|]. split; [done|]. split; [intros E; cbn in Fnu; by rewrite E in Fnu|].
      split; [|done]. intros f Hf. cbn in Fnu. rewrite Hf in Fnu. cbn in Fnu. eexists. split; [done|]. unfold e2. by destruct (decide _).
Qed.

(** ** the pass *)
Section pass.
Variables (h0 : heap) (t : nat) (r0 : tensor).
Hypothesis HS : SI h0.
Hypothesis Hi : tinv h0.
Hypothesis Hv : vinv h0.
Hypothesis Hr0 : h_ten h0 !! t = Some r0.
Definition lrel (h : heap) : Prop :=
  forall u q, h_ten h0 !! u = Some q -> exists r, h_ten h !! u = Some r /\ same_data q r /\ t_rg r = t_rg q /\
    (t_fn q = None -> t_fn r = None) /\
    (forall f, t_fn q = Some f -> exists f', t_fn r = Some f' /\ gf_kind f' = gf_kind f /\ gf_in f' = gf_in f).
Lemma lrel_pk x new h h' : lrel h -> pk x new h h' -> lrel h'.
Proof.
  intros L [_ K] u q Hq. destruct (L _ _ Hq) as (r & Hr & D & E & N & F). destruct (K _ _ Hr) as (r' & Hr' & D' & E' & N' & F' & _).
  exists r'. split; [done|]. split. { destruct D as (? & ? & ?), D' as (? & ? & ?). split; [congruence|split; congruence]. }
  split; [congruence|]. split; [auto|]. intros f Hf. destruct (F f Hf) as (f1 & Hf1 & K1 & I1). destruct (F' f1 Hf1) as (f2 & Hf2 & K2 & I2 & _).
  exists f2. split; [done|]. split; congruence.
Qed.
Lemma below_some x : below h0 t x -> is_Some (h_ten h0 !! x).
Proof.
  induction 1 as [|x y Hb IH Hin]; [by eexists|]. unfold inputs in Hin. destruct (fn_of h0 x) as [f|] eqn:Ef; [|by apply elem_of_nil in Hin].
  destruct (tinv_inputs h0 x f Hi Ef) as (r & _ & _ & _ & H). by apply H.
Qed.
(** the node of a tensor of the graph in a later heap *)
Lemma lrel_node h x r f : lrel h -> grow h0 h -> below h0 t x -> h_ten h !! x = Some r -> t_fn r = Some f ->
  gf_in f = inputs h0 x /\ is_node h0 x /\ fn_fits h r (gf_kind f) (gf_in f).
Proof.
  intros L G Hb Hr Hf. destruct (below_some x Hb) as [q Hq]. destruct (L _ _ Hq) as (r' & Hr' & D & E & N & F). assert (r' = r) as -> by congruence.
  destruct (t_fn q) as [f0|] eqn:Ef0; [|rewrite N in Hf by done; done]. destruct (F f0 eq_refl) as (f' & Hf' & K1 & I1). assert (f' = f) as -> by congruence.
  assert (fn_of h0 x = Some f0) as Hfx by (unfold fn_of; by rewrite Hq). split; [unfold inputs; by rewrite Hfx|]. split; [by eexists|].
  destruct (tinv_inputs h0 x f0 Hi Hfx) as (q' & Hq' & _ & Hfit & _). assert (q' = q) as -> by congruence. rewrite K1, I1.
  eapply fn_fits_mono; [by apply grow_mono|done|done].
Qed.
Definition base (Q : list nat) (h : heap) : Prop := grow h0 h /\ lrel h /\ forall x, x ∈ Q -> below h0 t x.
Lemma base_step x Q h r f new h' : base (x :: Q) h -> grow h h' -> pk x new h h' -> h_ten h !! x = Some r -> t_fn r = Some f ->
  (forall y, y ∈ new -> y ∈ gf_in f) -> base (Q ++ new) h'.
Proof.
  intros (G & L & B) G' K Hr Hf Hnew. split; [by eapply grow_trans|]. split; [by eapply lrel_pk|]. intros y [Hy|Hy]%elem_of_app; [apply B; by right|].
  assert (below h0 t x) as Hb by (apply B; by left). destruct (lrel_node h x r f L G Hb Hr Hf) as (Ei & _ & _). eapply below_in; [exact Hb|].
  rewrite <- Ei. by apply Hnew.
Qed.
Lemma base_start h : prel t h0 h -> grow h0 h -> base [t] h.
Proof.
  intros K G. split; [done|]. split.
  - intros u q Hq. destruct (K _ _ Hq) as (r & A1 & A2 & A3 & A4 & A5 & _). by exists r.
  - intros x ->%elem_of_list_singleton. constructor.
Qed.
(** every tracked tensor of the graph covers no more cells than it has elements *)
Lemma sf_backward_dense : 
  (forall u r, below h0 t u -> h_ten h0 !! u = Some r -> t_rg r = true -> lay_in (t_lay r) (size_prod (shape r))) -> sf (backward t) any h0.
Proof.
  intros Hd. destruct (t_rg r0) eqn:Hrg.
  2:{ unfold backward. eapply sf_get_bind; [done|]. apply sf_expect_bind; [done|]. congruence. }
  eapply sf_eq; [symmetry; apply backward_eq|]. eapply sf_bind; [apply (sf_prepare h0 t r0); [done|done|done|done|]|].
  { apply (Hd t r0); [constructor|done|done]. }
  intros ? h G S (Hq & Hp & _). refine (sf_bfs (fun _ Q h => base Q h) _ _ _ [] [t] h _ _ _ _).
  - intros P x Q h1 r f (G1 & L1 & B1) S1 Hr Hf. assert (below h0 t x) as Hb by (apply B1; by left).
    destruct (lrel_node h1 x r f L1 G1 Hb Hr Hf) as (Ei & _ & Hfit). split; [|done]. apply Forall_forall. intros y Hy. rewrite Ei in Hy.
    assert (below h0 t y) as Hby by (by eapply below_in). destruct (below_some y Hby) as [q Hq']. destruct (L1 _ _ Hq') as (ry & Hry & (_ & D & _) & Erg & _).
    exists ry. split; [done|]. intros Hrgy. right. pose proof (Hd y q Hby Hq' ltac:(congruence)) as H. unfold shape in *. by rewrite <- D.
  - intros P x Q h1 r f new h' B E1 G1 K1 Hr Hf Hnew. by eapply base_step.
  - done.
  - apply NoDup_singleton.
  - by constructor.
  - by apply base_start.
Qed.
(** no backward has passed through the graph, and each tracked tensor covers no more cells
    than it has elements or has its gradient *)
Lemma sf_backward_fresh : untraversed h0 t -> lay_in (t_lay r0) (size_prod (shape r0)) ->
  (forall u r, below h0 t u -> h_ten h0 !! u = Some r -> t_rg r = true -> roomy r) -> sf (backward t) any h0.
Proof.
  intros Hun Hlay Hroom. destruct (t_rg r0) eqn:Hrg.
  2:{ unfold backward. eapply sf_get_bind; [done|]. apply sf_expect_bind; [done|]. congruence. }
  destruct (t_fn r0) as [f0|] eqn:Hf0.
  2:{ unfold backward. eapply sf_get_bind; [done|]. apply sf_expect_bind; [done|]. intros _. rewrite Hf0. by apply sf_expect_bind. }
  destruct (decide (lnumel (t_lay r0) = 1)) as [Hone|Hone].
  2:{ unfold backward. eapply sf_get_bind; [done|]. apply sf_expect_bind; [done|]. intros _. rewrite Hf0. apply sf_expect_bind; [done|]. intros _.
      apply sf_expect_bind; [done|]. intros H%Z.eqb_eq. done. }
  destruct (prepare_ok h0 t r0 f0 Hi Hv (SI_sized _ HS) Hr0 Hf0 Hrg Hone Hun) as (R & HdR & HR & Hprep).
  eapply sf_eq; [symmetry; apply backward_eq|]. eapply sf_bind.
  { eapply (sf_and _ _ (fun _ h => main_inv h0 t R [] [t] h)); [by apply (sf_prepare h0 t r0)|]. intros [] h E. unfold nd, wp in Hprep. rewrite E in Hprep. apply Hprep. }
  intros ? h G S ((Hq & Hp & _) & HM).
  set (kept := fun (P : list nat) (h : heap) => forall y q r, y ∉ P -> h_ten h0 !! y = Some q -> is_Some (t_grad q) -> h_ten h !! y = Some r -> is_Some (t_grad r)).
  refine (sf_bfs (fun P Q h => base Q h /\ main_inv h0 t R P Q h /\ kept P h) _ _ _ [] [t] h _ _ _ _).
  - intros P x Q h1 r f ((G1 & L1 & B1) & M1 & K1) S1 Hr Hf. assert (below h0 t x) as Hb by (apply B1; by left).
    destruct (lrel_node h1 x r f L1 G1 Hb Hr Hf) as (Ei & Hnode & Hfit). split; [|done]. apply Forall_forall. intros y Hy. rewrite Ei in Hy.
    assert (below h0 t y) as Hby by (by eapply below_in). destruct (below_some y Hby) as [q Hq']. destruct (L1 _ _ Hq') as (ry & Hry & (_ & D & _) & Erg & _).
    exists ry. split; [done|]. intros Hrgy. destruct (Hroom y q Hby Hq' ltac:(congruence)) as [Hg|Hl].
    + left. assert (y ∉ P) as HyP.
      { intros HyP. assert (x ∈ P) as HxP. { eapply (mi_ready _ _ _ _ _ _ M1 y); [apply elem_of_app; by left|by split|done]. }
        pose proof (mi_dup _ _ _ _ _ _ M1) as Hnd. apply NoDup_app in Hnd as (_ & Hnd & _). apply (Hnd x HxP). by left. }
      destruct (K1 y q ry HyP Hq' ltac:(destruct (t_grad q); [by eexists|done]) Hry) as [g ->]. done.
    + right. unfold shape in *. by rewrite <- D.
  - intros P x Q h1 r f new h' (B & M1 & K1) E1 G1 Hpk Hr Hf Hnew. split; [by eapply base_step|]. split.
    + pose proof (main_step h0 t R Hi HR P x Q h1 M1) as [_ H]. by rewrite E1 in H.
    + intros y q r' Hy Hq' Hgq Hr'. assert (y ∉ P /\ y <> x) as [Hy1 Hy2].
      { split; intros H; apply Hy; apply elem_of_app; [by left|right; by apply elem_of_list_singleton]. }
      destruct B as (_ & L1 & _). destruct (L1 _ _ Hq') as (r1 & Hr1 & _). destruct (K1 y q r1 Hy1 Hq' Hgq Hr1) as [g Hg].
      destruct Hpk as [_ Hpk]. destruct (Hpk _ _ Hr1) as (r2 & Hr2 & _ & _ & _ & _ & Hgr). assert (r2 = r') as -> by congruence.
      rewrite Hgr; [by rewrite Hg|done|by rewrite Hg].
  - done.
  - apply NoDup_singleton.
  - by constructor.
  - split; [by apply base_start|]. split; [done|]. intros y q r _ Hq' Hgq Hr. destruct (decide (y = t)) as [->|Hyt].
    + destruct Hq as (r1 & f1 & g & A1 & _ & _ & (r2 & A2 & _ & A3 & _)). assert (r2 = r) as -> by congruence. by rewrite A3.
    + destruct (Hp _ _ Hq') as (r1 & A1 & _ & _ & _ & _ & A2). assert (r1 = r) as -> by congruence. by rewrite A2.
Qed.
End pass.
End with_fops.
