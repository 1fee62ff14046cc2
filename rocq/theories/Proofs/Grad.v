(** backward() adds to the gradients of the leaves the derivative of the root. *)
From Verif.Proofs Require Export Gback.
From Verif.Model Require Export Exact Api.
#[local] Existing Instance Exact.

Lemma ones_buffer h a r : h_ten h !! a = Some r -> allocable (t_dt r) (shape r) -> floating (t_dt r) = true ->
  exists h' w wr, ones_like a h = (Ok w, h') /\ extends h h' /\ h_ten h' !! w = Some wr /\ t_lay wr = contig (shape r) /\ t_dt wr = t_dt r /\
    t_rg wr = false /\ h_sto h !! t_sto wr = None /\ h_ten h !! w = None /\
    num_buffer h' (t_sto wr) (t_dt r) (contig (shape r)) (replicate (Z.to_nat (size_prod (shape r))) 1%Qc).
Proof.
  intros Hr Ha Hf. assert (Datatypes.S (length (h_ten h)) = length (h_ten (scalar_heap h I8 (VI 1)))) as Hsl by (unfold scalar_heap, alloc_heap; simpl; rewrite app_length; simpl; lia).
  unfold ones_like. erewrite bind_ok by (by apply get_ten_ok). rewrite ones_eq, fill_scalar_ok by done. rewrite cpp_cvt_one, Hsl, Hf.
  eexists _, _, _. split; [done|]. split; [eapply extends_trans; [|apply alloc_extends]; apply alloc_extends|]. split; [apply alloc_ten|].
  split; [done|]. split; [done|]. split; [done|]. split; [|split].
  - apply lookup_ge_None_2. cbn [fresh_rec t_sto]. unfold scalar_heap, alloc_heap. simpl. rewrite app_length. lia.
  - apply lookup_ge_None_2. rewrite <- Hsl. lia.
  - split.
    + cbn [fresh_rec t_sto]. rewrite alloc_sto. do 3 f_equal. unfold rm_cells. cbn [contig sizes].
      assert (Forall (fun n => 0 <= n) (shape r)) as Hnn by (by eapply allocable_nonneg).
      assert (f_of_Z (fmt (t_dt r)) 1 = 1%Qc) as E1 by (by apply Qc_is_canon). rewrite E1.
      pose proof (length_indices _ Hnn) as Hl. assert (Z.to_nat (size_prod (shape r)) = length (indices (shape r))) as -> by lia. clear.
      change (sizes (t_lay r)) with (shape r). induction (indices (shape r)) as [|i l IH]; [done|]. cbn [map length replicate]. by f_equal.
    + rewrite replicate_length, Z2Nat.id; [done|]. apply size_prod_nonneg. by eapply allocable_nonneg.
Qed.

(** what backward() does to everything else *)
Definition fn_shape (r : tensor) : option (bkind * list nat) := (fun f => (gf_kind f, gf_in f)) <$> t_fn r.
Record effect (h0 : heap) (t : nat) (h' : heap) : Prop := Effect {
  ef_rec : forall y r0, h_ten h0 !! y = Some r0 -> exists r, h_ten h' !! y = Some r /\ same_data r0 r /\ t_rg r = t_rg r0 /\
    t_ret r = t_ret r0 /\ fn_shape r = fn_shape r0 /\
    (t_fn r0 = None -> t_fn r = None /\ forall g, t_grad r0 = Some g -> t_grad r = Some g) /\
    (~ below h0 t y -> t_fn r = t_fn r0 /\ t_grad r = t_grad r0) /\ (t_rg r0 = false -> t_grad r = t_grad r0);
  ef_sto : forall s x, outside h0 t s -> h_sto h0 !! s = Some x -> h_sto h' !! s = Some x;
  ef_leaf : forall b r, base h0 t b -> ~ is_node h0 b -> h_ten h' !! b = Some r -> exists s, has_grad h' b s /\ buffer h' b s;
  ef_sep : forall x y s, base h0 t x -> base h0 t y -> ~ is_node h0 x -> ~ is_node h0 y -> has_grad h' x s -> has_grad h' y s -> x = y;
  ef_apart : forall x s, base h0 t x -> ~ is_node h0 x -> has_grad h' x s -> ~ outside h0 t s;
  ef_nodes : forall x r, below h0 t x -> is_node h0 x -> h_ten h' !! x = Some r -> if t_ret r then is_Some (t_grad r) else t_grad r = None;
  ef_num : forall b r, base h0 t b -> ~ is_node h0 b -> h_ten h' !! b = Some r -> exists s qs, has_grad h' b s /\ num_buffer h' s (t_dt r) (t_lay r) qs
}.

#[local] Existing Instance is_view_dec.
Section loop_end.
Variables (h0 : heap) (t : nat) (d : tangent) (ls kp ms : list nat).
(** the end of the loop: [q] is what the leaves paired to before, with what the root adds *)
Lemma loop_end q R B P U h' : NoDup kp -> tinv h0 -> grad_core h0 t -> NoDup R -> (forall x, x ∈ R <-> region h0 t x) -> NoDup B -> (forall b, b ∈ B <-> base h0 t b) ->
  (forall x f, below h0 t x -> x ∉ kp -> fn_of h0 x = Some f -> if decide (x <> t /\ is_mean h0 x) then d x [] = 0%Qc else rule h0 d x (gf_kind f) (gf_in f)) ->
  (forall x, x ∈ kp -> is_node h0 x /\ base h0 t x /\ x <> t /\ (exists r, h_ten h0 !! x = Some r /\ t_ret r = true) /\
    forall f, fn_of h0 x = Some f -> ~ is_mean h0 x -> rule2 h0 d (fun _ => 0%Qc) x (gf_kind f) (gf_in f)) ->
  leaves h0 t ls -> means h0 t ms -> main_inv h0 t R P [] h' -> ginv h0 t (rest kp P) U h' -> phi h0 d B (rest kp P) h' = (q + sumq (map (gain h0 t d) P))%Qc ->
  (forall p y, p ∈ P -> y ∈ inputs h0 p -> y ∈ U) ->
  pairing h' (kp ++ ls) d = (q + sumq (map (mean_rate h0 d) ms))%Qc /\ effect h0 t h'.
Proof.
  intros Hdk Hinv Hgr HdR HR HdB HB Hrule HK' Hls Hms HI' G' F HU.
  assert (forall x, x ∈ kp -> base h0 t x /\ x <> t /\ (exists r, h_ten h0 !! x = Some r /\ t_ret r = true) /\
    forall f, fn_of h0 x = Some f -> ~ is_mean h0 x -> rule2 h0 d (fun _ => 0%Qc) x (gf_kind f) (gf_in f)) as HK by (intros x Hx; by apply HK').
  destruct (gc_root _ _ Hgr) as (r & f & Hr & Hf & Hrg).
  assert (forall x, region h0 t x -> x ∈ P) as Hall by (by apply (main_end h0 t R Hinv HdR HR P h' HI')).
  assert (forall x, x ∈ P -> region h0 t x) as HP. { intros x Hx. apply (mi_region _ _ _ _ _ _ HI' x). by rewrite app_nil_r. }
  assert (forall x, ~ is_node h0 x -> x ∉ P) as Hleaf' by (intros x Hx [_ ?]%HP; done).
  assert (forall x, ~ is_node h0 x -> x ∉ rest kp P) as Hleaf by (intros x Hx [? _]%rest_in; by eapply Hleaf').
  split; [|split].
  2:{ intros y r0 Hr0. destruct (mi_kept _ _ _ _ _ _ HI' y r0 Hr0) as (r1 & Hr1 & K1 & K2 & K3 & K4 & K5 & K6). exists r1.
    split_and!; try done. unfold fn_shape. destruct (t_fn r0) as [f0|] eqn:Ef0; [|by rewrite (proj1 (K4 eq_refl))].
    assert (fn_of h0 y = Some f0) as Hfy by (unfold fn_of; by rewrite Hr0).
    destruct (decide (y ∈ R)) as [Hy|Hy].
    - apply HR in Hy. destruct (mi_nodes _ _ _ _ _ _ HI' y Hy) as (r2 & f2 & Hr2 & Hf2 & _ & E2). assert (r2 = r1) as -> by congruence.
      assert (f2 = f0) as -> by congruence. by rewrite E2.
    - rewrite HR in Hy. destruct K5 as [-> _]; [|done]. intros Hb. apply Hy. split; [done|]. by exists f0. }
  2:{ intros s x Hs Hx. by apply (gi_data _ _ _ _ _ G'). }
  2:{ intros b rb Bb Hn Hrb. destruct (gi_base _ _ _ _ _ G' b rb Bb (Hleaf b Hn) Hrb) as [Hnone|?]; [exfalso|done].
    destruct Bb as (Hb & (rb0 & Hrb0 & Hg0) & _). destruct (mi_kept _ _ _ _ _ _ HI' b rb0 Hrb0) as (r1 & Hr1 & _ & K2 & _).
    assert (r1 = rb) as -> by congruence.
    destruct (mi_grad _ _ _ _ _ _ HI' b rb Hrb (Hleaf' b Hn)) as [? ?]; [congruence| |congruence].
    destruct Hb as [|c y Hb Hin]; [by left|right]. exists c. split; [|done]. apply Hall. split; [done|].
    unfold inputs in Hin. unfold is_node. destruct (fn_of h0 c); [done|]. by apply elem_of_nil in Hin. }
  2:{ intros x y s Bx By Nx Ny. apply (gi_sep _ _ _ _ _ G'); auto. }
  2:{ intros x s Bx Nx. apply (gi_apart _ _ _ _ _ G'); auto. }
  2:{ intros x rx Hb Hn Hrx. apply (mi_done _ _ _ _ _ _ HI' x rx); [|done]. by apply Hall. }
  2:{ intros b rb Bb Hn Hrb. pose proof Bb as (Hb & Tb & Vb).
    assert (b ∈ U) as HbU.
    { destruct Hb as [|c y Hb Hin]; [destruct Hn; by exists f; unfold fn_of; rewrite Hr|]. apply (HU c y); [|done]. apply Hall. split; [done|].
      unfold inputs in Hin. unfold is_node. destruct (fn_of h0 c); [done|]. by apply elem_of_nil in Hin. }
    destruct (gi_used _ _ _ _ _ G' b HbU (Hleaf b Hn)) as (s & b' & rb' & qs & H1 & H2 & H3 & H4 & H5); [done|].
    assert (b' = b) as -> by (symmetry; eapply base_fun; [by apply base_self|done]). assert (rb' = rb) as -> by congruence. by exists s, qs. }
  destruct Hls as [Hdl Hl].
  rewrite <- (phi_end h0 t d B Hinv Hgr HdB HB (kp ++ ls) (rest kp P) U h'); [| | |exact G'].
  - rewrite F. f_equal.
    pose proof (mi_dup _ _ _ _ _ _ HI') as HdP. rewrite app_nil_r in HdP. destruct Hms as [Hdm Hm].
    trans (sumq (map (gain h0 t d) (filter (fun x => x <> t /\ is_mean h0 x) P))).
    + clear. induction P as [|p P IH]; [done|]. cbn [map]. destruct (decide (p <> t /\ is_mean h0 p)) as [Hp|Hp].
      * rewrite filter_cons_True by done. cbn [map sumq foldr]. f_equal. exact IH.
      * rewrite filter_cons_False by done. rewrite <- IH. change (gain h0 t d p + sumq (map (gain h0 t d) P) = sumq (map (gain h0 t d) P))%Qc.
        unfold gain at 1. rewrite decide_False by done. ring.
    + assert (filter (fun x => x <> t /\ is_mean h0 x) P ≡ₚ ms) as Hp.
      { apply NoDup_Permutation; [by apply NoDup_filter|done|]. intros x. rewrite elem_of_list_filter, Hm. unfold mean_below. split.
        - intros [[? ?] [? _]%HP]. done.
        - intros (? & ? & Hx). split; [done|]. apply Hall. split; [done|]. destruct Hx as (fx & ? & _). by exists fx. }
      rewrite (sumq_perm _ _ (Permutation_map _ Hp)). apply sumq_ext. intros x (_ & Hx)%Hm. unfold gain. by rewrite decide_True.
  - apply NoDup_app. split; [done|]. split; [|done]. intros x (Nx & _)%HK' (_ & Nx' & _)%Hl. done.
  - intros x. rewrite elem_of_app, rest_in, Hl. split.
    + intros [Hk|(H1 & H2 & H3)].
      * split; [by apply HK|]. tauto.
      * split; [split; [done|]; split; [done|]; intros (g & Hg' & _); apply H2; by exists g|]. intros [Hp _]. by apply (Hleaf' x).
    + intros [(H1 & H2 & H3) H4]. destruct (decide (x ∈ kp)) as [?|Hk]; [by left|right]. split; [done|]. split; [|done].
      intros Hn. apply H4. split; [by apply Hall|done].
Qed.
End loop_end.
Section start.
Variables (h0 : heap) (t : nat).
Hypothesis Hinv : tinv h0.
Hypothesis Hver : vinv h0.
Hypothesis Hgr : grad_base h0 t.
Hypothesis Hroot : exists r f, h_ten h0 !! t = Some r /\ t_fn r = Some f /\ t_rg r = true /\ t_lay r = contig (shape r) /\
  size_prod (shape r) = 1 /\ ~ is_view h0 t.
Lemma prepare_start : exists h5 so r, prepare t h0 = (Ok tt, h5) /\ h_ten h0 !! t = Some r /\ rsim [t] h0 h5 /\
  (forall s x, h_sto h0 !! s = Some x -> h_sto h5 !! s = Some x) /\ has_grad h5 t so /\ h_sto h0 !! so = None /\
  num_buffer h5 so (t_dt r) (t_lay r) [1%Qc].
Proof.
  destruct (Hroot) as (r & f & Hr & Hf & Hrg & El & E1 & Hv).
  destruct (live_rec h0 t Hinv Hgr t) as (r' & Hr' & _ & Hfl & _ & _ & Hal & _); [split; [constructor|by exists r]|]. assert (r' = r) as -> by congruence. clear Hr'.
  assert (lnumel (t_lay r) = 1) as Hone. { unfold lnumel. change (sizes (t_lay r)) with (shape r). by rewrite (allocable_numel _ _ Hal). }
  assert (fn_of h0 t = Some f) as Hft by (unfold fn_of; by rewrite Hr).
  destruct (refresh_ok h0 t f Hinv Hver Hft) as (R & h1 & E2 & _ & _ & S1 & _ & T1). set (e := e2 _ _ _ _ _) in T1.
  assert (h_ten h1 !! t = Some (on_fn e t r)) as Hr1 by (rewrite T1, Hr; done).
  destruct (ones_buffer h1 t (on_fn e t r) Hr1) as (h2 & w & wr & E3 & X2 & Hw & W1 & W2 & W3 & W4 & W5 & Hnb); [done..|]. simpl in W1, W2, Hnb.
  change (shape (on_fn e t r)) with (shape r) in *. rewrite E1 in Hnb.
  assert (h_ten h2 !! t = Some (on_fn e t r)) as Hr2 by (by apply X2). assert (w <> t) as Hwt by (intros ->; congruence).
  set (r3 := with_grad (on_fn e t r) (Some w)). set (h3 := Hp (h_sto h2) (<[t := r3]> (h_ten h2)) (h_ver h2)).
  set (h4 := Hp (h_sto h3) (h_ten h3) (h_ver h3 + 1)).
  assert (h_ten h4 !! t = Some r3) as Hr4 by (simpl; apply list_lookup_insert; by eapply lookup_lt_Some).
  assert (fn_of h4 t = Some (e t f)) as Hf4. { unfold fn_of. rewrite Hr4. simpl. by rewrite Hf. }
  destruct (upd_fn_state h4 t _ (fun g => gf_with_ver g (h_ver h3 + 1)) Hf4) as (h5 & E5 & S5 & _ & T5).
  assert (h_sto h5 = h_sto h2) as S5' by done.
  assert (forall y ry, h_ten h4 !! y = Some ry -> exists o, h_ten h5 !! y = Some (with_fn ry o)) as K5.
  { intros y ry Hy. rewrite T5, Hy. by eexists. }
  exists h5, (t_sto wr), r. split; [|split; [done|split; [|split; [|split; [|split]]]]].
  - unfold prepare. erewrite bind_ok by (by apply get_ten_ok). unfold run_expect. rewrite Hrg, Hf, Hone, Z.eqb_refl. do 3 rewrite bind_ret.
    erewrite bind_ok by exact E2. erewrite bind_ok by exact E3. erewrite bind_ok by (by apply get_ten_ok).
    erewrite bind_ok by (erewrite set_ten_eq by done; reflexivity). erewrite bind_ok by reflexivity. exact E5.
  - intros y ry Hy. destruct (decide (y = t)) as [->|Hne].
    + destruct (K5 t r3 Hr4) as (o & Ho). exists (with_fn r3 o). assert (ry = r) as -> by congruence. split; [done|]. split; [done|]. split; [done|].
      intros []. apply elem_of_list_here.
    + destruct (K5 y (on_fn e y ry)) as (o & Ho); [simpl; rewrite list_lookup_insert_ne by done; apply X2; by rewrite T1, Hy|].
      exists (with_fn (on_fn e y ry) o). split; [done|]. split; [done|]. done.
  - intros s x Hx. rewrite S5'. apply X2. by rewrite S1.
  - destruct (K5 t r3 Hr4) as (o & Ho). destruct (K5 w wr) as (o' & Ho'); [simpl; by rewrite list_lookup_insert_ne|].
    exists (with_fn r3 o), w, (with_fn wr o'). split; [done|]. split; [done|]. split; [done|]. split; [done|]. split; [|done]. simpl. by rewrite W1.
  - by rewrite <- S1.
  - destruct Hnb as [N1 N2]. split; [by rewrite S5', El|by rewrite El].
Qed.
End start.
Section root.
Variables (h0 : heap) (t : nat) (d : tangent) (ls kp ms : list nat).
Hypothesis Hinv : tinv h0.
Hypothesis Hver : vinv h0.
Hypothesis Hsz : sized h0.
Hypothesis Hgr : grad_ready h0 t.
Hypothesis Hls : leaves h0 t ls.
Hypothesis Hms : means h0 t ms.

Lemma backward_kept : views_obey h0 t d -> NoDup kp ->
  (forall x f, below h0 t x -> x ∉ kp -> fn_of h0 x = Some f -> if decide (x <> t /\ is_mean h0 x) then d x [] = 0%Qc else rule h0 d x (gf_kind f) (gf_in f)) ->
  (forall x, x ∈ kp -> is_node h0 x /\ base h0 t x /\ x <> t /\ (exists r, h_ten h0 !! x = Some r /\ t_ret r = true) /\
    forall f, fn_of h0 x = Some f -> ~ is_mean h0 x -> rule2 h0 d (fun _ => 0%Qc) x (gf_kind f) (gf_in f)) ->
  exists h', backward t h0 = (Ok tt, h') /\
  pairing h' (kp ++ ls) d = (pairing h0 ls d + sum_over (shape_of h0 t) (d t) + sumq (map (mean_rate h0 d) ms))%Qc /\ effect h0 t h'.
Proof.
  intros Hob Hdk Hrule HK'. assert (forall x, x ∈ kp -> base h0 t x /\ x <> t /\ (exists r, h_ten h0 !! x = Some r /\ t_ret r = true) /\
    forall f, fn_of h0 x = Some f -> ~ is_mean h0 x -> rule2 h0 d (fun _ => 0%Qc) x (gf_kind f) (gf_in f)) as HK by (intros x Hx; by apply HK').
  destruct (prepare_start h0 t Hinv Hver Hgr (gr_root _ _ Hgr)) as (h5 & so & r & E5 & Hr & K & HS & Hg & Hso & Hnum).
  destruct (gr_root _ _ Hgr) as (r' & f & Hr' & Hf & Hrg & El & E1 & Hv). assert (r' = r) as -> by congruence. clear Hr'.
  destruct (live_rec h0 t Hinv Hgr t) as (r' & Hr' & _ & _ & _ & _ & Hal & _); [split; [constructor|by exists r]|]. assert (r' = r) as -> by congruence. clear Hr'.
  assert (lnumel (t_lay r) = 1) as Hone. { unfold lnumel. change (sizes (t_lay r)) with (shape r). by rewrite (allocable_numel _ _ Hal). }
  destruct (prepare_ok h0 t r f Hinv Hver Hsz Hr Hf Hrg Hone (Deriv.gr_new _ _ Hgr)) as (R & HdR & HR & Hp).
  unfold nd, wp in Hp. rewrite E5 in Hp. destruct Hp as [_ HI].
  assert (exists B, NoDup B /\ forall b, b ∈ B <-> base h0 t b) as (B & HdB & HB).
  { exists (filter (fun x => ~ is_view h0 x) R ++ ls). destruct Hls as [Hd Hl]. split.
    - apply NoDup_app. split; [by apply NoDup_filter|]. split; [|done]. intros x [_ [_ Hx]%HR]%elem_of_list_filter (_ & Hn & _)%Hl. done.
    - intros b. rewrite elem_of_app, elem_of_list_filter, HR, Hl. unfold base. split.
      + intros [(H1 & H2 & H3)|(H1 & H2 & H3)].
        * split; [done|]. split; [|done]. destruct H3 as [g Hg']. unfold fn_of in Hg'. destruct (h_ten h0 !! b) as [rb|] eqn:Eb; [|done].
          destruct (Deriv.gr_new _ _ Hgr b rb g H2 Eb Hg') as [Hrgb _]. by exists rb.
        * split; [done|]. split; [done|]. intros (g & Hg' & _). apply H2. by exists g.
      + intros (H1 & H2 & H3). destruct (decide (is_node h0 b)); [left|right]; done. }
  destruct (start_ok h0 t d B Hinv Hgr Hob HdB HB (gr_root _ _ Hgr) h5 so r Hr K HS Hg Hso Hnum) as (G & Hgp & Hphi).
  destruct (loop_ok h0 t d B R kp Hinv Hgr Hob Hrule HdB HB HR HK h5 HI G Hgp) as (P & h' & U & E & HI' & G' & F & HU).
  exists h'. split; [rewrite backward_eq; by erewrite bind_ok by exact E5|].
  rewrite Hphi, (phi_start h0 t d B Hinv Hgr HdB HB (gr_root _ _ Hgr) ls Hls) in F.
  apply (loop_end h0 t d ls kp ms _ R B P U h' Hdk Hinv Hgr HdR HR HdB HB Hrule HK' Hls Hms HI' G' F HU).
Qed.
Lemma backward_cut : kp = [] -> obeys_cut h0 t d -> exists h', backward t h0 = (Ok tt, h') /\
  pairing h' ls d = (pairing h0 ls d + sum_over (shape_of h0 t) (d t) + sumq (map (mean_rate h0 d) ms))%Qc /\ effect h0 t h'.
Proof.
  intros Hk (H1 & H2 & H3). pose proof backward_kept as K. rewrite Hk in K. apply K.
  - split; [|done]. intros x f Hb _ Hf Hv. apply H1; [done| |done]. intros (_ & _ & f' & Hf' & Hk'). congruence.
  - apply NoDup_nil_2.
  - intros x f Hb _ Hf. case_decide as Hm; [apply H2; by destruct Hm|]. apply H1; [done| |done]. intros (_ & ? & ?). by apply Hm.
  - by intros x ?%elem_of_nil.
Qed.
End root.
Lemma obeys_obeys_cut h t d : (forall x, ~ mean_below h t x) -> obeys h t d -> obeys_cut h t d.
Proof. intros Hm [H1 H2]. split_and!; [intros; by apply H1|intros x idx Hx; by destruct (Hm x)|done]. Qed.
Lemma no_means h t : (forall x, ~ mean_below h t x) -> means h t [].
Proof. intros Hm. split; [apply NoDup_nil_2|]. intros x. split; [by intros ?%elem_of_nil|]. intros Hx. by destruct (Hm x). Qed.
Section root.
Variables (h0 : heap) (t : nat) (d : tangent) (ls : list nat).
Hypothesis Hinv : tinv h0.
Hypothesis Hver : vinv h0.
Hypothesis Hsz : sized h0.
Hypothesis Hgr : grad_ready h0 t.
Hypothesis Hmean : forall x, ~ mean_below h0 t x.
Hypothesis Hob : obeys h0 t d.
Hypothesis Hls : leaves h0 t ls.
Lemma backward_full : exists h', backward t h0 = (Ok tt, h') /\
  pairing h' ls d = (pairing h0 ls d + sum_over (shape_of h0 t) (d t))%Qc /\ effect h0 t h'.
Proof.
  destruct (backward_cut h0 t d ls [] [] Hinv Hver Hsz Hgr Hls (no_means h0 t Hmean) eq_refl (obeys_obeys_cut h0 t d Hmean Hob)) as (h' & E & P & F).
  exists h'. split; [done|]. split; [|done]. rewrite P. cbn [map sumq foldr]. ring.
Qed.
Lemma backward_gradient : exists h', backward t h0 = (Ok tt, h') /\
  pairing h' ls d = (pairing h0 ls d + sum_over (shape_of h0 t) (d t))%Qc.
Proof. destruct backward_full as (h' & H1 & H2 & _). by exists h'. Qed.
End root.
