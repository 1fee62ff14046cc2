(** backward() started at a view: it passes no gradient on, and the rest of the loop adds only
    what the means add of their own. *)
From Verif.Proofs Require Export Grad.
From Verif.Model Require Export Exact Api.
#[local] Existing Instance Exact.
#[local] Existing Instance is_view_dec.

Section vroot.
Variables (h0 : heap) (t : nat) (d : tangent) (ls ms : list nat).
Hypothesis Hinv : tinv h0.
Hypothesis Hver : vinv h0.
Hypothesis Hsz : sized h0.
Hypothesis Hgr : grad_core h0 t.
Hypothesis Hvt : is_view h0 t.
Hypothesis Hone : size_prod (shape_of h0 t) = 1.
Hypothesis Hls : leaves h0 t ls.
Hypothesis Hms : means h0 t ms.
Hypothesis Hcut : obeys_cut h0 t d.

Lemma not_base : ~ base h0 t t.
Proof. intros (_ & _ & ?). done. Qed.
Lemma input_ne x : below h0 t x -> t ∉ inputs h0 x.
Proof.
  intros Hx Ht. pose proof (below_le h0 t Hinv _ Hx). unfold inputs in Ht. destruct (fn_of h0 x) as [f|] eqn:Ef; [|by apply elem_of_nil in Ht].
  destruct (tinv_inputs h0 x f Hinv Ef) as (_ & _ & _ & _ & Hin). destruct (Hin t Ht). lia.
Qed.
Lemma root_up : upclosed h0 t [t].
Proof. intros p c ->%elem_of_list_singleton [Hc _] _ Hin. by destruct (input_ne c Hc). Qed.
Lemma views_ok : views_obey h0 t d.
Proof.
  destruct Hcut as (H1 & H2 & H3). split; [|done]. intros x f Hb _ Hf Hv. apply H1; [done| |done]. intros (_ & _ & f' & Hf' & Hk'). congruence.
Qed.
Lemma rules_ok x f : below h0 t x -> x ∉ @nil nat -> fn_of h0 x = Some f -> if decide (x <> t /\ is_mean h0 x) then d x [] = 0%Qc else rule h0 d x (gf_kind f) (gf_in f).
Proof.
  destruct Hcut as (H1 & H2 & H3). intros Hb _ Hf. case_decide as Hm; [apply H2; by destruct Hm|]. apply H1; [done| |done]. intros (_ & ? & ?). by apply Hm.
Qed.
Lemma ginv_first : ginv h0 t [t] [] h0.
Proof.
  assert (forall b, base h0 t b -> b <> t) as Hne by (intros b Hb ->; by apply not_base).
  split.
  - intros y r0 Hr0. exists r0. split; [done|]. split; [apply same_data_refl|done].
  - done.
  - intros b r Bb _ Hr. pose proof Bb as (Hb & Tb & Vb). destruct (gc_grad _ _ Hgr b r Hb (Hne b Bb) Tb Vb Hr) as [?|(s & H1 & H2)]; [by left|right].
    exists s. split; [done|]. exists r. split; [done|]. destruct H2 as [H2|[_ H2]]; [by left|by right].
  - intros y b [By Ty] Vy Hy Hb. apply (gc_view _ _ Hgr y b By); [|done|done]. intros ->. apply Hy, elem_of_list_here.
  - intros x y s Bx By _ _ H1 H2. pose proof (Hne x Bx). pose proof (Hne y By). destruct Bx as (? & ? & ?), By as (? & ? & ?). by eapply (gc_sep _ _ Hgr x y s).
  - intros x s Bx _ H1 [_ Hn]. apply (Hn x Bx); [by apply Hne|done].
  - by intros y ?%elem_of_nil.
Qed.
Lemma prepare_view : exists h5, prepare t h0 = (Ok tt, h5) /\ rsim [t] h0 h5 /\ (forall s x, h_sto h0 !! s = Some x -> h_sto h5 !! s = Some x).
Proof.
  destruct (gc_root _ _ Hgr) as (r & f & Hr & Hf & Hrg).
  assert (shape_of h0 t = shape r) as Es by (unfold shape_of, lay_of; by rewrite Hr). rewrite Es in Hone.
  destruct (live_rec h0 t Hinv Hgr t) as (r' & Hr' & _ & Hfl & _ & _ & Hal & _); [split; [constructor|by exists r]|]. assert (r' = r) as -> by congruence. clear Hr'.
  assert (lnumel (t_lay r) = 1) as Hln. { unfold lnumel. change (sizes (t_lay r)) with (shape r). by rewrite (allocable_numel _ _ Hal). }
  assert (fn_of h0 t = Some f) as Hft by (unfold fn_of; by rewrite Hr).
  destruct (refresh_ok h0 t f Hinv Hver Hft) as (R & h1 & E2 & _ & _ & S1 & _ & T1). set (e := e2 _ _ _ _ _) in T1.
  assert (h_ten h1 !! t = Some (on_fn e t r)) as Hr1 by (rewrite T1, Hr; done).
  destruct (ones_buffer h1 t (on_fn e t r) Hr1) as (h2 & w & wr & E3 & X2 & Hw & W1 & W2 & W3 & W4 & W5 & _); [done..|].
  assert (h_ten h2 !! t = Some (on_fn e t r)) as Hr2 by (by apply X2).
  set (r3 := with_grad (on_fn e t r) (Some w)). set (h3 := Hp (h_sto h2) (<[t := r3]> (h_ten h2)) (h_ver h2)).
  set (h4 := Hp (h_sto h3) (h_ten h3) (h_ver h3 + 1)).
  assert (h_ten h4 !! t = Some r3) as Hr4 by (simpl; apply list_lookup_insert; by eapply lookup_lt_Some).
  assert (fn_of h4 t = Some (e t f)) as Hf4. { unfold fn_of. rewrite Hr4. simpl. by rewrite Hf. }
  destruct (upd_fn_state h4 t _ (fun g => gf_with_ver g (h_ver h3 + 1)) Hf4) as (h5 & E5 & S5 & _ & T5).
  assert (h_sto h5 = h_sto h2) as S5' by done.
  assert (forall y ry, h_ten h4 !! y = Some ry -> exists o, h_ten h5 !! y = Some (with_fn ry o)) as K5.
  { intros y ry Hy. rewrite T5, Hy. by eexists. }
  exists h5. split; [|split].
  - unfold prepare. erewrite bind_ok by (by apply get_ten_ok). unfold run_expect. rewrite Hrg, Hf, Hln, Z.eqb_refl. do 3 rewrite bind_ret.
    erewrite bind_ok by exact E2. erewrite bind_ok by exact E3. erewrite bind_ok by (by apply get_ten_ok).
    erewrite bind_ok by (erewrite set_ten_eq by done; reflexivity). erewrite bind_ok by reflexivity. exact E5.
  - intros y ry Hy. destruct (decide (y = t)) as [->|Hne].
    + destruct (K5 t r3 Hr4) as (o & Ho). exists (with_fn r3 o). assert (ry = r) as -> by congruence. split; [done|]. split; [done|]. split; [done|].
      intros []. apply elem_of_list_here.
    + destruct (K5 y (on_fn e y ry)) as (o & Ho); [simpl; rewrite list_lookup_insert_ne by done; apply X2; by rewrite T1, Hy|].
      exists (with_fn (on_fn e y ry) o). split; [done|]. split; [done|]. done.
  - intros s x Hx. rewrite S5'. apply X2. by rewrite S1.
Qed.

Section loop.
Variables (B R : list nat).
Hypothesis HdB : NoDup B.
Hypothesis HB : forall b, b ∈ B <-> base h0 t b.
Hypothesis HdR : NoDup R.
Hypothesis HR : forall x, x ∈ R <-> region h0 t x.
Notation phi := (phi h0 d B).
(** only the root's record changes, and buffers are added *)
Lemma same_phi U h h' : ginv h0 t [t] U h -> rsim [t] h h' -> (forall s x, h_sto h !! s = Some x -> h_sto h' !! s = Some x) ->
  ginv h0 t [t] U h' /\ phi [t] h' = phi [t] h.
Proof.
  intros G K HS. split.
  - eapply (ginv_step h0 t d B Hinv Hgr views_ok HB) with (P := [t]) (h := h); try done; try apply root_up. intros s z Hz. left. by apply HS.
  - apply (phi_same h0 t d B HB). intros b Bb Hb. eapply (gpot_keep h0 t d) with (P := [t]) (U := U) (P' := [t]) (h := h); try done.
    intros s Hs. destruct (live_rec h0 t Hinv Hgr b (base_live _ _ b Bb)) as (r0 & Hr0 & _). destruct (gi_rec _ _ _ _ _ G b r0 Hr0) as (rb & Hrb & _).
    destruct (gi_base _ _ _ _ _ G b rb Bb Hb Hrb) as [Hn|(s' & G1 & G2)].
    { destruct Hs as (r' & g & gr & H1 & H2 & _). congruence. }
    rewrite (has_grad_fun _ _ _ _ Hs G1). destruct (buffer_some _ _ _ G2) as [x Hx]. rewrite Hx. by apply HS.
Qed.
Lemma process_root h5 : main_inv h0 t R [] [t] h5 -> ginv h0 t [t] [] h5 ->
  exists new h', process t h5 = (Ok new, h') /\ main_inv h0 t R [t] new h' /\ ginv h0 t [t] (inputs h0 t) h' /\ phi [t] h' = phi [t] h5.
Proof.
  intros HI G. destruct (main_step h0 t R Hinv HR [] t [] h5 HI) as [(Rx & _ & _) Hm].
  destruct (mi_nodes _ _ _ _ _ _ HI t Rx) as (rx & fx & Hrx & Hfx & Hrgx & Hfnx). set (gx := Gfn _ _ _ _ _) in Hfnx.
  assert (fn_of h5 t = Some gx) as Hgx by (unfold fn_of; by rewrite Hrx).
  assert (gf_in fx = inputs h0 t) as Ein by (unfold inputs; by rewrite Hfx).
  destruct Hvt as (f' & Hf' & Hk). assert (f' = fx) as -> by congruence.
  pose proof (gc_node _ _ Hgr t fx ltac:(constructor) Hfx) as Hn. rewrite Hk in Hn. destruct (gf_in fx) as [|a [|]] eqn:Ei; try done.
  assert (below h0 t a) as Ba by (eapply below_in; [constructor|]; rewrite <- Ein; apply elem_of_list_here).
  assert (a ∉ [t]) as Ha. { intros ->%elem_of_list_singleton. apply (input_ne t); [constructor|]. rewrite <- Ein. apply elem_of_list_here. }
  destruct (acc_none h0 t d B Hinv Hgr views_ok HdB HB [t] [] h5 a G root_up Ba Ha) as (h1 & E1' & G1 & F1 & _).
  assert (step_back t NoBack [a] h5 = (Ok tt, h1)) as E1. { unfold step_back. by rewrite (bind_input [a] 0 a). }
  pose proof (nd_back_part t gx h5 (mi_sized _ _ _ _ _ _ HI) (mi_tinv _ _ _ _ _ _ HI) Hgx) as Hbp. unfold nd, wp in Hbp.
  destruct (gi_rec _ _ _ _ _ G1 t) with (r0 := default rx (h_ten h0 !! t)) as (r1 & Hr1 & _).
  { unfold fn_of in Hfx. destruct (h_ten h0 !! t); done. }
  assert (exists h2, back_part t h5 = (Ok tt, h2)) as (h2 & E2).
  { unfold back_part. erewrite bind_ok by (by apply get_fn_ok). cbn [gx gf_kind gf_in]. rewrite Hk, ?Ei. erewrite bind_ok by exact E1.
    erewrite bind_ok by (by apply get_ten_ok). destruct (t_ret r1); eexists; done. }
  rewrite E2 in Hbp. destruct Hbp as [Hs2 (h1' & r & r2 & E1'' & Hsb & S2 & _ & Hr & Hd & T2)]. cbn [gx gf_kind gf_in] in E1''. rewrite Hk, ?Ei in E1''.
  assert (h1' = h1) as -> by congruence.
  rewrite process_eq in Hm |- *. erewrite !bind_ok in Hm |- * by exact E2.
  pose proof (back_part_fn t _ _ _ _ _ _ _ Hsb Hr Hd T2 t) as Hfn2. rewrite Hrx, Hfnx in Hfn2. cbn [fmap option_fmap option_map] in Hfn2.
  erewrite !bind_ok in Hm |- * by (by apply get_fn_ok).
  assert (forall y ry, h_ten h1 !! y = Some ry -> is_Some (h_ten h2 !! y)) as Hex.
  { intros y ry Hy. rewrite T2. apply lookup_lt_is_Some. rewrite insert_length. by eapply lookup_lt_Some. }
  cbn [gx gf_in gf_with_acc] in Hm |- *. rewrite ?Ei in Hm |- *.
  destruct (visit_ready_spec [a] h2) as (new & h3 & E3 & (S3 & _ & T3 & _)).
  { intros i Hi. rewrite Ein in Hi. destruct (input_lt h0 t Hinv t i Rx Hi) as [_ [ri Hri]]. destruct (gi_rec _ _ _ _ _ G1 i ri Hri) as (r' & Hr' & _). by eapply Hex. }
  rewrite E3 in Hm |- *. exists new, h3. split; [done|]. split; [done|].
  assert (forall y ry, h_ten h2 !! y = Some ry -> exists o, h_ten h3 !! y = Some (with_fn ry o)) as K3.
  { intros y ry Hy. rewrite T3, Hy. by eexists. }
  destruct (same_phi [a] h1 h3 G1) as [G3 F3].
  { intros y ry Hy. destruct (decide (y = t)) as [->|Hne].
    - assert (ry = r) as -> by congruence. destruct (K3 t r2) as (o & H3); [rewrite T2; apply list_lookup_insert; by eapply lookup_lt_Some|].
      exists (with_fn r2 o). destruct Hd as (D1 & D2 & D3 & D4 & D5). split; [done|]. split; [done|]. split; [done|]. intros []. apply elem_of_list_here.
    - destruct (K3 y ry) as (o & H3); [by rewrite T2, list_lookup_insert_ne|]. exists (with_fn ry o). split; [done|]. by split. }
  { intros s z Hz. by rewrite S3, S2. }
  rewrite <- Ein. split; [done|]. rewrite F3, F1. ring.
Qed.
Lemma phi_first : phi [t] h0 = pairing h0 ls d.
Proof.
  destruct Hls as [Hd Hl]. unfold Ginv.phi, pairing.
  assert (forall b, base h0 t b -> b ∉ [t]) as Hne by (intros b Hb ->%elem_of_list_singleton; by apply not_base).
  assert (forall x, base h0 t x -> is_node h0 x -> gpot h0 d h0 x = 0%Qc) as Hz.
  { intros x Bx Hn. pose proof Bx as (Hx & Tx & Vx). pose proof Tx as (r & Hr & _).
    destruct (gc_grad _ _ Hgr x r Hx) as [?|(s & H1 & [H2|[? _]])]; try done.
    - intros ->. apply (Hne t Bx), elem_of_list_here.
    - by eapply gpot_none.
    - by eapply (gpot_raw h0 d h0 x s (t_dt r) (t_lay r)). }
  trans (sumq (map (gpot h0 d h0) (filter (fun x => ~ is_node h0 x) B))).
  - assert (forall b, b ∈ B -> base h0 t b) as HB' by (intros b; apply HB). clear HB HdB. induction B as [|b B' IH]; [done|]. cbn [map].
    rewrite decide_False by (apply Hne, HB'; by constructor). destruct (decide (is_node h0 b)) as [Hb|Hb].
    + rewrite filter_cons_False by tauto. rewrite <- IH by (intros; apply HB'; by constructor). rewrite Hz; [apply Qcplus_0_l|apply HB'; by constructor|done].
    + rewrite filter_cons_True by done. cbn [map sumq foldr]. f_equal. apply IH. intros; apply HB'; by constructor.
  - assert (filter (fun x => ~ is_node h0 x) B ≡ₚ ls) as Hp.
    { apply NoDup_Permutation; [by apply NoDup_filter|done|]. intros x. rewrite elem_of_list_filter, Hl, HB. unfold base. split; [tauto|].
      intros (? & Hn & ?). split; [done|]. split; [done|]. split; [done|]. intros (f & Hf & _). apply Hn. by exists f. }
    rewrite <- (sumq_perm _ _ (Permutation_map _ Hp)). apply sumq_ext. intros x [Hx Bx%HB]%elem_of_list_filter.
    eapply (gpot_pairing h0 t d B); try done; [apply ginv_first|by apply Hne].
Qed.
End loop.

Lemma backward_view : exists h', backward t h0 = (Ok tt, h') /\
  pairing h' ls d = (pairing h0 ls d + sumq (map (mean_rate h0 d) ms))%Qc /\ effect h0 t h'.
Proof.
  destruct prepare_view as (h5 & E5 & K & HS). destruct (gc_root _ _ Hgr) as (r & f & Hr & Hf & Hrg).
  assert (shape_of h0 t = shape r) as Es by (unfold shape_of, lay_of; by rewrite Hr).
  destruct (live_rec h0 t Hinv Hgr t) as (r' & Hr' & _ & Hfl & _ & _ & Hal & _); [split; [constructor|by exists r]|]. assert (r' = r) as -> by congruence. clear Hr'.
  assert (lnumel (t_lay r) = 1) as Hln. { unfold lnumel. change (sizes (t_lay r)) with (shape r). rewrite (allocable_numel _ _ Hal). by rewrite <- Es. }
  destruct (prepare_ok h0 t r f Hinv Hver Hsz Hr Hf Hrg Hln (gc_new _ _ Hgr)) as (R & HdR & HR & Hp).
  unfold nd, wp in Hp. rewrite E5 in Hp. destruct Hp as [_ HI].
  assert (exists B, NoDup B /\ forall b, b ∈ B <-> base h0 t b) as (B & HdB & HB).
  { exists (filter (fun x => ~ is_view h0 x) R ++ ls). destruct Hls as [Hd Hl]. split.
    - apply NoDup_app. split; [by apply NoDup_filter|]. split; [|done]. intros x [_ [_ Hx]%HR]%elem_of_list_filter (_ & Hn & _)%Hl. done.
    - intros b. rewrite elem_of_app, elem_of_list_filter, HR, Hl. unfold base. split.
      + intros [(H1 & H2 & H3)|(H1 & H2 & H3)].
        * split; [done|]. split; [|done]. destruct H3 as [g Hg']. unfold fn_of in Hg'. destruct (h_ten h0 !! b) as [rb|] eqn:Eb; [|done].
          destruct (gc_new _ _ Hgr b rb g H2 Eb Hg') as [Hrgb _]. by exists rb.
        * split; [done|]. split; [done|]. intros (g & Hg' & _). apply H2. by exists g.
      + intros (H1 & H2 & H3). destruct (decide (is_node h0 b)); [left|right]; done. }
  destruct (same_phi B HB [] h0 h5 ginv_first K HS) as [G5 F5].
  destruct (process_root B R HdB HB HR h5 HI G5) as (new & h6 & E6 & HI6 & G6 & F6).
  rewrite F5, (phi_first B HdB HB) in F6.
  assert (forall x, x ∈ @nil nat -> base h0 t x /\ x <> t /\ (exists r, h_ten h0 !! x = Some r /\ t_ret r = true) /\
    forall f, fn_of h0 x = Some f -> ~ is_mean h0 x -> rule2 h0 d (fun _ => 0%Qc) x (gf_kind f) (gf_in f)) as HK by (by intros ? ?%elem_of_nil).
  destruct (length (h_ten h0)) as [|n] eqn:El; [apply lookup_lt_Some in Hr; lia|].
  destruct (loop_from h0 t d B R [] Hinv Hgr views_ok rules_ok HdB HB HR HK (pairing h0 ls d) n [t] new h6) as (P & h' & U & E & HI' & G' & F & HU).
  { split; [done|]. split; [|split].
    - exists (t :: inputs h0 t). assert (rest [] [t] = [t]) as -> by (unfold rest; rewrite filter_cons_True by apply not_elem_of_nil; done).
      split; [|split; [apply elem_of_list_here|intros p y ->%elem_of_list_singleton Hy; by right]].
      destruct G6 as [K1 K2 K3 K4 K5 K6 K7]. split; try done. intros y [->|Hy]%elem_of_cons Hp; [destruct Hp; apply elem_of_list_here|by apply K7].
    - assert (rest [] [t] = [t]) as -> by (unfold rest; rewrite filter_cons_True by apply not_elem_of_nil; done).
      rewrite F6. cbn [map sumq foldr]. unfold gain. rewrite decide_False; [ring|]. by intros [? _].
    - split; [done|right; apply elem_of_list_here]. }
  { rewrite El. simpl. lia. }
  exists h'. split.
  - rewrite backward_eq. erewrite bind_ok by exact E5. rewrite El. cbn [bfs]. erewrite bind_ok by exact E6. exact E.
  - destruct (loop_end h0 t d ls [] ms (pairing h0 ls d) R B P U h' (NoDup_nil_2) Hinv Hgr HdR HR HdB HB rules_ok) as [? ?]; try done. by intros ? ?%elem_of_nil.
Qed.
End vroot.
