(** One step of gradient descent. *)
From Verif.Spec Require Export Descent.
From Verif.Proofs Require Export Prog10 Inplace.
From Verif.Model Require Export Exact Api.
#[local] Existing Instance Exact.
#[local] Existing Instance is_view_dec.

Lemma not_uses h x s : ~ is_node h x -> ~ uses h x s.
Proof.
  intros Hn (y & f & z & r & Hb & Hf & _). apply Hn. assert (y = x) as <-; [|by exists f].
  clear Hf. induction Hb as [|u v Hb -> Hv]; [done|]. exfalso. unfold inputs in Hv. destruct (fn_of h x) as [g|] eqn:E; [destruct Hn; by exists g|].
  by apply elem_of_nil in Hv.
Qed.
Lemma leaf_below h x y : ~ is_node h x -> below h x y -> y = x.
Proof.
  intros Hn. induction 1 as [|u v Hb -> Hv]; [done|]. exfalso. unfold inputs in Hv. destruct (fn_of h x) as [g|] eqn:E; [destruct Hn; by exists g|].
  by apply elem_of_nil in Hv.
Qed.
Lemma zero_grad_runs h a r g gr dt b cs : h_ten h !! a = Some r -> t_grad r = Some g -> h_ten h !! g = Some gr -> floating dt = true ->
  h_sto h !! t_sto gr = Some (Sto dt b (Some cs)) -> exists h', exec (OZeroGrad (Some a)) h = (Ok RUnit, h') /\ h_ten h' = h_ten h /\
    forall s, s <> t_sto gr -> h_sto h' !! s = h_sto h !! s.
Proof.
  intros Ha Eg Hg Hf Hs. cbn [exec]. unfold deref, no_result, zero_grad. eexists. rewrite bind_ret, bind_assoc. erewrite bind_ok by (by apply get_ten_ok). rewrite Eg.
  rewrite bind_assoc. erewrite bind_ok by (by apply get_ten_ok). erewrite bind_ok by (by eapply sto_zero_at). split; [reflexivity|].
  split; [done|]. intros s Hne. by apply put_lookup_ne.
Qed.
Lemma compatible_self ss : compatible ss ss.
Proof. unfold compatible. apply Forall2_same_length_lookup_2; [done|]. intros i x y Hx Hy. left. congruence. Qed.
Lemma no_zero_one_self ss : no_zero_one ss ss.
Proof. intros k x y Hx Hy. split; intros []; congruence. Qed.
Lemma bshape_self ss : bshape ss ss = ss.
Proof. unfold bshape, pad. rewrite Nat.max_id, Nat.sub_diag. simpl. induction ss as [|n ss IH]; [done|]. simpl. rewrite IH. by case_match. Qed.

Section update.
Variables (ops : list op) (H : list nat) (T : nat -> Prop) (h : heap) (a c : nat) (ra rc : tensor) (g : nat) (rg : tensor) (H' : list nat).
Hypothesis Hp : program ops H T h.
Hypothesis Ha : at_hand h H a ra.
Hypothesis Hn : ~ is_node h a.
Hypothesis Hrg : t_rg ra = true.
Hypothesis Hg : t_grad ra = Some g.
Hypothesis Hgt : tensor_at h g rg (contents h rg).
Hypothesis Hc : at_hand h H c rc.
Hypothesis Hcr : t_rg rc = false.
Hypothesis Hcc : compatible (shape ra) (shape rc).
Hypothesis Hcz : no_zero_one (shape ra) (shape rc).
Hypothesis Hcs : bshape (shape ra) (shape rc) = shape ra.
Hypothesis Hcf : fits (dt_join (t_dt ra) (t_dt rc)) (shape ra).
Hypothesis HH : forall x, x ∈ H' -> x ∈ H /\ ~ is_node h x.
Hypothesis HaH : a ∈ H'.

Lemma update_core : exists s d h', nudged c a h g s d h' /\
  program (ops ++ update a c g s d) H' none h' /\
  (forall i, in_range (shape ra) i -> value h' a i = (value h a i + grad_value h a i * value h c (bidx (shape rc) i))%Qc) /\
  (forall i, grad_value h' a i = 0%Qc) /\
  (forall x rx, h_ten h !! x = Some rx -> h_ten h' !! x = Some rx) /\
  (forall s0 x, s0 <> t_sto ra -> s0 <> t_sto rg -> h_sto h !! s0 = Some x -> h_sto h' !! s0 = Some x).
Proof.
  destruct (program_facts _ _ _ _ Hp) as (Hinv & Hver & Hsz). destruct (program_GI _ _ _ _ Hp) as (D & G & HD).
  destruct (hand_at D T h H G HD a ra Ha) as (Da & Hat & Hfa & Hia).
  destruct (hand_at D T h H G HD c rc Hc) as (Dc & Hct & Hfc & Hic).
  assert (floating (t_dt ra) = true) as Hfl by (by eapply (hand_float h H Hinv a ra)).
  assert (forall b, b ∈ H -> ~ is_node h b -> ~ T b /\ ~ is_view h b) as Hlf.
  { intros b _ Hb. split; [intros [_ ?]%(g_sub _ _ _ G); done|intros (f & ? & _); apply Hb; by exists f]. }
  destruct (Hlf a (proj1 Ha) Hn) as [Ta Va].
  destruct (g_grad _ _ _ G a ra Da Ta ltac:(exists ra; split; [apply Ha|done]) Va (proj2 Ha)) as [?|(sg & Hs & Hb)]; [congruence|].
  pose proof Hs as (r1 & g1 & gr & L1 & L2 & L3 & L4 & L5 & L6 & L7). assert (r1 = ra) as -> by (destruct Ha; congruence). assert (g1 = g) as -> by congruence.
  assert (gr = rg) as -> by (destruct Hgt; congruence).
  destruct Hb as [Hb|(_ & qs & Hb & Hql)].
  { exfalso. destruct Hgt as [_ [(cs & (bb & Hbb) & _) _]]. unfold raw_buffer in Hb. congruence. }
  assert (shape rg = shape ra) as Esg by (unfold shape; by rewrite L5).
  (* g = a.grad() *)
  assert (exec (OGrad (Some a)) h = (Ok (RHandle (Some g)), h)) as E1.
  { cbn [exec]. unfold query, deref. rewrite bind_ret. erewrite bind_ok by (apply get_ten_ok, Ha). cbn. by rewrite Hg. }
  assert (program (ops ++ [OGrad (Some a)]) H T h) as P1.
  { eapply PLook; [exact Hp|constructor|exact E1|apply extends_refl|done|done]. }
  (* s = g * c *)
  destruct (arith_new AMul h g c ltac:(intros; apply qc_comm) rg rc _ _ Hgt Hct) as [Hm _]; [by rewrite Esg|by rewrite Esg|by rewrite Esg, Hcs, L4|].
  rewrite Esg, Hcs, L4 in Hm.
  assert (exists w, forall idx, in_range (shape ra) idx ->
     cpp_arith AMul (t_dt ra) (t_dt rc) (dt_join (t_dt ra) (t_dt rc)) (contents h rg (bidx (shape ra) idx)) (contents h rc (bidx (shape rc) idx)) = Some (w idx)) as [w Hw].
  { unfold cpp_arith. rewrite Hfl. by eexists. }
  destruct (Hm w Hw) as (s & h1 & E2 & Hnew). rewrite L6, Hcr in Hnew. cbn [orb] in Hnew.
  assert (program ((ops ++ [OGrad (Some a)]) ++ [OMul (Some g) (Some c)]) (s :: H) T h1) as P2.
  { eapply PNew; [exact P1|constructor|exact E2|exact Hnew|exact Hcf]. }
  pose proof Hnew as (X1 & Ns & rs & Hrs & Ss & Ds & Hss & Hrm & Rs & Gs & Hhs).
  (* d = a.detach() *)
  assert (h_ten h1 !! a = Some ra) as Ha1 by (by apply X1, Ha).
  destruct (detach_new h1 a ra Ha1) as (h2 & rd & E3 & St2 & Tn2 & D1 & D2 & D3 & D4 & D5 & D6). set (d := length (h_ten h1)) in *.
  assert (program (((ops ++ [OGrad (Some a)]) ++ [OMul (Some g) (Some c)]) ++ [ODetach (Some a)]) (d :: s :: H) T h2) as P3.
  { eapply PCall; [exact P2| |exact E3]. eapply CDetach. split; [|exact Ha1]. apply elem_of_cons. right. apply Ha. }
  assert (extends h1 h2) as X2. { split; [by intros; rewrite St2|]. intros x rx Hx. rewrite Tn2. by apply lookup_app_l_Some. }
  pose proof (extends_trans _ _ _ X1 X2) as X.
  assert (h_ten h2 !! d = Some rd) as Hrd by (rewrite Tn2, lookup_app_r, Nat.sub_diag by (unfold d; lia); done).
  assert (h_ten h2 !! s = Some rs) as Hrs2 by (by apply X2).
  assert (forall x rx, h_ten h !! x = Some rx -> h_ten h2 !! x = Some rx) as XT by apply X.
  (* give up what was computed *)
  assert (forall x, x ∈ d :: s :: H' -> ~ is_node h2 x) as Hlf2.
  { intros x [->|[->|[Hx Hnx]%HH]%elem_of_cons]%elem_of_cons.
    - intros [f Hf]. unfold fn_of in Hf. rewrite Hrd in Hf. congruence.
    - destruct (program_GI _ _ _ _ P3) as (D3' & G3 & HD3). intros [f Hf]. unfold fn_of in Hf. rewrite Hrs2 in Hf.
      destruct (g_free _ _ _ G3 s rs f) as [? _]; [apply HD3; mem|done|done|congruence].
    - intros [f Hf]. apply Hnx. exists f. unfold fn_of in *. destruct (g_rec _ _ _ G x (HD x Hx)) as (rx & Hrx & _).
      rewrite (XT x rx Hrx) in Hf. by rewrite Hrx. }
  assert (forall x, T x -> is_node h2 x) as HTn. { destruct (program_GI _ _ _ _ P3) as (D3' & G3 & HD3). intros x [_ ?]%(g_sub _ _ _ G3). done. }
  assert (program (((ops ++ [OGrad (Some a)]) ++ [OMul (Some g) (Some c)]) ++ [ODetach (Some a)]) (d :: s :: H') none h2) as P4.
  { eapply PForget; [exact P3|..].
    - intros x. rewrite !elem_of_cons. intros [?|[?|Hx]]; [by left|right; by left|do 2 right; by apply HH].
    - intros x. split; [done|]. intros [Tx (y & Hy & Hb')]. apply (Hlf2 y Hy). rewrite <- (leaf_below h2 y x) by auto. by apply HTn. }
  (* d += s *)
  assert (tensor_at h2 d rd (contents h2 rd)) as Hdt.
  { destruct (program_GI _ _ _ _ P4) as (D4' & G4 & HD4). by apply (hand_at D4' none h2 _ G4 HD4 d rd ltac:(split; [mem|done])). }
  assert (tensor_at h2 s rs (contents h2 rs)) as Hst.
  { destruct (program_GI _ _ _ _ P4) as (D4' & G4 & HD4). by apply (hand_at D4' none h2 _ G4 HD4 s rs ltac:(split; [mem|done])). }
  assert (t_sto rd <> t_sto rs) as Hne.
  { rewrite D3. intros E. destruct Hat as [_ [(cs & (bb & Hbb) & _) _]]. rewrite E in Hbb. congruence. }
  assert (shape rd = shape ra) as Esd by (unfold shape; by rewrite D2). assert (shape rs = shape ra) as Ess by (unfold shape; by rewrite Hss).
  assert (Forall (fun n => 0 <= n) (shape ra)) as Hnn by (destruct Hat; by eapply holds_nonneg).
  destruct (addeq_elementwise h2 d s rd rs _ _ Hdt Hst Hne) as [Hadd _].
  { by rewrite D2. } { done. } { rewrite Esd, Ess. apply compatible_self. } { rewrite Esd, Ess. by apply no_zero_one_self. } { rewrite Esd, Ess. by apply bshape_self. }
  assert (exists w', forall idx, in_range (shape rd) idx -> add_step (t_dt rd) (t_dt rs) (contents h2 rd idx) (contents h2 rs (bidx (shape rs) idx)) = Some (w' idx)) as [w' Hw'].
  { rewrite D1. unfold add_step, cpp_arith, cpp_cvt, usual. rewrite Hfl. cbn [orb]. by eexists. }
  destruct (Hadd w' Hw') as (h3 & E4 & Wr).
  assert (program ((((ops ++ [OGrad (Some a)]) ++ [OMul (Some g) (Some c)]) ++ [ODetach (Some a)]) ++ [OAddEq (Some d) (Some s)]) (d :: s :: H') none h3) as P5.
  { eapply PWrite; [exact P4|constructor|split; [apply elem_of_list_here|exact Hrd]|exact E4|exact Wr|..].
    - intros x Hx. apply not_uses. by apply Hlf2.
    - done. }
  pose proof Wr as (Et3 & Es3 & Hh3 & Hc3). rewrite D3 in *.
  assert (forall x rx, h_ten h !! x = Some rx -> h_ten h3 !! x = Some rx) as XT3 by (intros; rewrite Et3; auto).
  assert (program ((((ops ++ [OGrad (Some a)]) ++ [OMul (Some g) (Some c)]) ++ [ODetach (Some a)]) ++ [OAddEq (Some d) (Some s)]) H' none h3) as P6.
  { eapply PForget; [exact P5| |]; [intros; mem|]. intros x. split; [done|]. by intros []. }
  (* a.zero_grad() *)
  assert (sg <> t_sto ra) as Hsg. { intros E. apply (g_apart _ _ _ G a sg Da Ta Va Hs). exists a, ra. split; [by left|]. split; [apply Ha|done]. }
  assert (forall s0 x, s0 <> t_sto ra -> h_sto h !! s0 = Some x -> h_sto h3 !! s0 = Some x) as XS3 by (intros; rewrite Es3 by done; by apply X).
  destruct (zero_grad_runs h3 a ra g rg (t_dt ra) (size_of (t_dt ra) * size_prod (sizes (t_lay ra))) (map (fun q : Qc => Some (@VF Exact q)) qs)) as (h4 & E5 & Et4 & Es4).
  { apply XT3, Ha. } { done. } { by apply XT3. } { done. } { rewrite L7. by apply XS3. }
  assert (~ is_node h3 a) as Hn3. { intros [f Hf]. apply Hn. exists f. unfold fn_of in *. rewrite (XT3 a ra (proj2 Ha)) in Hf. by rewrite (proj2 Ha). }
  assert (at_hand h3 H' a ra) as Ha3 by (split; [done|apply XT3, Ha]).
  destruct (program_zero _ _ _ _ a ra h4 P6 Ha3 Hn3 E5) as (Z1 & Z2 & Z3).
  exists s, d, h4. split; [exists h1, h2, h3; done|]. split; [|split; [|split; [done|split]]].
  - pose proof (PZero _ _ _ _ a ra h4 P6 Ha3 Hn3 E5) as P7. rewrite <- !app_assoc in P7. exact P7.
  - intros i Hi. rewrite Z3 by done. rewrite (value_rec h3 a ra i (proj2 Ha3)), (value_rec h a ra i (proj2 Ha)).
    destruct (Hc3 ra i eq_refl) as [C1 _]. unfold contents at 1. rewrite (C1 i ltac:(by rewrite Esd) ltac:(by rewrite D2)).
    specialize (Hw' i ltac:(by rewrite Esd)). specialize (Hw i Hi). rewrite D1 in Hw'.
    unfold add_step in Hw'. destruct (cpp_arith AAdd _ _ _ _ _) as [z|] eqn:Ez; [|done]. apply cvt_num in Hw'; [|done]. rewrite Hw'.
    apply arith_num in Ez; [|by rewrite Hfl]. rewrite Ez. apply arith_num in Hw; [|by rewrite Hfl]. cbn [qop] in *.
    rewrite Ess, bidx_self by done. rewrite bidx_self in Hw by done.
    assert (contents h2 rs i = w i) as ->.
    { unfold contents. destruct Hhs as [_ Hhs]. destruct (Hhs i) as [Hhs1 _]; [by rewrite Hss|].
      assert (elem h2 rs i = elem h1 rs i) as ->; [|by rewrite Hhs1]. unfold elem, cells. by rewrite St2. }
    rewrite Hw. f_equal.
    + f_equal. unfold contents, elem, cells. rewrite D2, D3. destruct Hat as [_ [(cs & (bb & Hbb) & _) _]]. by rewrite (proj1 X _ _ Hbb), Hbb.
    + unfold grad_value. rewrite (proj2 Ha), Hg. rewrite (value_rec h g rg i L3), (value_rec h c rc _ (proj2 Hc)). done.
  - intros x rx Hx. rewrite Et4. by apply XT3.
  - intros s0 x N1 N2 Hx. rewrite Es4 by done. by apply XS3.
Qed.
End update.

(** ** one leaf *)
Lemma update_runs ops H T h c a (H' : list nat) : program ops H T h -> may_update h H c a -> has_gradient h a ->
  (forall x, x ∈ H' -> x ∈ H /\ ~ is_node h x) -> a ∈ H' ->
  exists g s d h', nudged c a h g s d h' /\ program (ops ++ update a c g s d) H' none h' /\
    (forall i, in_range (shape_of h a) i -> value h' a i = (value h a i + grad_value h a i * value h c (bidx (shape_of h c) i))%Qc) /\
    (forall i, grad_value h' a i = 0%Qc) /\
    (forall x r, h_ten h !! x = Some r -> h_ten h' !! x = Some r) /\
    (forall b i, b ∈ H' -> apart h b a -> value h' b i = value h b i) /\
    forall b, b ∈ H' -> b <> a -> (forall i, grad_value h' b i = grad_value h b i) /\ (has_gradient h b -> has_gradient h' b).
Proof.
  intros Hp (ra & rc & Ha & Hn & Hrg & Hc & Hcr & C1 & C2 & C3 & C4) (r & g & rg & Hr & Hg & Hgt) HH HaH.
  assert (r = ra) as -> by (destruct Ha; congruence).
  destruct (update_core ops H T h a c ra rc g rg H' Hp Ha Hn Hrg Hg Hgt Hc Hcr C1 C2 C3 C4 HH HaH) as (s & d & h' & Mv & P & V & Z & XT & XS).
  exists g, s, d, h'. split; [done|]. split; [done|]. split; [|split; [done|split; [done|]]].
  { intros i Hi. rewrite (shape_rec h a ra (proj2 Ha)) in Hi. rewrite (shape_rec h c rc (proj2 Hc)). by apply V. }
  destruct (program_facts _ _ _ _ Hp) as (Hinv & Hver & Hsz). destruct (program_GI _ _ _ _ Hp) as (D & G & HD).
  pose proof (HD a (proj1 Ha)) as Da.
  assert (forall b, ~ is_node h b -> ~ T b /\ ~ is_view h b) as Hlf.
  { intros b Hb. split; [intros [_ ?]%(g_sub _ _ _ G); done|intros (f & ? & _); apply Hb; by exists f]. }
  destruct (Hlf a Hn) as [Ta Va].
  destruct (g_grad _ _ _ G a ra Da Ta ltac:(by exists ra) Va Hr) as [?|(sg & Hs & _)]; [congruence|].
  assert (sg = t_sto rg) as ->. { destruct Hs as (r1 & g1 & gr & L1 & L2 & L3 & L4 & L5 & L6 & L7). assert (g1 = g) as -> by congruence. destruct Hgt. congruence. }
  split.
  - intros b i HbH Hap. destruct (HH b HbH) as [HbH0 Hnb]. destruct (g_rec _ _ _ G b (HD b HbH0)) as (rb & Hrb & [(cs & (bb & Hbb) & _) _] & _).
    rewrite (value_rec h b rb i Hrb), (value_rec h' b rb i (XT b rb Hrb)). f_equal. unfold contents, elem, cells.
    rewrite (XS (t_sto rb) (Sto (t_dt rb) bb (Some cs)) (Hap rb ra Hrb Hr)); [by rewrite Hbb| |done].
    intros E. apply (g_apart _ _ _ G a (t_sto rg) Da Ta Va Hs). exists b, rb. split; [left; by apply HD|done].
  - intros b HbH Hba. destruct (HH b HbH) as [HbH0 Hnb]. destruct (g_rec _ _ _ G b (HD b HbH0)) as (rb & Hrb & _).
    destruct (Hlf b Hnb) as [Tb Vb].
    assert (forall gb, t_grad rb = Some gb -> exists grb x, h_ten h !! gb = Some grb /\ h_sto h !! t_sto grb = Some x /\ h_sto h' !! t_sto grb = Some x) as K.
    { intros gb Egb. assert (tracked h b) as Htb. { exists rb. split; [done|]. destruct (t_rg rb) eqn:Erb; [done|]. destruct (g_const _ _ _ G b rb (HD b HbH0) Hrb Erb). congruence. }
      destruct (g_grad _ _ _ G b rb (HD b HbH0) Tb Htb Vb Hrb) as [?|(s' & Hs' & Hbuf)]; [congruence|].
      pose proof Hs' as (r1 & g1 & gr' & M1 & M2 & M3 & M4 & M5 & M6 & M7). assert (r1 = rb) as -> by congruence. assert (g1 = gb) as -> by congruence.
      destruct (grad_exists D T h b s' G (HD b HbH0) Tb Vb Hs') as [x Hx]. exists gr', x. rewrite M7. split; [done|]. split; [done|]. apply XS; [..|done].
      - intros E. apply (g_apart _ _ _ G b s' (HD b HbH0) Tb Vb Hs'). exists a, ra. split; [by left|]. done.
      - intros ->. apply Hba. by apply (g_sep _ _ _ G b a (t_sto rg) (HD b HbH0) Da). }
    split.
    + intros i. unfold grad_value. rewrite Hrb, (XT b rb Hrb). destruct (t_grad rb) as [gb|] eqn:Egb; [|done].
      destruct (K gb eq_refl) as (grb & x & K1 & K2 & K3). rewrite (value_rec h gb grb i K1), (value_rec h' gb grb i (XT gb grb K1)).
      f_equal. unfold contents, elem, cells. by rewrite K3, K2.
    + intros (rb' & gb & rgb & B1 & B2 & B3 & B4). assert (rb' = rb) as -> by congruence. destruct (K gb B2) as (grb & x & K1 & K2 & K3).
      assert (grb = rgb) as -> by congruence. exists rb, gb, rgb. split; [by apply XT|]. split; [done|]. split; [by apply XT|].
      destruct B4 as [(cs & (bb & Hbb) & B5) B6]. split; [exists cs; split; [exists bb; congruence|done]|].
      assert (forall j, elem h' rgb j = elem h rgb j) as El by (intros j; unfold elem, cells; by rewrite K3, K2).
      intros j Hj. unfold contents. rewrite El. by apply B6.
Qed.

(** ** several leaves *)
Lemma rec_kept h h' (H : list nat) x : (forall x, x ∈ H -> is_Some (h_ten h !! x)) -> (forall x r, h_ten h !! x = Some r -> h_ten h' !! x = Some r) -> x ∈ H -> h_ten h' !! x = h_ten h !! x.
Proof. intros K XT [r Hr]%K. by rewrite Hr, (XT x r Hr). Qed.
Lemma updates_run (H : list nat) c : forall ls ops h, program ops H none h -> NoDup ls -> (forall x, x ∈ H -> ~ is_node h x) ->
  (forall a, a ∈ ls -> may_update h H c a /\ has_gradient h a /\ apart h c a /\ forall b, b ∈ ls -> b <> a -> apart h b a) ->
  exists l h', updated c h ls l h' /\ program (ops ++ l) H none h' /\
    (forall x r, h_ten h !! x = Some r -> h_ten h' !! x = Some r) /\
    (forall a i, a ∈ ls -> in_range (shape_of h a) i ->
       value h' a i = (value h a i + grad_value h a i * value h c (bidx (shape_of h c) i))%Qc /\ grad_value h' a i = 0%Qc) /\
    (forall b, b ∈ H -> (forall a, a ∈ ls -> apart h b a) -> forall i, value h' b i = value h b i) /\
    (forall b, b ∈ H -> b ∉ ls -> forall i, grad_value h' b i = grad_value h b i).
Proof.
  induction ls as [|a ls IH]; intros ops h Hp Hnd Hlf Hls.
  { exists [], h. rewrite app_nil_r. split_and!; try done; [constructor|]. by intros a i ?%elem_of_nil. }
  apply NoDup_cons in Hnd as [Hna Hnd]. destruct (Hls a ltac:(mem)) as (Hma & Hga & Hca & Hab).
  assert (a ∈ H) as HaH by (destruct Hma as (? & ? & [? _] & _); done).
  assert (c ∈ H) as HcH by (destruct Hma as (? & ? & _ & _ & _ & [? _] & _); done).
  assert (forall b, b ∈ ls -> b ∈ H) as HbH. { intros b Hb. destruct (Hls b ltac:(mem)) as ((? & ? & [? _] & _) & _). done. }
  destruct (update_runs ops H none h c a H Hp Hma Hga) as (g & s & d & h1 & Mv & P1 & V1 & Z1 & XT1 & O1 & G1); [auto|done|].
  destruct (program_GI _ _ _ _ Hp) as (D & G & HD).
  assert (forall x, x ∈ H -> h_ten h1 !! x = h_ten h !! x) as ET.
  { intros x Hx. apply (rec_kept h h1 H); [|done|done]. intros y Hy. destruct (g_rec _ _ _ G y (HD y Hy)) as (r & Hr & _). by exists r. }
  assert (forall x, x ∈ H -> shape_of h1 x = shape_of h x) as ES by (intros x Hx; unfold shape_of, lay_of; by rewrite ET).
  assert (forall x, x ∈ H -> is_node h1 x <-> is_node h x) as EN by (intros x Hx; unfold is_node, fn_of; by rewrite ET).
  assert (forall x y, x ∈ H -> y ∈ H -> apart h x y -> apart h1 x y) as EA. { intros x y Hx Hy Hap rx ry. rewrite !ET by done. by apply Hap. }
  assert (forall x y, x ∈ H -> y ∈ H -> apart h1 x y -> apart h x y) as EA'. { intros x y Hx Hy Hap rx ry E1 E2. apply Hap; by rewrite ET. }
  destruct (IH (ops ++ update a c g s d) h1 P1 Hnd) as (l & h2 & L & P2 & XT2 & V2 & O2 & G2).
  { intros x Hx. rewrite EN by done. auto. }
  { intros b Hb. destruct (Hls b ltac:(mem)) as (Hmb & Hgb & Hcb & Hbb). assert (b <> a) as Hne by (intros ->; done). split_and!.
    - destruct Hmb as (rb & rc & [M1 M2] & M3 & M4 & [M5 M6] & M7). exists rb, rc. unfold at_hand. rewrite EN, !ET by auto. done.
    - apply G1; auto.
    - apply EA; auto.
    - intros b' Hb' Hne'. apply EA; [auto..|]. apply Hbb; [mem|done]. }
  exists (update a c g s d ++ l), h2. split; [by eapply UMore|]. rewrite app_assoc. split; [done|]. split; [auto|].
  assert (apart h a c) as Hac. { intros r1 r2 E1 E2 E. by apply (Hca r2 r1). }
  split; [|split].
  - intros b i [->|Hb]%elem_of_cons Hi.
    + rewrite O2, G2; [|done|done|done|].
      * split; [by apply V1|done].
      * intros b Hb. apply EA; [auto..|]. destruct (Hls b ltac:(mem)) as (_ & _ & _ & K). apply K; [mem|]. by intros ->.
    + assert (b <> a) as Hne by (intros ->; done). destruct (V2 b i Hb) as [W1 W2]; [by rewrite ES by auto|]. split; [|done]. rewrite W1.
      rewrite (O1 b i (HbH b Hb) (Hab b ltac:(mem) Hne)), (proj1 (G1 b (HbH b Hb) Hne)), (O1 c _ HcH Hca). by rewrite (ES c HcH).
  - intros b Hb Hap i. rewrite O2; [apply O1; [done|]; apply Hap; mem|done|]. intros x Hx. apply EA; [auto..|]. apply Hap. mem.
  - intros b Hb Hnb i. apply not_elem_of_cons in Hnb as [N1 N2]. rewrite G2 by done. by apply G1.
Qed.

(** ** after backward *)
Lemma num_holds h r qs : floating (t_dt r) = true -> lay_ok (t_lay r) -> allocable (t_dt r) (shape r) -> dense (t_lay r) ->
  num_buffer h (t_sto r) (t_dt r) (t_lay r) qs -> holds h r (contents h r).
Proof.
  intros Hf Hlo Hal [Hdi _] [Hs Hlen]. rewrite <- Hlen in Hdi.
  split; [exists (vf qs); split; [eexists; exact Hs|]; rewrite vf_length; split; [done|]; split; [done|]; rewrite Hlen; by eapply allocable_lt63|].
  intros idx Hi. specialize (Hdi idx Hi). assert (elem h r idx = Some (@VF Exact (default 0%Qc (qs !! Z.to_nat (pos (t_lay r) idx))))) as E.
  { apply elem_lookup. exists (vf qs). split; [unfold cells; by rewrite Hs|]. split; [lia|]. apply vf_lookup.
    destruct (qs !! _) eqn:E; [done|]. apply lookup_ge_None in E. lia. }
  unfold contents. rewrite E. split; [done|]. by apply has_ty_float.
Qed.
Lemma backward_keeps ops H T h t : program ops H T h -> may_start h H T t ->
  exists h', exec (OBackward (Some t)) h = (Ok RUnit, h') /\
    (forall x r, x ∈ H -> h_ten h !! x = Some r -> exists r', h_ten h' !! x = Some r' /\ same_data r r' /\ t_rg r' = t_rg r) /\
    (forall x, x ∈ H -> is_node h' x <-> is_node h x) /\ (forall x i, x ∈ H -> value h' x i = value h x i) /\
    (forall a, a ∈ H -> below h t a -> ~ is_node h a -> tracked h a -> has_gradient h' a).
Proof.
  intros Hp Hb. pose proof (program_ready _ _ _ _ _ Hp Hb) as Hgr. destruct (program_facts _ _ _ _ Hp) as (Hinv & Hver & Hsz).
  destruct (program_GI _ _ _ _ Hp) as (D & G & HD). destruct (backward_run h t Hinv Hver Hsz Hgr) as (h' & E & F & _). exists h'. split; [done|].
  pose proof (HD t (mb_held _ _ _ _ Hb)) as Dt. pose proof (mb_first _ _ _ _ Hb) as HT.
  assert (forall x r, x ∈ H -> h_ten h !! x = Some r -> exists r', h_ten h' !! x = Some r' /\ same_data r r' /\ t_rg r' = t_rg r) as Hrec.
  { intros x r Hx Hr. destruct (ef_rec _ _ _ F x r Hr) as (r' & M1 & M2 & M3 & _). by exists r'. }
  split; [done|]. split; [|split].
  - intros x Hx. apply (node_kept D T h h' t G F). by apply HD.
  - intros x i Hx. apply Prog.kept_value. apply (D_kept D T h h' t G Dt HT F). by apply HD.
  - intros a HaH Ha Hn Ht. assert (~ is_view h a) as Va by (intros (f & ? & _); apply Hn; by exists f).
    pose proof Ht as (r & Hr & Hrg). destruct (Hrec a r HaH Hr) as (r' & Hr' & (D1 & D2 & D3) & R).
    destruct (ef_num _ _ _ F a r') as (s & qs & Hs & Hq); [done|done|done|]. pose proof Hs as (r1 & g & gr & L1 & L2 & L3 & L4 & L5 & L6 & L7).
    assert (r1 = r') as -> by congruence. exists r', g, gr. split; [done|]. split; [done|]. split; [done|].
    destruct (live_rec h t Hinv Hgr a) as (r0 & Hr0 & _ & Hf & El & Es & Hal & Hlo & _); [done|]. assert (r0 = r) as -> by congruence.
    pose proof (g_dense _ _ _ G a (HD a HaH) Ht Va) as Hde. rewrite El in Hde.
    apply (num_holds h' gr qs); unfold shape; rewrite ?L4, ?L5, ?L7, <- ?D1, <- ?D2; try done. by rewrite D1, D2.
Qed.

Lemma descend ops H T h t c ls (H' : list nat) : program ops H T h -> may_backward h H T t -> NoDup ls ->
  (forall x, x ∈ H' -> x ∈ H /\ ~ is_node h x) ->
  (forall a, a ∈ ls -> may_update h H' c a /\ below h t a /\ apart h c a /\ forall b, b ∈ ls -> b <> a -> apart h b a) ->
  exists h1 l h', exec (OBackward (Some t)) h = (Ok RUnit, h1) /\ updated c h1 ls l h' /\
    program (ops ++ OBackward (Some t) :: l) H' none h' /\
    (forall a i, a ∈ ls -> in_range (shape_of h a) i -> exists q, derivative h t a i q /\ (forall q', derivative h t a i q' -> q' = q) /\
       value h' a i = (value h a i + (grad_value h a i + q) * value h c (bidx (shape_of h c) i))%Qc /\ grad_value h' a i = 0%Qc) /\
    (forall b i, b ∈ H' -> (forall a, a ∈ ls -> apart h b a) -> value h' b i = value h b i) /\
    (forall x r, x ∈ H' -> h_ten h !! x = Some r -> exists r', h_ten h' !! x = Some r' /\ same_data r r' /\ t_rg r' = t_rg r /\ ~ is_node h' x).
Proof.
  intros Hp Hb Hnd HH Hls. destruct (program_backward _ _ _ _ _ Hp Hb) as (h1 & E1 & P1 & K1).
  destruct (backward_keeps _ _ _ _ _ Hp Hb) as (h1' & E1' & Hrec & Hnode & Hval & Hgrad). assert (h1' = h1) as -> by congruence. clear E1'.
  assert (forall x, x ∈ H' -> shape_of h1 x = shape_of h x) as ES.
  { intros x Hx. destruct (HH x Hx) as [Hx0 _]. destruct (program_GI _ _ _ _ Hp) as (D & G & HD). destruct (g_rec _ _ _ G x (HD x Hx0)) as (r & Hr & _).
    destruct (Hrec x r Hx0 Hr) as (r' & Hr' & (_ & D2 & _) & _). unfold shape_of, lay_of. by rewrite Hr, Hr', D2. }
  assert (forall x y, x ∈ H' -> y ∈ H' -> apart h x y <-> apart h1 x y) as EA.
  { intros x y [Hx _]%HH [Hy _]%HH. destruct (program_GI _ _ _ _ Hp) as (D & G & HD).
    destruct (g_rec _ _ _ G x (HD x Hx)) as (r & Hr & _). destruct (Hrec x r Hx Hr) as (r' & Hr' & (_ & _ & D3) & _).
    destruct (g_rec _ _ _ G y (HD y Hy)) as (s & Hs & _). destruct (Hrec y s Hy Hs) as (s' & Hs' & (_ & _ & D3') & _).
    split; intros K rx ry Hrx Hry; [assert (rx = r') as -> by congruence|assert (rx = r) as -> by congruence];
      [assert (ry = s') as -> by congruence|assert (ry = s) as -> by congruence]; rewrite ?D3, ?D3'; [rewrite <- D3, <- D3'|]; by apply K. }
  assert (forall x, x ∈ H' -> ~ is_node h1 x) as Hlf. { intros x [Hx Hnx]%HH. by rewrite Hnode. }
  assert (program (ops ++ [OBackward (Some t)]) H' none h1) as P2.
  { destruct (program_GI _ _ _ _ P1) as (D1 & G1 & _). eapply PForget; [exact P1| |].
    - intros x Hx. by apply HH.
    - intros x. split; [done|]. intros [Tx (y & Hy & Hbl)]. apply (Hlf y Hy). rewrite <- (leaf_below h1 y x); [|by apply Hlf|done].
      by apply (g_sub _ _ _ G1). }
  destruct (updates_run H' c ls _ h1 P2 Hnd Hlf) as (l & h2 & L & P3 & XT & V & O & _).
  { intros a Ha. destruct (Hls a Ha) as (Hma & Hba & Hca & Hab). pose proof Hma as (ra & rc & [HaH Ha'] & M3 & M4 & [HcH Hc'] & M7 & M8).
    assert (forall b, b ∈ ls -> b ∈ H') as HbH. { intros b Hb'. destruct (Hls b Hb') as ((? & ? & [? _] & _) & _). done. }
    destruct (Hrec a ra (proj1 (HH a HaH)) Ha') as (ra' & Ra & (A1 & A2 & A3) & Ga). destruct (Hrec c rc (proj1 (HH c HcH)) Hc') as (rc' & Rc & (C1 & C2 & C3) & Gc).
    split_and!.
    - exists ra', rc'. split; [done|]. split; [by apply Hlf|]. split; [congruence|]. split; [done|]. split; [congruence|].
      unfold shape in *. by rewrite <- A1, <- A2, <- C1, <- C2.
    - apply Hgrad; [by apply HH|done|done|by exists ra].
    - by apply EA.
    - intros b Hb' Hne. apply EA; [auto..|]. by apply Hab. }
  exists h1, l, h2. split; [done|]. split; [done|]. split; [by rewrite <- app_assoc in P3|]. split; [|split].
  - intros a i Ha Hi. destruct (Hls a Ha) as (Hma & Hba & Hca & Hab). pose proof Hma as (ra & rc & [HaH Ha'] & M3 & M4 & [HcH Hc'] & M7 & M8).
    destruct (K1 a i Hba M3 ltac:(by exists ra) Hi) as (q & Hq & Hu & Eq). exists q. split; [done|]. split; [done|].
    destruct (V a i Ha) as [V1 V2]; [by rewrite ES|]. split; [|done]. rewrite V1. rewrite (ES c HcH), Eq. by rewrite !Hval by (by apply HH).
  - intros b i Hb' Hap. rewrite O; [|done|].
    + apply Hval. by apply HH.
    + intros a Ha. apply EA; [done| |by apply Hap]. destruct (Hls a Ha) as ((? & ? & [? _] & _) & _). done.
  - intros x r Hx Hr. destruct (Hrec x r (proj1 (HH x Hx)) Hr) as (r' & Hr' & Hd & Hg). exists r'. pose proof (XT x r' Hr') as Hr2.
    split; [done|]. split; [done|]. split; [done|]. intros [f Hf]. apply (Hlf x Hx). exists f. unfold fn_of in *. by rewrite Hr2 in Hf; rewrite Hr'.
Qed.
