(** Gradients of expressions: backward(). *)
From Verif.Proofs Require Export ExprGrad4.
From Verif.Model Require Export Exact Api.
#[local] Existing Instance Exact.

(** ** parts of a concatenation *)
Lemma cat_left d sa m idx : in_range (<[d := nth d sa 0 + m]> sa) idx -> nth d idx 0 < nth d sa 0 -> in_range sa idx.
Proof.
  unfold in_range. rewrite !Forall2_same_length_lookup, insert_length. intros [Hl Hi] Hd. split; [done|]. intros k n j Hn Hj. destruct (decide (k = d)) as [->|Hne].
  - rewrite (nth_lookup_Some _ _ _ _ Hn), (nth_lookup_Some _ _ _ _ Hj) in *. specialize (Hi d _ j (list_lookup_insert _ _ _ (lookup_lt_Some _ _ _ Hn)) Hj). simpl in *. lia.
  - apply (Hi k); [by rewrite list_lookup_insert_ne|done].
Qed.
Lemma cat_right d sa sb idx : (d < length sa)%nat -> same_but d sa sb -> in_range (<[d := nth d sa 0 + nth d sb 0]> sa) idx -> nth d sa 0 <= nth d idx 0 ->
  in_range sb (<[d := nth d idx 0 - nth d sa 0]> idx).
Proof.
  unfold in_range. rewrite !Forall2_same_length_lookup, !insert_length. intros Hd [Hs Hsb] [Hl Hi] Hge. split; [lia|]. intros k n j Hn Hj. destruct (decide (k = d)) as [->|Hne].
  - rewrite list_lookup_insert in Hj by lia. apply (inj Some) in Hj as <-. destruct (lookup_lt_is_Some_2 idx d ltac:(lia)) as [j Hj].
    specialize (Hi d _ j (list_lookup_insert _ _ _ Hd) Hj). rewrite (nth_lookup_Some _ _ _ _ Hn), (nth_lookup_Some _ _ _ _ Hj) in *. simpl in *. lia.
  - rewrite list_lookup_insert_ne in Hj by done. apply (Hi k); [|done]. rewrite list_lookup_insert_ne by done. by rewrite <- Hsb.
Qed.
Section sem.
Context (h0 : heap) (env : nat -> option array) (h : heap).
Hypothesis Hfl : forall x r, h_ten h !! x = Some r -> t_rg r = true -> floating (t_dt r) = true.
Hypothesis Hlv : forall t A, env t = Some A -> has_arr h t A.
Context (t a : nat) (i : list Z) (s : Qc) (v : nat -> list Z -> Qc) (B0 : array).
Hypothesis Hpt : perturbed h t a i s v.
Hypothesis Ea : env a = Some B0.
Hypothesis Ga : a_rg B0 = true.

Definition agrees (e : expr) (x : nat) (A : array) : Prop :=
  exists A', den (nudge env a i s) e = Some A' /\ a_dt A' = a_dt A /\ a_ss A' = a_ss A /\ a_rg A' = a_rg A /\ forall idx, in_range (a_ss A) idx -> num (a_v A' idx) = v x idx.
Lemma arr_float x A : has_arr h x A -> a_rg A = true -> floating (a_dt A) = true.
Proof. intros (r & [Hr _] & <- & _ & Hg) E. apply (Hfl x); [done|congruence]. Qed.
Lemma const_value x A idx : below h t x -> has_arr h x A -> a_rg A = false -> ~ is_node h x -> in_range (a_ss A) idx -> v x idx = num (a_v A idx).
Proof.
  intros Hb HA Hg Hn Hi. destruct (arr_facts h x A HA) as (_ & V & Tx). rewrite (pt_leaf _ _ _ _ _ _ Hpt x idx Hb Hn), V by done. rewrite decide_False; [ring|].
  intros [-> _]. destruct (arr_facts h a B0 (Hlv a B0 Ea)) as (_ & _ & Ta). destruct Tx as [Tx _]. rewrite Tx in Hg; [done|by apply Ta].
Qed.
Lemma sem_const e x A : smooth env e -> grown h0 env h e x -> below h t x -> den env e = Some A -> a_rg A = false -> agrees e x A.
Proof.
  intros Hs Gx Hb EA Hg. assert (~ occurs e a) as Ho. { intros Ho. by rewrite (occurs_tracked env a B0 Ea Ga e A Hs Ho EA) in Hg. }
  exists A. rewrite (den_other env a i s e Ho). split; [done|]. split; [done|]. split; [done|]. split; [done|].
  pose proof (grown_arr _ _ _ _ _ Gx) as (A2 & EA2 & HA). assert (A2 = A) as -> by congruence.
  intros idx Hi. symmetry. apply const_value; try done. apply (grown_untracked h0 env h e Hs x Gx). rewrite (proj2 (proj2 (arr_facts h x A HA))). by rewrite Hg.
Qed.
Lemma node_rule x k ins : below h t x -> tracked h x -> nodeat h x k ins -> Spec.Program.computes h v x k ins /\ forall y, y ∈ ins -> below h t y.
Proof.
  intros Hb Tx Nd. pose proof (nodeat_tracked h x k ins Nd Tx) as Hf. split; [exact (pt_node _ _ _ _ _ _ Hpt x _ Hb Hf)|].
  intros y Hy. eapply below_in; [done|]. unfold inputs. by rewrite Hf.
Qed.
Lemma sem e : accepted env e -> smooth env e -> forall x A, grown h0 env h e x -> below h t x -> den env e = Some A -> agrees e x A.
Proof.
  induction e as [u|o p IHp q IHq|c p IHp q IHq|p IHp|p IHp D|p IHp|p IHp|p IHp|p IHp d0 d1|p IHp sl xs|p IHp xs ss|p IHp q IHq d]; intros Hac Hs x A Gx Hb EA;
    (destruct (a_rg A) eqn:Hg; [|by apply sem_const]); pose proof (grown_arr _ _ _ _ _ Gx) as (A2 & EA2 & HA); assert (A2 = A) as -> by congruence; clear EA2;
    destruct (arr_facts h x A HA) as (Sx & Vx & Tx); apply (proj2 Tx) in Hg as Tr; pose proof (arr_float x A HA Hg) as FA; destruct Gx as [_ Gx]; cbn [accepted smooth] in Hac, Hs.
  - destruct Gx as [-> N]. unfold agrees. cbn [den] in *. unfold nudge. rewrite EA. pose proof (pt_leaf _ _ _ _ _ _ Hpt u) as Hl. destruct (decide (u = a)) as [E|E]; (eexists; split; [done|]).
    + cbn. split; [done|]. split; [done|]. split; [done|]. intros idx Hi. rewrite Hl, Vx by done. destruct (decide (idx = i)) as [Ei|Ei]; [rewrite decide_True by done; done|]. rewrite decide_False by (by intros [_ ?]). ring.
    + split; [done|]. split; [done|]. split; [done|]. intros idx Hi. rewrite Hl, Vx by done. rewrite decide_False by naive_solver. ring.
  - destruct Hac as (Ap & Aq & Hon). destruct Hs as (S1 & S2 & _). destruct Gx as (y & z & Gy & Gz & _ & Nd). destruct (node_rule x _ _ Hb Tr Nd) as [R Bl].
    pose proof (grown_arr _ _ _ _ _ Gy) as (P & EP & HP). pose proof (grown_arr _ _ _ _ _ Gz) as (P2 & EP2 & HP2). cbn [den] in EA. rewrite EP, EP2 in EA. cbn [bind1 bind2] in EA.
    destruct (IHp Ap S1 y P Gy ltac:(apply Bl; mem) EP) as (P' & DP & DT1 & SS1 & RG1 & V1). destruct (IHq Aq S2 z P2 Gz ltac:(apply Bl; mem) EP2) as (P2' & DP2 & DT2 & SS2 & RG2 & V2).
    destruct (Hon P P2 EP EP2) as (C1 & _ & _). apply table_spec in EA as (T1 & T2 & T3 & _).
    assert (floating (a_dt P) || floating (a_dt P2) = true) as Hf. { rewrite T3 in Hg. apply orb_true_iff in Hg as [Hg|Hg]; apply orb_true_iff; [left|right]; by eapply arr_float. }
    unfold agrees. cbn [den]. rewrite DP, DP2. cbn [bind1 bind2]. unfold d_arith. rewrite DT1, DT2, SS1, SS2, RG1, RG2, T1, T2, T3.
    destruct (table_some (dt_join (a_dt P) (a_dt P2)) (bshape (a_ss P) (a_ss P2)) (a_rg P || a_rg P2) (fun idx => cpp_arith o (a_dt P) (a_dt P2) (dt_join (a_dt P) (a_dt P2)) (a_v P' (bidx (a_ss P) idx)) (a_v P2' (bidx (a_ss P2) idx)))) as (C & EC & K1 & K2 & K3 & K4).
    { intros idx _. unfold cpp_arith. by rewrite Hf. }
    exists C. split; [done|]. split; [done|]. split; [done|]. split; [done|]. intros idx Hi. specialize (K4 idx Hi). apply arith_num in K4; [|done]. rewrite K4, V1, V2 by ((by eapply bidx_in_l) || (by eapply bidx_in_r)).
    destruct (arr_facts h y P HP) as (Sy & _). destruct (arr_facts h z P2 HP2) as (Sz & _).
    destruct o; cbn [back_of Spec.Program.computes] in R; rewrite R by (by rewrite Sx, T2); by rewrite Sy, Sz.
  - cbn [den] in EA. destruct (den env p) as [P|]; [|done]. destruct (den env q) as [P2|]; [|done]. cbn in EA. injection EA as <-. done.
  - destruct Hac as (Ap & Hon). destruct Gx as (z & y & Gy & _ & Nd & Hz & Nz). destruct (node_rule x _ _ Hb Tr Nd) as [R Bl]. pose proof (grown_arr _ _ _ _ _ Gy) as (P & EP & HP). cbn [den] in EA. rewrite EP in EA. cbn [bind1] in EA.
    destruct (IHp Ap Hs y P Gy ltac:(apply Bl; mem) EP) as (P' & DP & DT1 & SS1 & RG1 & V1). apply table_spec in EA as (T1 & T2 & T3 & _).
    assert (floating (a_dt P) = true) as Hf. { rewrite T3 in Hg. by eapply arr_float. }
    unfold agrees. cbn [den]. rewrite DP. cbn [bind1]. unfold d_neg. rewrite DT1, SS1, RG1, T1, T2, T3.
    destruct (table_some (dt_join I32 (a_dt P)) (a_ss P) (a_rg P) (fun idx => cpp_arith ASub I32 (a_dt P) (dt_join I32 (a_dt P)) (VI 0) (a_v P' idx))) as (C & EC & K1 & K2 & K3 & K4).
    { intros idx _. unfold cpp_arith. by rewrite Hf, orb_true_r. }
    exists C. split; [done|]. split; [done|]. split; [done|]. split; [done|]. intros idx Hi. specialize (K4 idx Hi). apply arith_num in K4; [|by rewrite Hf, orb_true_r]. rewrite K4, V1 by done.
    destruct (arr_facts h y P HP) as (Sy & _). destruct (arr_facts h z _ Hz) as (Sz & _). cbn [Spec.Program.computes] in R. rewrite R by (by rewrite Sx, T2). rewrite Sy, Sz, (Binary.bidx_self (a_ss P) idx) by done.
    assert (bidx (a_ss zero_arr) idx = []) as -> by (unfold bidx; destruct idx; done). rewrite (const_value z zero_arr []); [done|apply Bl; mem|done|done|done|constructor].
  - destruct Hac as (Ap & Hon). destruct Gx as (y & Gy & Hx). pose proof (grown_arr _ _ _ _ _ Gy) as (P & EP & HP). cbn [den] in EA. rewrite EP in EA. cbn [bind1] in EA. apply table_spec in EA as (T1 & T2 & T3 & _). rewrite T1 in FA.
    assert (below h t y /\ forall idx, in_range (a_ss P) idx -> v x idx = v y idx) as [By Vxy].
    { destruct Hx as [->|[_ Nd]]; [done|]. destruct (node_rule x _ _ Hb Tr Nd) as [R Bl]. split; [apply Bl; mem|]. intros idx Hi. apply R. by rewrite Sx, T2. }
    destruct (IHp Ap Hs y P Gy By EP) as (P' & DP & DT1 & SS1 & RG1 & V1).
    unfold agrees. cbn [den]. rewrite DP. cbn [bind1]. unfold d_cast. rewrite DT1, SS1, RG1, T1, T2, T3.
    destruct (table_some D (a_ss P) (a_rg P) (fun idx => cpp_cvt (a_dt P) D (a_v P' idx))) as (C & EC & K1 & K2 & K3 & K4).
    { intros idx _. unfold cpp_cvt. by rewrite FA. }
    exists C. split; [done|]. split; [done|]. split; [done|]. split; [done|]. intros idx Hi. specialize (K4 idx Hi). apply cvt_num in K4; [|done]. by rewrite K4, V1, Vxy.
  - destruct Hac as (Ap & _). destruct Gx as (y & Gy & _ & Nd). destruct (node_rule x _ _ Hb Tr Nd) as [R Bl]. cbn [den] in EA.
    destruct (IHp Ap Hs y A Gy ltac:(apply Bl; mem) EA) as (P' & DP & DT1 & SS1 & RG1 & V1). exists P'. split; [done|]. split; [done|]. split; [done|]. split; [done|]. intros idx Hi. rewrite V1 by done. symmetry. apply R. by rewrite Sx.
  - destruct Hac as (Ap & _). destruct Gx as (y & Gy & _ & Nd). destruct (node_rule x _ _ Hb Tr Nd) as [R Bl]. pose proof (grown_arr _ _ _ _ _ Gy) as (P & EP & HP). cbn [den] in EA. rewrite EP in EA. cbn [bind1] in EA.
    destruct (IHp Ap Hs y P Gy ltac:(apply Bl; mem) EP) as (P' & DP & DT1 & SS1 & RG1 & V1). unfold d_sum in EA. destruct (array_sum (a_dt P) _ _) as [w|] eqn:Ew; [|done]. injection EA as <-. cbn in Hg, FA, Sx |- *.
    pose proof (arr_float y P HP Hg) as Hf. unfold agrees. cbn [den]. rewrite DP. cbn [bind1]. unfold d_sum. rewrite DT1, SS1, RG1.
    destruct (array_sum (a_dt P) (a_ss P) (a_v P')) as [w'|] eqn:Ew'; [|by unfold array_sum in Ew'; rewrite Hf in Ew']. eexists. split; [done|]. cbn. split; [done|]. split; [done|]. split; [done|].
    intros idx ->%in_range_nil_inv. rewrite (sum_num _ _ _ _ Hf Ew'). cbn [Spec.Program.computes] in R. destruct (arr_facts h y P HP) as (Sy & _). rewrite R, Sy. apply sum_over_ext. intros idx Hi. by apply V1.
  - destruct Hs as [_ S2]. destruct Gx as (y & Gy & _). pose proof (grown_arr _ _ _ _ _ Gy) as (P & EP & HP). specialize (S2 P EP). cbn [den] in EA. rewrite EP in EA. cbn [bind1] in EA. unfold d_mean in EA. destruct (array_mean _ _ _); [|done]. injection EA as <-. cbn in Hg. congruence.
  - destruct Hac as (Ap & Hon). destruct Gx as (y & Gy & _ & Nd & Sc). destruct (node_rule x _ _ Hb Tr Nd) as [R Bl]. pose proof (grown_arr _ _ _ _ _ Gy) as (P & EP & HP). cbn [den] in EA. rewrite EP in EA. cbn [bind1] in EA. injection EA as <-.
    destruct (IHp Ap Hs y P Gy ltac:(apply Bl; mem) EP) as (P' & DP & DT1 & SS1 & RG1 & V1). unfold agrees. cbn [den]. rewrite DP. cbn [bind1]. unfold d_transpose. rewrite DT1, SS1, RG1. eexists. split; [done|]. cbn in Sx |- *. split; [done|]. split; [done|]. split; [done|].
    destruct (arr_facts h y P HP) as (Sy & _). intros idx Hi. rewrite <- Sx in Hi. destruct (Sc idx Hi) as [Hi' Ep]. rewrite V1 by (by rewrite <- Sy). symmetry. by apply R.
  - destruct Hac as (Ap & _). destruct Gx as (y & Gy & _ & Nd & Sc). destruct (node_rule x _ _ Hb Tr Nd) as [R Bl]. pose proof (grown_arr _ _ _ _ _ Gy) as (P & EP & HP). specialize (Sc P EP). cbn [den] in EA. rewrite EP in EA. cbn [bind1] in EA. injection EA as <-.
    destruct (IHp Ap Hs y P Gy ltac:(apply Bl; mem) EP) as (P' & DP & DT1 & SS1 & RG1 & V1). unfold agrees. cbn [den]. rewrite DP. cbn [bind1]. unfold d_slice. rewrite DT1, SS1, RG1. eexists. split; [done|]. cbn [a_dt a_ss a_rg a_v] in Sx |- *. split; [done|]. split; [done|]. split; [done|].
    destruct (arr_facts h y P HP) as (Sy & _). intros idx Hi. rewrite <- Sx in Hi. destruct (Sc idx Hi) as [Hi' Ep]. rewrite V1 by (rewrite Sy in Hi'; exact Hi'). symmetry. by apply R.
  - destruct Hac as (Ap & _ & _ & Hon). destruct Hs as [S1 _]. destruct Gx as (y & m & Gy & _ & _ & Hm & Nd & Sc & Trm). destruct (Trm Tr) as [Tm Ty]. destruct (node_rule x _ _ Hb Tr Nd) as [R Bl].
    pose proof (grown_arr _ _ _ _ _ Gy) as (P & EP & HP). destruct (Hon P EP) as (C1 & C2 & C3 & _). cbn [den] in EA. rewrite EP in EA. cbn [bind1] in EA. injection EA as <-. cbn in Sx, Hg, FA, Vx |- *. destruct (arr_facts h y P HP) as (Sy & _).
    assert (shape_of h m = a_ss P /\ below h t y /\ forall idx, in_range (a_ss P) idx -> v m idx = v y idx) as (Sm & By & Vmy).
    { destruct Hm as [->|[Nm Sm]]; [split; [done|]; split; [apply Bl; mem|done]|]. rewrite Sm. destruct (node_rule m _ _ ltac:(apply Bl; mem) Tm Nm) as [R' Bl']. split; [done|]. split; [apply Bl'; mem|].
      intros idx Hi. apply R'. by rewrite Sm, Sy. }
    destruct (IHp Ap S1 y P Gy By EP) as (P' & DP & DT1 & SS1 & RG1 & V1). unfold agrees. cbn [den]. rewrite DP. cbn [bind1]. unfold d_reshape. rewrite DT1, SS1, RG1. eexists. split; [done|]. cbn [a_dt a_ss a_rg a_v]. split; [done|]. split; [done|]. split; [done|].
    intros idx Hi. rewrite <- Sx in Hi. destruct (Sc idx Hi) as [Hi' Ep]. cbn [Spec.Program.computes] in R. rewrite (R idx _ Hi Hi' Ep). rewrite Sx, Sm in Hi' |- *. rewrite Vmy by done.
    rewrite <- V1 by done. f_equal. unfold same_rank in *.
    assert (Z.to_nat (row_major ss idx) < length (indices (a_ss P)))%nat as Hlen.
    { destruct (nth_lookup_or_length (indices (a_ss P)) (Z.to_nat (row_major ss idx)) []) as [E|E]; [by apply lookup_lt_Some in E|]. rewrite Sx in Hi. pose proof (row_major_bounds _ _ Hi) as Hbd. destruct C3 as (_ & _ & C3). pose proof (length_indices (a_ss P) ltac:(eapply Forall_impl; [exact C1|simpl; lia])). lia. }
    rewrite (nth_indep _ _ (a_v P' [])) by (by rewrite map_length). by rewrite map_nth.
  - destruct Hac as (Ap & Aq & Hon). destruct Hs as (S1 & S2). destruct Gx as (y & z & Gy & Gz & _ & Nd). destruct (node_rule x _ _ Hb Tr Nd) as [R Bl].
    pose proof (grown_arr _ _ _ _ _ Gy) as (P & EP & HP). pose proof (grown_arr _ _ _ _ _ Gz) as (P2 & EP2 & HP2). cbn [den] in EA. rewrite EP, EP2 in EA. cbn [bind1 bind2] in EA.
    destruct (IHp Ap S1 y P Gy ltac:(apply Bl; mem) EP) as (P' & DP & DT1 & SS1 & RG1 & V1). destruct (IHq Aq S2 z P2 Gz ltac:(apply Bl; mem) EP2) as (P2' & DP2 & DT2 & SS2 & RG2 & V2).
    destruct (Hon P P2 EP EP2) as (C1 & C2 & _). apply table_spec in EA as (T1 & T2 & T3 & _). rewrite T1 in FA.
    unfold agrees. cbn [den]. rewrite DP, DP2. cbn [bind1 bind2]. unfold d_cat. rewrite DT1, DT2, SS1, SS2, RG1, RG2, T1, T2, T3.
    match goal with |- context [table ?a ?b ?c ?f] => destruct (table_some a b c f) as (C & EC & K1 & K2 & K3 & K4) end.
    { intros idx _. unfold cpp_cvt. rewrite FA. by case_match. }
    exists C. split; [done|]. split; [done|]. split; [done|]. split; [done|]. intros idx Hi. specialize (K4 idx Hi). cbv beta zeta in K4.
    destruct (arr_facts h y P HP) as (Sy & _). destruct (arr_facts h z P2 HP2) as (Sz & _).
    cbn [Spec.Program.computes] in R. rewrite Sx, T2 in R. specialize (R idx Hi). cbv zeta in R. rewrite Nat2Z.id in R. cbn [map owner] in R. rewrite Sy, Sz in R.
    pose proof (in_range_length _ _ Hi) as Hl. rewrite insert_length in Hl. destruct (nth_lookup_or_length idx d 0) as [Hd|Hd]; [|lia]. 
    pose proof (Forall2_lookup_lr _ _ _ _ _ _ Hi (list_lookup_insert _ _ _ C1) Hd) as Hx. simpl in Hx.
    destruct (Z.ltb_spec (nth d idx 0) (nth d (a_ss P) 0)) as [Hlt|Hge].
    + apply cvt_num in K4; [|done]. rewrite K4. cbn in R. rewrite list_insert_id in R by done. rewrite R. apply V1. by eapply cat_left.
    + apply cvt_num in K4; [|done]. rewrite K4. destruct (Z.ltb_spec (nth d idx 0 - nth d (a_ss P) 0) (nth d (a_ss P2) 0)) as [Hlt2|]; [|lia]. cbn in R. rewrite R. apply V2. by apply cat_right.
Qed.
End sem.
