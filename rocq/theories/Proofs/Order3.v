(** The main loop of backward(). *)
From Verif.Proofs Require Export Order2.
From Verif.Model Require Export Api.

Section with_fops.
Context {fo : FOps}.
Notation any := (fun _ _ => True).

Section loop.
Variables (h0 : heap) (t : nat) (R : list nat).
Hypothesis Hinv : tinv h0.
Hypothesis HdR : NoDup R.
Hypothesis HR : forall x, x ∈ R <-> region h0 t x.
Let v3 : Z := h_ver h0 + 3.

(** the counter of the root is not read *)
Definition acc0 (y : nat) (f : gradfn) : Z := if decide (y = t) then gf_acc f else 0.
Definition node_at (P L : list nat) (h : heap) (y : nat) : Prop :=
  exists r f, h_ten h !! y = Some r /\ fn_of h0 y = Some f /\ t_rg r = true /\
    t_fn r = Some (Gfn (gf_kind f) (gf_in f) (uses (inputs h0) R y) (acc0 y f + uses (inputs h0) P y) (if decide (y ∈ L) then v3 else v3 - 1)).
Definition rec_kept (h : heap) (y : nat) : Prop :=
  forall r0, h_ten h0 !! y = Some r0 -> exists r, h_ten h !! y = Some r /\ same_data r0 r /\ t_rg r = t_rg r0 /\ t_ret r = t_ret r0 /\
    (t_fn r0 = None -> t_fn r = None /\ forall g, t_grad r0 = Some g -> t_grad r = Some g) /\
    (~ below h0 t y -> t_fn r = t_fn r0 /\ t_grad r = t_grad r0) /\
    (t_rg r0 = false -> t_grad r = t_grad r0).
(** [x] may be processed when [P] have been *)
Definition may (P : list nat) (x : nat) : Prop :=
  region h0 t x /\ x ∉ P /\ (forall c, region h0 t c -> x ∈ inputs h0 c -> c ∈ P).
Record main_inv (P Q : list nat) (h : heap) : Prop := MainInv {
  mi_tinv : tinv h;
  mi_sized : sized h;
  mi_ver : h_ver h = v3;
  mi_nodes : forall y, region h0 t y -> node_at P (P ++ Q) h y;
  mi_kept : forall y, rec_kept h y;
  mi_dup : NoDup (P ++ Q);
  mi_root : t ∈ P ++ Q;
  mi_region : forall y, y ∈ P ++ Q -> region h0 t y;
  mi_used : forall y, y ∈ P ++ Q -> y = t \/ exists p, p ∈ P /\ y ∈ inputs h0 p;
  mi_ready : forall y, y ∈ P ++ Q -> forall c, region h0 t c -> y ∈ inputs h0 c -> c ∈ P;
  mi_unready : forall y, region h0 t y -> y ∉ P ++ Q -> uses (inputs h0) P y <> uses (inputs h0) R y;
  mi_done : forall y r, y ∈ P -> h_ten h !! y = Some r -> if t_ret r then is_Some (t_grad r) else t_grad r = None;
  mi_grad : forall y r, h_ten h !! y = Some r -> y ∉ P -> t_rg r = true ->
    y = t \/ (exists p, p ∈ P /\ y ∈ inputs h0 p) -> is_Some (t_grad r)
}.
Lemma region_node y : region h0 t y -> exists f, fn_of h0 y = Some f /\ gf_in f = inputs h0 y.
Proof. intros [_ (f & Hf)]. exists f. split; [done|]. unfold inputs. by rewrite Hf. Qed.
Lemma region_input x y : region h0 t x -> y ∈ inputs h0 x -> is_node h0 y -> region h0 t y.
Proof. intros [Hb _] Hy Hn. split; [by eapply below_in|done]. Qed.
Lemma input_lt x y : region h0 t x -> y ∈ inputs h0 x -> (y < x)%nat /\ is_Some (h_ten h0 !! y).
Proof. intros [_ Hn] Hy. by eapply inputs_node. Qed.

Lemma main_step P x Q h : main_inv P (x :: Q) h -> may P x /\
  match process x h with (Ok new, h') => main_inv (P ++ [x]) (Q ++ new) h' | (Diverge, _) => False | _ => True end.
Proof.
  intros HI. assert (x ∈ P ++ x :: Q) as Hx by (rewrite elem_of_app, elem_of_cons; auto).
  pose proof (mi_region _ _ _ HI x Hx) as Rx. pose proof (mi_dup _ _ _ HI) as Hd.
  assert (x ∉ P) as HxP. { apply NoDup_app in Hd as (_ & Hd & _). intros HP. apply (Hd x HP). apply elem_of_list_here. }
  split. { split; [done|]. split; [done|]. by apply (mi_ready _ _ _ HI). }
  destruct (mi_nodes _ _ _ HI x Rx) as (rx & fx & Hrx & Hfx & Hrgx & Hfnx).
  set (gx := Gfn _ _ _ _ _) in Hfnx.
  assert (fn_of h x = Some gx) as Hgx by (unfold fn_of; by rewrite Hrx).
  assert (gf_in gx = inputs h0 x) as Ein by (simpl; unfold inputs; by rewrite Hfx).
  assert (x ∉ inputs h0 x) as Hself. { intros Hi. apply input_lt in Hi as [? _]; [lia|done]. }
  assert (nd (process x) (fun new h' => main_inv (P ++ [x]) (Q ++ new) h') h) as Hnd.
  2:{ unfold nd, wp in Hnd. destruct (process x h) as [[new|?|?|] h']; [apply Hnd|done|done|]. by destruct Hnd. }
  unfold nd, wp. rewrite process_eq.
  change (nd (back_part x ;;; let! g := get_fn x in visit_ready (gf_in g)) (fun new h' => main_inv (P ++ [x]) (Q ++ new) h') h).
  eapply nd_bind.
  { eapply wp_mono; [apply wp_conj; [eapply nd_back_part; [apply HI|apply HI|exact Hgx]|apply (tv_back_part x h), HI]| |].
    - intros a h' [[H1 H2] (H3 & H4 & _)]. split; [exact H1|]. exact (conj H2 H3).
    - intros a h' [H _]. exact H. }
  cbv beta. intros _ h2 Hs2 [(h1 & r1 & r2 & E1 & Hsb & _ & V2 & Hr1 & Hdr & E2) Hi2].
  pose proof (back_part_fn x _ _ _ _ _ _ _ Hsb Hr1 Hdr E2) as Hfn2. assert (h_ver h1 = h_ver h) as V1 by apply Hsb.
  rewrite Ein in Hsb, Hfn2.
  (* records after back_part *)
  assert (forall y r, h_ten h !! y = Some r -> exists r', h_ten h2 !! y = Some r' /\ same_data r r' /\ t_rg r' = t_rg r /\ t_ret r' = t_ret r /\
    t_fn r' = ((fun f => gf_with_acc f (gf_acc f + (if t_rg r then cnt (inputs h0 x) y else 0))) <$> t_fn r) /\
    (y <> x -> (t_grad r' = t_grad r \/ t_grad r = None /\ is_Some (t_grad r')) /\
      (y ∉ inputs h0 x \/ t_rg r = false -> t_grad r' = t_grad r) /\ (y ∈ inputs h0 x -> t_rg r = true -> is_Some (t_grad r'))) /\
    (y = x -> t_grad r' = if t_ret r then t_grad r else None)) as Hrec.
  { intros y r Hr. destruct Hsb as (_ & K & _). destruct (K y r Hr) as (r' & Hr' & SD & SR & ST & SF & SG & SM).
    rewrite E2. destruct (decide (y = x)) as [->|Hne].
    - assert (r' = r1) as -> by congruence. exists r2. rewrite list_lookup_insert by (by eapply lookup_lt_Some). split; [done|].
      destruct Hdr as (DD & DR & DT & DF & DG). split; [by eapply same_data_trans|]. split; [congruence|]. split; [congruence|].
      split; [rewrite DF, SF; by destruct (t_fn r)|]. split; [done|]. intros _. rewrite DG, ST. destruct (t_ret r); [|done].
      destruct SG as [?|(_ & _ & _ & ?)]; done.
    - exists r'. rewrite list_lookup_insert_ne by done. split; [done|]. split; [done|]. split; [done|]. split; [done|].
      split; [rewrite SF; by destruct (t_fn r)|]. split; [|done]. intros _. split; [|split; [|done]].
      + destruct SG as [?|(? & ? & _)]; auto.
      + destruct SG as [?|(_ & _ & Hrt & ?)]; [done|]. intros [?|?]; [done|congruence]. }
  assert (forall y, y ∈ inputs h0 x -> is_Some (h_ten h2 !! y)) as Hex.
  { intros y Hy. destruct (input_lt x y Rx Hy) as [_ [r0 Hr0]]. destruct (mi_kept _ _ _ HI y r0 Hr0) as (r & Hr & _).
    destruct (Hrec y r Hr) as (r' & -> & _). by eexists. }
  assert (forall y, is_node h0 y \/ (y ∈ inputs h0 x /\ fn_of h2 y = None) \/ y ∉ inputs h0 x) as Hcase.
  { intros y. destruct (decide (y ∈ inputs h0 x)) as [Hy|]; [|auto]. destruct (input_lt x y Rx Hy) as [_ [r0 Hr0]].
    destruct (t_fn r0) as [f0|] eqn:Ef0; [left; unfold is_node, fn_of; rewrite Hr0, Ef0; by eexists|]. right. left. split; [done|].
    destruct (mi_kept _ _ _ HI y r0 Hr0) as (r & Hr & _ & _ & _ & Hk & _). destruct (Hk Ef0) as [Hn _].
    rewrite Hfn2, Hr, Hn. done. }
  (* nodes after back_part *)
  assert (forall y, region h0 t y -> exists r f, h_ten h2 !! y = Some r /\ fn_of h0 y = Some f /\ t_rg r = true /\
    t_fn r = Some (Gfn (gf_kind f) (gf_in f) (uses (inputs h0) R y) (acc0 y f + uses (inputs h0) (P ++ [x]) y) (if decide (y ∈ P ++ x :: Q) then v3 else v3 - 1))) as Hnode.
  { intros y Ry. destruct (mi_nodes _ _ _ HI y Ry) as (r & f & Hr & Hf & Hrg & Hfn). destruct (Hrec y r Hr) as (r' & Hr' & _ & Hrg' & _ & Hfn' & _).
    exists r', f. split; [done|]. split; [done|]. split; [congruence|]. rewrite Hfn', Hfn, Hrg. simpl. unfold gf_with_acc. simpl.
    rewrite uses_app. cbn [uses foldr]. do 2 f_equal. lia. }
  destruct (Hnode x Rx) as (rx2 & fx2 & Hrx2 & Hfx2 & _ & Hfnx2). assert (fx2 = fx) as -> by congruence.
  unfold nd, wp. erewrite bind_ok by (apply get_fn_ok; unfold fn_of; rewrite Hrx2; exact Hfnx2). cbn [gf_in].
  assert (gf_in fx = inputs h0 x) as -> by (unfold inputs; by rewrite Hfx).
  destruct (visit_ready_spec (inputs h0 x) h2 Hex) as (new & h' & E & Hv).
  rewrite E. split; [by eapply visited_sized|].
  assert (tinv h') as Hi' by (eapply tinv_out; [by apply tv_visit_ready|done]).
  pose proof Hv as (_ & V' & T' & Hdn & Hn). assert (h_ver h2 = v3) as V2' by (rewrite V2, V1; apply HI).
  assert (forall y f, y ∈ inputs h0 x -> acc0 y f = 0) as Hacc.
  { intros y f Hy. unfold acc0. rewrite decide_False; [done|]. intros ->. apply (input_lt x) in Hy as [Hlt _]; [|done].
    pose proof (below_le h0 t Hinv _ (proj1 Rx)). lia. }
  assert (forall y, y ∈ new <-> region h0 t y /\ y ∈ inputs h0 x /\ y ∉ P ++ x :: Q /\ uses (inputs h0) (P ++ [x]) y = uses (inputs h0) R y) as Hnew.
  { intros y. rewrite Hn. split.
    - intros (Hy & f & Hf & Hc). destruct (Hcase y) as [Hnd|[[_ ?]|?]]; [|congruence|done].
      assert (region h0 t y) as Ry by (by apply (region_input x)). split; [done|]. split; [done|].
      destruct (Hnode y Ry) as (r & f' & Hr & Hf' & _ & Hfn). unfold fn_of in Hf. rewrite Hr, Hfn in Hf. injection Hf as <-.
      unfold c_ready in Hc. simpl in Hc. apply andb_true_iff in Hc as [C1 C2]. rewrite V2' in C1. rewrite Hacc in C2 by done.
      split; [|lia]. intros Hin. rewrite decide_True in C1 by done. lia.
    - intros (Ry & Hy & Hni & Hu). split; [done|]. destruct (Hnode y Ry) as (r & f' & Hr & Hf' & _ & Hfn).
      eexists. split; [unfold fn_of; by rewrite Hr|]. unfold c_ready. simpl. rewrite V2', decide_False, Hacc by done.
      apply andb_true_iff. split; lia. }
  assert ((P ++ [x]) ++ Q ++ new = (P ++ x :: Q) ++ new) as EL by (by rewrite <- !app_assoc).
  assert (NoDup (P ++ [x])) as HdP.
  { apply NoDup_app. split; [by apply NoDup_app in Hd as (? & _)|]. split; [|apply NoDup_singleton].
    by intros y Hy ->%elem_of_list_singleton. }
  assert (P ++ [x] ⊆ R) as HPR.
  { intros y Hy. apply HR, (mi_region _ _ _ HI). rewrite !elem_of_app, elem_of_list_singleton, elem_of_cons in *. tauto. }
  assert (forall y r', h_ten h' !! y = Some r' -> exists r, h_ten h2 !! y = Some r /\ same_data r r' /\ t_rg r' = t_rg r /\ t_ret r' = t_ret r /\ t_grad r' = t_grad r) as Hback.
  { intros y r'. rewrite T'. destruct (h_ten h2 !! y) as [r|]; [|done]. intros [= <-]. by exists r. }
  split.
  - done.
  - by eapply visited_sized.
  - congruence.
  - intros y Ry. destruct (Hnode y Ry) as (r & f & Hr & Hf & Hrg & Hfn). unfold node_at. rewrite T', Hr. simpl.
    eexists _, f. split; [done|]. split; [done|]. split; [done|]. simpl. rewrite Hfn, V2'. simpl. f_equal. rewrite EL.
    unfold gf_with_ver. generalize (P ++ x :: Q). intros L. repeat case_decide; simpl; try done; rewrite elem_of_app in *; tauto.
  - intros y r0 Hr0. destruct (mi_kept _ _ _ HI y r0 Hr0) as (r & Hr & K1 & K2 & K3 & K4 & K7 & K10).
    destruct (Hrec y r Hr) as (r' & Hr' & L1 & L2 & L3 & L4 & L5 & L6). rewrite T', Hr'. simpl. eexists. split; [done|].
    split; [by eapply same_data_trans|]. split; [simpl; congruence|]. split; [simpl; congruence|]. split.
    2:{ split.
      2:{ intros Hrf. destruct (decide (y = x)) as [->|Hne]. { assert (rx = r) by congruence. congruence. }
        destruct (L5 Hne) as (_ & L8 & _). simpl. rewrite L8 by (right; congruence). auto. }
      intros Hnb. destruct (K7 Hnb) as [K8 K9]. destruct (decide (y = x)) as [->|Hne]. { destruct Hnb. apply Rx. }
      assert (y ∉ inputs h0 x) as Hni. { intros Hy. apply Hnb. eapply below_in; [apply Rx|done]. }
      destruct (L5 Hne) as (_ & L8 & _). simpl. rewrite L4, (L8 (or_introl Hni)), K8, K9. split; [|done]. destruct (t_fn r0) as [f0|]; [|done].
      cbn [fmap option_fmap option_map]. f_equal. rewrite (cnt_zero (inputs h0 x) y Hni). assert (y ∉ new) as Hnn by (intros (_ & ? & _)%Hnew; done).
      destruct (t_rg r); rewrite acc_id, decide_False by done; done. }
    intros Hfn0.
    destruct (K4 Hfn0) as [K5 K6]. simpl. rewrite L4, K5. split; [done|]. intros g Hg. specialize (K6 g Hg).
    destruct (decide (y = x)) as [->|Hne]. { unfold fn_of in Hfx. rewrite Hr0 in Hfx. congruence. }
    destruct (L5 Hne) as ([?|[? _]] & _); congruence.
  - rewrite EL. apply NoDup_app. split; [done|]. split; [|done]. intros y Hy Hy'. apply Hnew in Hy'. tauto.
  - rewrite EL. apply elem_of_app. left. apply HI.
  - intros y. rewrite EL, elem_of_app. intros [Hy|Hy]; [by apply (mi_region _ _ _ HI)|]. apply Hnew in Hy. tauto.
  - intros y. rewrite EL, elem_of_app. intros [Hy|Hy].
    + destruct (mi_used _ _ _ HI y Hy) as [?|(p & Hp & Hyp)]; [by left|right]. exists p. rewrite elem_of_app. auto.
    + right. exists x. rewrite elem_of_app, elem_of_list_singleton. apply Hnew in Hy. tauto.
  - intros y. rewrite EL, elem_of_app. intros [Hy|Hy] c Rc Hc.
    + apply elem_of_app. left. by eapply (mi_ready _ _ _ HI).
    + apply Hnew in Hy as (Ry & _ & _ & Hu). eapply uses_eq_sub; [done|done|exact Hu|by apply HR|done].
  - intros y Ry. rewrite EL, elem_of_app. intros Hni Hu. apply Decidable.not_or in Hni as [Hni1 Hni2].
    destruct (decide (y ∈ inputs h0 x)) as [Hy|Hy]; [apply Hni2, Hnew; done|].
    apply (mi_unready _ _ _ HI y Ry Hni1). rewrite uses_app in Hu. cbn [uses foldr] in Hu. rewrite cnt_zero in Hu by done. lia.
  - intros y r' Hy Hr'. destruct (Hback y r' Hr') as (r & Hr & B1 & B2 & B3 & B4). rewrite B3, B4.
    assert (region h0 t y) as Ry by (apply HR, HPR, Hy). destruct (mi_nodes _ _ _ HI y Ry) as (ry & fy & Hry & _ & Hrgy & _).
    destruct (Hrec y ry Hry) as (r'' & Hr'' & L1 & L2 & L3 & L4 & L5 & L6). assert (r'' = r) as -> by congruence.
    destruct (decide (y = x)) as [->|Hne].
    + rewrite L6, L3 by done. destruct (t_ret ry) eqn:Et; [|done]. eapply (mi_grad _ _ _ HI); [exact Hry|done|done|].
      apply (mi_used _ _ _ HI x Hx).
    + apply elem_of_app in Hy as [Hy| ->%elem_of_list_singleton]; [|done].
      assert (y ∉ inputs h0 x) as Hny.
      { intros Hin. apply HxP. eapply (mi_ready _ _ _ HI y); [apply elem_of_app; by left|done|done]. }
      destruct (L5 Hne) as (_ & L8 & _). rewrite (L8 (or_introl Hny)), L3. by apply (mi_done _ _ _ HI y).
  - intros y r' Hr' HyP Hrg Hu. rewrite elem_of_app, elem_of_list_singleton in HyP. apply Decidable.not_or in HyP as [HyP Hyx].
    destruct (Hback y r' Hr') as (r & Hr & B1 & B2 & B3 & B4). rewrite B4.
    destruct (h_ten h !! y) as [ry|] eqn:Hry.
    + destruct (Hrec y ry Hry) as (r'' & Hr'' & L1 & L2 & L3 & L4 & L5 & L6). assert (r'' = r) as -> by congruence.
      destruct (L5 Hyx) as (L7 & L8 & L9). destruct (decide (y ∈ inputs h0 x)) as [Hy|Hy]; [apply L9; [done|congruence]|].
      rewrite L8 by (by left). eapply (mi_grad _ _ _ HI); [exact Hry|done|congruence|].
      destruct Hu as [?|(p & Hp & Hyp)]; [by left|right]. apply elem_of_app in Hp as [Hp| ->%elem_of_list_singleton]; [by exists p|done].
    + exfalso. assert (h_ten h0 !! y = None) as Hn0.
      { destruct (h_ten h0 !! y) as [r0|] eqn:Hr0; [|done]. destruct (mi_kept _ _ _ HI y r0 Hr0) as (? & ? & _). congruence. }
      destruct Hu as [->|(p & Hp & Hyp)].
      * assert (region h0 t t) as [_ [ft Hft]] by (apply (mi_region _ _ _ HI), HI). unfold fn_of in Hft. by rewrite Hn0 in Hft.
      * assert (region h0 t p) as Rp by (apply HR, HPR, Hp). apply (input_lt p y) in Hyp as [_ [? ?]]; [|done]. congruence.
Qed.

(** at the end every node has been processed *)
Lemma main_end P h : main_inv P [] h -> forall x, region h0 t x -> x ∈ P.
Proof.
  intros HI. assert (forall k x, region h0 t x -> (t - x < k)%nat -> x ∈ P) as H.
  2:{ intros x Rx. apply (H (S (t - x))); [done|lia]. }
  induction k as [|k IH]; intros x Rx Hk; [lia|]. destruct (decide (x ∈ P)) as [?|Hn]; [done|exfalso].
  apply (mi_unready _ _ _ HI x Rx); [by rewrite app_nil_r|]. pose proof (mi_dup _ _ _ HI) as Hd. rewrite app_nil_r in Hd.
  apply uses_sub_eq; [done| |done|].
  - intros y Hy. apply HR, (mi_region _ _ _ HI). by rewrite app_nil_r.
  - intros c Hc%HR Hin. destruct (input_lt c x Hc Hin) as [Hlt _]. apply IH; [done|].
    destruct Hc as [Hb _]. apply below_le in Hb; [|done]. lia.
Qed.
End loop.
End with_fops.
