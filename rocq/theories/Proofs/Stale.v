(** The main loop of backward() in states where some nodes were passed before or are not
    tracked any more. *)
From Verif.Proofs Require Export OrderEx.
From Verif.Spec Require Export Stale.
From Verif.Model Require Export Api.

Section with_fops.
Context {fo : FOps}.
Notation any := (fun _ _ => True).

Section loop.
Variables (h0 : heap) (t : nat) (R : list nat).
Hypothesis Hinv : tinv h0.
Hypothesis HdR : NoDup R.
Hypothesis HR : forall x, x ∈ R <-> region h0 t x.
Definition halted (x : nat) : Prop :=
  exists r f, h_ten h0 !! x = Some r /\ t_fn r = Some f /\
    if t_rg r then uses (inputs h0) R x <= gf_acc f else gf_acc f <> uses (inputs h0) R x.
Hypothesis Hall : forall x, region h0 t x -> x <> t -> unpassed h0 x \/ halted x.
Hypothesis Hroot : exists r, h_ten h0 !! t = Some r /\ t_rg r = true.
Let v3 : Z := h_ver h0 + 3.

Definition counted (P L : list nat) (h : heap) (y : nat) : Prop :=
  exists r r0 f, h_ten h !! y = Some r /\ h_ten h0 !! y = Some r0 /\ t_fn r0 = Some f /\ t_rg r = t_rg r0 /\
    t_fn r = Some (Gfn (gf_kind f) (gf_in f) (uses (inputs h0) R y)
      (gf_acc f + (if t_rg r0 then uses (inputs h0) P y else 0)) (if decide (y ∈ L) then v3 else v3 - 1)).
(** what a pass over [P] keeps of the record of [y] *)
Definition spared (P : list nat) (h : heap) (y : nat) : Prop :=
  forall r0, h_ten h0 !! y = Some r0 -> exists r, h_ten h !! y = Some r /\ same_data r0 r /\ t_rg r = t_rg r0 /\ t_ret r = t_ret r0 /\
    (t_fn r0 = None -> t_fn r = None /\ forall g, t_grad r0 = Some g -> t_grad r = Some g) /\
    (y <> t -> (forall p, p ∈ P -> y ∉ inputs h0 p) -> t_grad r = t_grad r0) /\
    (t_rg r0 = false -> t_grad r = t_grad r0) /\
    (t_fn r0 = None -> t_rg r0 = true -> (exists p, p ∈ P /\ y ∈ inputs h0 p) -> is_Some (t_grad r)).
Definition live (y : nat) : Prop := region h0 t y /\ (y = t \/ unpassed h0 y).
Definition due (P : list nat) (x : nat) : Prop :=
  live x /\ x ∉ P /\ (forall c, region h0 t c -> x ∈ inputs h0 c -> c ∈ P).
Record pass_inv (P Q : list nat) (h : heap) : Prop := PassInv {
  pi_tinv : tinv h;
  pi_sized : sized h;
  pi_ver : h_ver h = v3;
  pi_nodes : forall y, region h0 t y -> counted P (P ++ Q) h y;
  pi_kept : forall y, spared P h y;
  pi_dup : NoDup (P ++ Q);
  pi_root : t ∈ P ++ Q;
  pi_live : forall y, y ∈ P ++ Q -> live y;
  pi_used : forall y, y ∈ P ++ Q -> y = t \/ exists p, p ∈ P /\ y ∈ inputs h0 p;
  pi_ready : forall y, y ∈ P ++ Q -> forall c, region h0 t c -> y ∈ inputs h0 c -> c ∈ P;
  pi_unready : forall y, region h0 t y -> unpassed h0 y -> y ∉ P ++ Q -> uses (inputs h0) P y <> uses (inputs h0) R y
}.
Lemma live_rg x r : live x -> h_ten h0 !! x = Some r -> t_rg r = true.
Proof.
  intros [_ [->|(r' & f & Hr' & _ & Hrg & _)]] Hr; [|congruence]. destruct Hroot as (r' & Hr' & ?). congruence.
Qed.
Lemma input_below x y : region h0 t x -> y ∈ inputs h0 x -> (y < x)%nat /\ is_Some (h_ten h0 !! y).
Proof. intros [_ Hn] Hy. by eapply inputs_node. Qed.
Lemma input_region x y : region h0 t x -> y ∈ inputs h0 x -> is_node h0 y -> region h0 t y.
Proof. intros [Hb _] Hy Hn. split; [by eapply below_in|done]. Qed.
Lemma input_not_root x : region h0 t x -> t ∉ inputs h0 x.
Proof. intros Rx Hy. destruct (input_below x t Rx Hy) as [Hlt _]. pose proof (below_le h0 t Hinv _ (proj1 Rx)). lia. Qed.

Lemma pass_step P x Q h : pass_inv P (x :: Q) h -> due P x /\
  match process x h with (Ok new, h') => pass_inv (P ++ [x]) (Q ++ new) h' | (Diverge, _) => False | _ => True end.
Proof.
  intros HI. assert (x ∈ P ++ x :: Q) as Hx by (rewrite elem_of_app, elem_of_cons; auto).
  pose proof (pi_live _ _ _ HI x Hx) as Lx. pose proof Lx as [Rx _]. pose proof (pi_dup _ _ _ HI) as Hd.
  assert (x ∉ P) as HxP. { apply NoDup_app in Hd as (_ & Hd & _). intros HP. apply (Hd x HP). apply elem_of_list_here. }
  split. { split; [done|]. split; [done|]. by apply (pi_ready _ _ _ HI). }
  destruct (pi_nodes _ _ _ HI x Rx) as (rx & rx0 & fx & Hrx & Hrx0 & Hfx & Hrgx & Hfnx).
  set (gx := Gfn _ _ _ _ _) in Hfnx.
  assert (fn_of h0 x = Some fx) as Hfx0 by (unfold fn_of; by rewrite Hrx0).
  assert (fn_of h x = Some gx) as Hgx by (unfold fn_of; by rewrite Hrx).
  assert (gf_in fx = inputs h0 x) as Ein0 by (unfold inputs; by rewrite Hfx0).
  assert (gf_in gx = inputs h0 x) as Ein by done.
  assert (x ∉ inputs h0 x) as Hself. { intros Hi. apply input_below in Hi as [? _]; [lia|done]. }
  assert (nd (process x) (fun new h' => pass_inv (P ++ [x]) (Q ++ new) h') h) as Hnd.
  2:{ unfold nd, wp in Hnd. destruct (process x h) as [[new|?|?|] h']; [apply Hnd|done|done|]. by destruct Hnd. }
  unfold nd, wp. rewrite process_eq.
  change (nd (back_part x ;;; let! g := get_fn x in visit_ready (gf_in g)) (fun new h' => pass_inv (P ++ [x]) (Q ++ new) h') h).
  eapply nd_bind.
  { eapply wp_mono; [apply wp_conj; [eapply nd_back_part; [apply HI|apply HI|exact Hgx]|apply (tv_back_part x h), HI]| |].
    - intros a h' [[H1 H2] (H3 & H4 & _)]. split; [exact H1|]. exact (conj H2 H3).
    - intros a h' [H _]. exact H. }
  cbv beta. intros _ h2 Hs2 [(h1 & r1 & r2 & E1 & Hsb & _ & V2 & Hr1 & Hdr & E2) Hi2].
  pose proof (back_part_fn x _ _ _ _ _ _ _ Hsb Hr1 Hdr E2) as Hfn2. assert (h_ver h1 = h_ver h) as V1 by apply Hsb.
  rewrite Ein in Hsb, Hfn2.
  (* records after back_part *)
  assert (forall y r, h_ten h !! y = Some r -> exists r', h_ten h2 !! y = Some r' /\ same_data r r' /\ t_rg r' = t_rg r /\ t_ret r' = t_ret r /\
    t_fn r' = ((fun f => gf_with_acc f (gf_acc f + (if t_rg r then cnt (inputs h0 x) y else 0))) <$> t_fn r) /\
    (y <> x -> (t_grad r' = t_grad r \/ t_grad r = None /\ is_Some (t_grad r')) /\
      (y ∉ inputs h0 x \/ t_rg r = false -> t_grad r' = t_grad r) /\ (y ∈ inputs h0 x -> t_rg r = true -> is_Some (t_grad r'))) /\
    (y = x -> t_grad r' = if t_ret r then t_grad r else None)) as Hrec.
  { intros y r Hr. destruct Hsb as (_ & K & _). destruct (K y r Hr) as (r' & Hr' & SD & SR & ST & SF & SG & SM).
    rewrite E2. destruct (decide (y = x)) as [->|Hne].
    - assert (r' = r1) as -> by congruence. exists r2. rewrite list_lookup_insert by (by eapply lookup_lt_Some). split; [done|].
      destruct Hdr as (DD & DR & DT & DF & DG). split; [by eapply same_data_trans|]. split; [congruence|]. split; [congruence|].
      split; [rewrite DF, SF; by destruct (t_fn r)|]. split; [done|]. intros _. rewrite DG, ST. destruct (t_ret r); [|done].
      destruct SG as [?|(_ & _ & _ & ?)]; done.
    - exists r'. rewrite list_lookup_insert_ne by done. split; [done|]. split; [done|]. split; [done|]. split; [done|].
      split; [rewrite SF; by destruct (t_fn r)|]. split; [|done]. intros _. split; [|split; [|done]].
      + destruct SG as [?|(? & ? & _)]; auto.
      + destruct SG as [?|(_ & _ & Hrt & ?)]; [done|]. intros [?|?]; [done|congruence]. }
  assert (forall y, y ∈ inputs h0 x -> is_Some (h_ten h2 !! y)) as Hex.
  { intros y Hy. destruct (input_below x y Rx Hy) as [_ [r0 Hr0]]. destruct (pi_kept _ _ _ HI y r0 Hr0) as (r & Hr & _).
    destruct (Hrec y r Hr) as (r' & -> & _). by eexists. }
  assert (forall y, is_node h0 y \/ (y ∈ inputs h0 x /\ fn_of h2 y = None) \/ y ∉ inputs h0 x) as Hcase.
  { intros y. destruct (decide (y ∈ inputs h0 x)) as [Hy|]; [|auto]. destruct (input_below x y Rx Hy) as [_ [r0 Hr0]].
    destruct (t_fn r0) as [f0|] eqn:Ef0; [left; unfold is_node, fn_of; rewrite Hr0, Ef0; by eexists|]. right. left. split; [done|].
    destruct (pi_kept _ _ _ HI y r0 Hr0) as (r & Hr & _ & _ & _ & Hk & _). destruct (Hk Ef0) as [Hn _].
    rewrite Hfn2, Hr, Hn. done. }
  (* nodes after back_part *)
  assert (forall y, region h0 t y -> counted (P ++ [x]) (P ++ x :: Q) h2 y) as Hnode.
  { intros y Ry. destruct (pi_nodes _ _ _ HI y Ry) as (r & r0 & f & Hr & Hr0 & Hf & Hrg & Hfn). destruct (Hrec y r Hr) as (r' & Hr' & _ & Hrg' & _ & Hfn' & _).
    exists r', r0, f. split; [done|]. split; [done|]. split; [done|]. split; [congruence|]. rewrite Hfn', Hfn, Hrg. simpl. unfold gf_with_acc. simpl.
    rewrite uses_app. cbn [uses foldr]. do 2 f_equal. destruct (t_rg r0); lia. }
  destruct (Hnode x Rx) as (rx2 & rx0' & fx2 & Hrx2 & Hrx0' & Hfx2 & _ & Hfnx2). assert (rx0' = rx0) as -> by congruence. assert (fx2 = fx) as -> by congruence.
  unfold nd, wp. erewrite bind_ok by (apply get_fn_ok; unfold fn_of; rewrite Hrx2; exact Hfnx2). cbn [gf_in]. rewrite Ein0.
  destruct (visit_ready_spec (inputs h0 x) h2 Hex) as (new & h' & E & Hv).
  rewrite E. split; [by eapply visited_sized|].
  assert (tinv h') as Hi' by (eapply tinv_out; [by apply tv_visit_ready|done]).
  pose proof Hv as (_ & V' & T' & Hdn & Hn). assert (h_ver h2 = v3) as V2' by (rewrite V2, V1; apply HI).
  assert (forall y, y ∈ new <-> region h0 t y /\ unpassed h0 y /\ y ∈ inputs h0 x /\ y ∉ P ++ x :: Q /\ uses (inputs h0) (P ++ [x]) y = uses (inputs h0) R y) as Hnew.
  { intros y. rewrite Hn. split.
    - intros (Hy & f & Hf & Hc). destruct (Hcase y) as [Hnd|[[_ ?]|?]]; [|congruence|done].
      assert (region h0 t y) as Ry by (by apply (input_region x)). split; [done|].
      destruct (Hnode y Ry) as (r & r0 & f' & Hr & Hr0 & Hf' & _ & Hfn). unfold fn_of in Hf. rewrite Hr, Hfn in Hf. injection Hf as <-.
      unfold c_ready in Hc. simpl in Hc. apply andb_true_iff in Hc as [C1 C2]. rewrite V2' in C1. apply Z.eqb_eq in C2.
      assert (y ∉ P ++ x :: Q) as Hni. { intros Hin. rewrite decide_True in C1 by done. lia. }
      assert (y <> t) as Hne. { intros ->. by apply (input_not_root x). }
      destruct (Hall y Ry Hne) as [Hu|(r' & f'' & Hr' & Hf'' & Hh)].
      + split; [done|]. split; [done|]. split; [done|]. destruct Hu as (r' & f'' & Hr' & Hf'' & Hrg & Hacc).
        assert (r' = r0) as -> by congruence. assert (f'' = f') as -> by congruence. rewrite Hrg, Hacc in C2. lia.
      + exfalso. assert (r' = r0) as -> by congruence. assert (f'' = f') as -> by congruence. destruct (t_rg r0); [|lia].
        assert (0 < uses (inputs h0) (P ++ [x]) y); [|lia]. rewrite uses_app. cbn [uses foldr].
        pose proof (uses_nonneg (inputs h0) P y). pose proof (proj2 (cnt_pos (inputs h0 x) y) Hy). lia.
    - intros (Ry & Hu & Hy & Hni & Hus). split; [done|]. destruct (Hnode y Ry) as (r & r0 & f' & Hr & Hr0 & Hf' & _ & Hfn).
      destruct Hu as (r' & f'' & Hr' & Hf'' & Hrg & Hacc). assert (r' = r0) as -> by congruence. assert (f'' = f') as -> by congruence.
      eexists. split; [unfold fn_of; by rewrite Hr|]. unfold c_ready. simpl. rewrite V2', decide_False, Hrg, Hacc by done.
      apply andb_true_iff. split; lia. }
  assert ((P ++ [x]) ++ Q ++ new = (P ++ x :: Q) ++ new) as EL by (by rewrite <- !app_assoc).
  assert (NoDup (P ++ [x])) as HdP.
  { apply NoDup_app. split; [by apply NoDup_app in Hd as (? & _)|]. split; [|apply NoDup_singleton].
    by intros y Hy ->%elem_of_list_singleton. }
  assert (P ++ [x] ⊆ R) as HPR.
  { intros y Hy. apply HR, (pi_live _ _ _ HI). rewrite !elem_of_app, elem_of_list_singleton, elem_of_cons in *. tauto. }
  split.
  - done.
  - by eapply visited_sized.
  - congruence.
  - intros y Ry. destruct (Hnode y Ry) as (r & r0 & f & Hr & Hr0 & Hf & Hrg & Hfn). unfold counted. rewrite T', Hr. simpl.
    eexists _, r0, f. split; [done|]. split; [done|]. split; [done|]. split; [done|]. simpl. rewrite Hfn, V2'. simpl. f_equal. rewrite EL.
    unfold gf_with_ver. generalize (P ++ x :: Q). intros L. repeat case_decide; simpl; try done; rewrite elem_of_app in *; tauto.
  - intros y r0 Hr0. destruct (pi_kept _ _ _ HI y r0 Hr0) as (r & Hr & K1 & K2 & K3 & K4 & K7 & K10 & K11).
    destruct (Hrec y r Hr) as (r' & Hr' & L1 & L2 & L3 & L4 & L5 & L6). rewrite T', Hr'. simpl. eexists. split; [done|].
    split; [by eapply same_data_trans|]. split; [simpl; congruence|]. split; [simpl; congruence|]. split; [|split; [|split]].
    + intros Hfn0. destruct (K4 Hfn0) as [K5 K6]. simpl. rewrite L4, K5. split; [done|]. intros g Hg. specialize (K6 g Hg).
      destruct (decide (y = x)) as [->|Hne]. { unfold fn_of in Hfx. congruence. }
      destruct (L5 Hne) as ([?|[? _]] & _); congruence.
    + intros Hyt Hno. simpl. assert (y ∉ inputs h0 x) as Hni by (apply Hno; rewrite elem_of_app, elem_of_list_singleton; by right).
      destruct (decide (y = x)) as [->|Hne].
      * exfalso. destruct (pi_used _ _ _ HI x Hx) as [?|(p & Hp & Hin)]; [done|]. apply (Hno p); [|done]. rewrite elem_of_app. by left.
      * destruct (L5 Hne) as (_ & L8 & _). rewrite L8 by (by left). apply K7; [done|]. intros p Hp. apply Hno. rewrite elem_of_app. by left.
    + intros Hrf. destruct (decide (y = x)) as [->|Hne]. { pose proof (live_rg x r0 Lx Hr0). congruence. }
      destruct (L5 Hne) as (_ & L8 & _). simpl. rewrite L8 by (right; congruence). auto.
    + intros Hfn0 Hrt (p & Hp & Hyp). simpl. destruct (decide (y = x)) as [->|Hne]. { unfold fn_of in Hfx. congruence. }
      destruct (L5 Hne) as (L7 & _ & L9). destruct (decide (y ∈ inputs h0 x)) as [Hy|Hy]; [apply L9; [done|congruence]|].
      apply elem_of_app in Hp as [Hp|Hp%elem_of_list_singleton]; [|by subst p].
      destruct K11 as [g Hg]; [done|done|by exists p|]. destruct L7 as [->|[? _]]; [by exists g|congruence].
  - rewrite EL. apply NoDup_app. split; [done|]. split; [|done]. intros y Hy Hy'. apply Hnew in Hy'. tauto.
  - rewrite EL. apply elem_of_app. left. apply HI.
  - intros y. rewrite EL, elem_of_app. intros [Hy|Hy]; [by apply (pi_live _ _ _ HI)|]. apply Hnew in Hy. split; [tauto|]. right. tauto.
  - intros y. rewrite EL, elem_of_app. intros [Hy|Hy].
    + destruct (pi_used _ _ _ HI y Hy) as [?|(p & Hp & Hyp)]; [by left|right]. exists p. rewrite elem_of_app. auto.
    + right. exists x. rewrite elem_of_app, elem_of_list_singleton. apply Hnew in Hy. tauto.
  - intros y. rewrite EL, elem_of_app. intros [Hy|Hy] c Rc Hc.
    + apply elem_of_app. left. by eapply (pi_ready _ _ _ HI).
    + apply Hnew in Hy as (Ry & _ & _ & _ & Hu). eapply uses_eq_sub; [done|done|exact Hu|by apply HR|done].
  - intros y Ry Hup. rewrite EL, elem_of_app. intros Hni Hu. apply Decidable.not_or in Hni as [Hni1 Hni2].
    destruct (decide (y ∈ inputs h0 x)) as [Hy|Hy]; [apply Hni2, Hnew; done|].
    apply (pi_unready _ _ _ HI y Ry Hup Hni1). rewrite uses_app in Hu. cbn [uses foldr] in Hu. rewrite cnt_zero in Hu by done. lia.
Qed.

(** at the end the open nodes have been processed, and no others *)
Lemma pass_end P h : pass_inv P [] h -> forall x, open h0 t x -> x ∈ P.
Proof.
  intros HI. pose proof (pi_root _ _ _ HI) as Ht. pose proof (pi_dup _ _ _ HI) as Hd. rewrite app_nil_r in Ht, Hd.
  assert (forall k x, open h0 t x -> (t - x < k)%nat -> x ∈ P) as H.
  2:{ intros x Rx. apply (H (Datatypes.S (t - x))); [done|lia]. }
  induction k as [|k IH]; intros x (Hb & Hn & Ho) Hk; [lia|]. destruct (decide (x ∈ P)) as [?|Hni]; [done|exfalso].
  assert (x <> t) as Hne by (by intros ->).
  apply (pi_unready _ _ _ HI x (conj Hb Hn) (Ho x Hb (below_root _ _) Hne)); [by rewrite app_nil_r|].
  apply uses_sub_eq; [done| |done|].
  - intros y Hy. apply HR, (pi_live _ _ _ HI). by rewrite app_nil_r.
  - intros c Hc%HR Hin. destruct (input_below c x Hc Hin) as [Hlt _]. pose proof (below_le h0 t Hinv _ (proj1 Hc)).
    apply IH; [|lia]. destruct Hc as [Hbc Hnc]. split; [done|]. split; [done|]. intros d Hbd Hdc. apply Ho; [done|].
    eapply below_in; [exact Hdc|done].
Qed.
End loop.

Section root.
Variables (h0 : heap) (t : nat) (r0 : tensor) (f0 : gradfn).
Hypothesis Hinv : tinv h0.
Hypothesis Hver : vinv h0.
Hypothesis Hsz : sized h0.
Hypothesis Hr0 : h_ten h0 !! t = Some r0.
Hypothesis Hf0 : t_fn r0 = Some f0.
Hypothesis Hrg0 : t_rg r0 = true.
Hypothesis Hone : lnumel (t_lay r0) = 1.
Lemma prepare_pass : exists R, NoDup R /\ (forall x, x ∈ R <-> region h0 t x) /\
  nd (prepare t) (fun _ h => pass_inv h0 t R [] [t] h) h0.
Proof.
  assert (fn_of h0 t = Some f0) as Hft by (unfold fn_of; by rewrite Hr0).
  destruct (refresh_ok h0 t f0 Hinv Hver Hft) as (R & h1 & E1 & HdR & HR & S1 & V1 & T1).
  exists R. split; [done|]. split; [done|].
  assert (tinv h1) as Hi1 by (eapply tinv_out; [by apply tv_refresh|done]).
  assert (sized h1) as Hs1.
  { intros y r. rewrite T1. destruct (h_ten h0 !! y) as [ry|] eqn:Ey; [|done]. intros [= <-]. exact (Hsz y ry Ey). }
  unfold prepare, nd, wp. erewrite bind_ok by (by apply get_ten_ok). unfold run_expect. rewrite Hrg0, Hf0, Hone. 
  rewrite Z.eqb_refl. do 3 rewrite bind_ret. erewrite bind_ok by exact E1.
  match goal with |- match ?m h1 with _ => _ end => change (nd m (fun _ h => pass_inv h0 t R [] [t] h) h1) end.
  assert (h_ten h1 !! t = Some (on_fn (e2 h0 R (h_ver h0 + 2) R R) t r0)) as Hr1 by (rewrite T1, Hr0; done).
  eapply nd_bind; [apply (nd_both (ones_like t) (fun _ h' => sb [] [] h1 h')); [|by eapply tv_ones_like]|].
  { eapply nd_mono; [by apply nb_ones_like|]. by intros ? ? _ [? _]. }
  intros o h2 Hs2 (Hi2 & M2 & Hsb & Hf). apply nd_get; [done|]. intros r2 Hr2 Hn2.
  destruct (mono_get _ _ _ _ M2 Hr1) as (r2' & Hr2' & Y1 & Y2 & Y3). assert (r2' = r2) as -> by congruence.
  eapply nd_bind; [apply (nd_both (set_ten t (with_grad r2 (Some o))) any); [by apply nd_set|apply tv_set_grad; [done|done|]]|].
  { intros x [= <-]. destruct Hf as (_ & _ & s & Hs'). eexists. split; [exact Hs'|]. unfold shape. simpl. rewrite Y1, Y2. done. }
  intros _ h3 Hs3 (Hi3 & _ & _ & E3). eapply nd_bind; [apply (nd_tv bump); [by apply nd_bump|by apply tv_bump]|].
  intros v h4 Hs4 (Hi4 & Ev & V4 & T4).
  assert (h_ver h2 = h_ver h0 + 2) as V2 by (destruct Hsb as (-> & _); done).
  assert (v = h_ver h0 + 3) as Ev' by (rewrite Ev, E3; simpl; lia).
  assert (h_ten h4 !! t = Some (with_grad r2 (Some o))) as Ht4.
  { rewrite T4, E3. simpl. apply list_lookup_insert. by eapply lookup_lt_Some. }
  assert (exists f2, t_fn r2 = Some f2) as (f2 & Hf2).
  { destruct Hsb as (_ & K & _). destruct (K _ _ Hr1) as (r' & Hr' & _ & _ & _ & Fn & _). assert (r' = r2) as -> by congruence.
    rewrite Fn. unfold on_fn. rewrite Hf0. simpl. by eexists. }
  assert (fn_of h4 t = Some f2) as Hf4 by (unfold fn_of; by rewrite Ht4).
  destruct (upd_fn_state h4 t f2 (fun g => gf_with_ver g v) Hf4) as (h5 & E5 & S5 & V5 & T5).
  assert (sized h5) as Hs5.
  { intros y r. rewrite T5. destruct (h_ten h4 !! y) as [ry|] eqn:Ey; [|done]. intros [= <-]. exact (Hs4 y ry Ey). }
  assert (tinv h5) as Hi5 by (refine (tinv_out _ _ (tv_upd_fn t (fun g => gf_with_ver g v) h4 _ Hi4) _ _ E5); done).
  unfold nd, wp. rewrite E5. split; [done|].
  (* records of [h0] in [h5] *)
  assert (forall y r, h_ten h0 !! y = Some r -> exists r5, h_ten h5 !! y = Some r5 /\ same_data r r5 /\ t_rg r5 = t_rg r /\
    t_ret r5 = t_ret r /\ t_grad r5 = (if decide (y = t) then Some o else t_grad r) /\
    t_fn r5 = (fun f => (if decide (y = t) then (fun g => gf_with_ver g v) else id) (e2 h0 R (h_ver h0 + 2) R R y f)) <$> t_fn r) as Hrec.
  { intros y r Hr. destruct Hsb as (_ & K & _).
    destruct (K y (on_fn (e2 h0 R (h_ver h0 + 2) R R) y r)) as (ry & Hry & D & Rg & Rt & Fn & G & _); [rewrite T1, Hr; done|].
    rewrite T5, T4, E3. cbn [h_ten].
    assert (t_fn ry = e2 h0 R (h_ver h0 + 2) R R y <$> t_fn r) as Fn'.
    { rewrite Fn. simpl. destruct (t_fn r) as [f|]; [|done]. simpl. f_equal. assert ((if t_rg r then cnt [] y else 0) = 0) as -> by (by destruct (t_rg r)). apply acc_id. }
    assert (t_grad ry = t_grad r) as G'. { destruct G as [G|(_ & _ & _ & []%not_elem_of_nil)]. done. }
    destruct (decide (y = t)) as [->|Hne].
    - rewrite list_lookup_insert by (by eapply lookup_lt_Some). assert (ry = r2) as -> by congruence.
      eexists. split; [done|]. split; [done|]. split; [done|]. split; [done|]. split; [done|].
      unfold on_fn. cbn [t_fn with_fn with_grad]. rewrite Fn'. destruct (t_fn r); [|done]. cbn [fmap option_fmap option_map]. by rewrite decide_True.
    - rewrite list_lookup_insert_ne, Hry by done. eexists. split; [done|]. split; [done|]. split; [done|]. split; [done|]. split; [done|].
      unfold on_fn. simpl. rewrite Fn'. destruct (t_fn r); [|done]. simpl. by rewrite decide_False. }
  split.
  - done.
  - done.
  - congruence.
  - intros y [Hb [f Hf']]. unfold fn_of in Hf'. destruct (h_ten h0 !! y) as [r|] eqn:Er; [|done].
    destruct (Hrec y r Er) as (r5 & Hr5 & _ & Rg & _ & _ & Fn).
    exists r5, r, f. split; [done|]. split; [done|]. split; [done|]. split; [congruence|]. rewrite Fn, Hf'. cbn [fmap option_fmap option_map]. f_equal.
    assert (y ∈ R) as HyR. { apply HR. split; [done|]. exists f. unfold fn_of. by rewrite Er. }
    unfold e2. rewrite !(decide_True (P := y ∈ R)) by done. cbn [app uses foldr]. destruct (decide (y = t)) as [->|Hne].
    + rewrite decide_True by apply elem_of_list_here. unfold gf_with_ver. simpl. rewrite Ev'. f_equal. destruct (t_rg r); lia.
    + rewrite decide_False by (by rewrite elem_of_list_singleton). unfold id. f_equal; [|lia]. destruct (t_rg r); lia.
  - intros y r Hr. destruct (Hrec y r Hr) as (r5 & Hr5 & D & Rg & Rt & G & Fn). exists r5. split; [done|]. split; [done|]. split; [done|]. split; [done|].
    split; [|split; [|split]].
    + intros Hn. rewrite Fn, Hn. split; [done|]. intros g Hg. rewrite G. rewrite decide_False; [done|]. intros ->. congruence.
    + intros Hne _. by rewrite G, decide_False.
    + intros Hrf; rewrite G, decide_False; [done|]; intros ->; congruence.
    + intros _ _ (p & Hp & _). by apply elem_of_nil in Hp.
  - apply NoDup_singleton.
  - apply elem_of_list_here.
  - intros y ->%elem_of_list_singleton. split; [|by left]. split; [constructor|by eexists].
  - intros y ->%elem_of_list_singleton. by left.
  - intros y ->%elem_of_list_singleton c [Hb Hn] Hin. exfalso. destruct (inputs_node h0 Hinv c Hn t Hin) as [Hlt _].
    apply (below_le h0 t Hinv) in Hb. lia.
  - intros y Ry _ Hy Hu. simpl in Hu. symmetry in Hu. simpl in Hy. rewrite elem_of_list_singleton in Hy. destruct Ry as [Hb Hn].
    destruct Hb as [|c y Hb Hin]; [done|]. eapply (uses_zero _ _ _ Hu c); [|exact Hin]. apply HR. split; [done|].
    unfold inputs in Hin. unfold is_node. destruct (fn_of h0 c); [done|]. by apply elem_of_nil in Hin.
Qed.
Lemma below_trans a b c : below h0 a b -> below h0 b c -> below h0 a c.
Proof. intros Hab. induction 1 as [|c d Hc IH Hd]; [done|]. by eapply below_in. Qed.
Lemma node_of_input c x : x ∈ inputs h0 c -> is_node h0 c.
Proof. unfold inputs, is_node. destruct (fn_of h0 c); [done|]. by intros ?%elem_of_nil. Qed.
Lemma times_uses R y : times h0 R y = uses (inputs h0) R y.
Proof.
  unfold times. induction R as [|x R IH]; [done|]. cbn [mbind list_bind uses foldr]. rewrite filter_app, app_length, Nat2Z.inj_add, IH. f_equal.
  unfold cnt. f_equal. induction (inputs h0 x) as [|z l IHl]; [done|]. rewrite filter_cons. cbn [count_occ].
  destruct (Nat.eq_dec z y), (decide (z = y)); try done; simpl; congruence.
Qed.
Hypothesis Hall : forall x, below h0 t x -> is_node h0 x -> x <> t -> unpassed h0 x \/ stopped h0 t x.
Lemma stopped_halted R x : NoDup R -> (forall x, x ∈ R <-> region h0 t x) -> stopped h0 t x -> halted h0 R x.
Proof.
  intros Hd HR (r & f & R' & Hr & Hf & [Hd' HR'] & H). exists r, f. split; [done|]. split; [done|].
  rewrite times_uses in H. assert (R' ≡ₚ R) as Hp. { apply NoDup_Permutation; [done|done|]. intros y. by rewrite HR', HR. }
  by rewrite (uses_perm _ _ _ _ Hp) in H.
Qed.
Lemma due_open P x : (forall p, p ∈ P -> open h0 t p) -> due h0 t P x -> open h0 t x.
Proof.
  intros HP ([[Hb Hn] Hl] & _ & Hc). split; [done|]. split; [done|]. intros c Hbc Hcx Hct. destruct Hcx as [|d x Hcd Hin].
  - destruct Hl; done.
  - assert (region h0 t d) as Rd. { split; [|by eapply node_of_input]. by eapply below_trans. }
    destruct (HP d (Hc d Rd Hin)) as (_ & _ & Hd). by apply Hd.
Qed.
Lemma inv_passed R P Q h x r : (forall x, x ∈ R <-> region h0 t x) -> pass_inv h0 t R P Q h -> h_ten h0 !! x = Some r ->
  exists r', h_ten h !! x = Some r' /\ passed_over h0 t P x r r'.
Proof.
  intros HR HI Hr. destruct (pi_kept _ _ _ _ _ _ HI x r Hr) as (r' & Hr' & K1 & K2 & K3 & K4 & K5 & K6 & K7). exists r'. split; [done|].
  split; [done|]. split; [done|]. split; [done|]. split; [done|]. split; [done|]. split; [done|]. split; [intros Hn; by apply K4|].
  intros f Hf Hb. destruct (pi_nodes _ _ _ _ _ _ HI x) as (ra & rb & fx & Hra & Hrb & Hfx & _ & Hfn).
  { split; [done|]. exists f. unfold fn_of. by rewrite Hr. }
  assert (ra = r') as -> by congruence. assert (rb = r) as -> by congruence. assert (fx = f) as -> by congruence.
  eexists. split; [exact Hfn|]. simpl. rewrite times_uses. done.
Qed.
(** the pass, with a further invariant [J] of the processed nodes and the heap *)
Lemma backward_pass_with (J : list nat -> heap -> Prop) :
  (forall h, prepare t h0 = (Ok tt, h) -> J [] h) ->
  (forall P x h new h', open h0 t x -> (forall y r, h_ten h0 !! y = Some r -> exists r', h_ten h !! y = Some r' /\ passed_over h0 t P y r r') ->
    sized h -> J P h -> process x h = (Ok new, h') -> J (P ++ [x]) h') -> exists order,
  backward t h0 = (prepare t ;;; process_all order) h0 /\ NoDup order /\
  (forall k x, order !! k = Some x -> open h0 t x /\ forall c, below h0 t c -> x ∈ inputs h0 c -> c ∈ take k order) /\
  (forall h', backward t h0 = (Ok tt, h') ->
    (forall x, x ∈ order <-> open h0 t x) /\
    (forall x r, h_ten h0 !! x = Some r -> exists r', h_ten h' !! x = Some r' /\ passed_over h0 t order x r r') /\ J order h') /\
  (backward t h0).1 <> Diverge.
Proof.
  intros HJ0 HJ. destruct prepare_pass as (R & HdR & HR & Hp). unfold nd, wp in Hp. rewrite backward_eq.
  destruct (prepare t h0) as [[[]|e|u|] h1] eqn:E1.
  2-4: exists []; split; [unfold bind; by rewrite E1|]; split; [constructor|]; split; [done|]; unfold bind; rewrite E1; split; [done|].
  2-3: done.
  2: by destruct Hp.
  destruct Hp as [Hs1 HI].
  assert (forall x, region h0 t x -> x <> t -> unpassed h0 x \/ halted h0 R x) as Hall'.
  { intros x [Hb Hn] Hne. destruct (Hall x Hb Hn Hne) as [?|?]; [by left|right]. by apply stopped_halted. }
  assert (exists r, h_ten h0 !! t = Some r /\ t_rg r = true) as Hroot by (by exists r0).
  set (I := fun P Q h => pass_inv h0 t R P Q h /\ (forall p, p ∈ P -> open h0 t p) /\ J P h).
  destruct (bfs_run I (fun P x => due h0 t P x /\ open h0 t x) process (length (h_ten h0))) with (fuel := length (h_ten h0)) (P := @nil nat) (Q := [t]) (h := h1)
    as (order & E & HX & HE).
  - intros P x Q h (HI' & HO & HJ'). unshelve epose proof (pass_step h0 t R _ _ _ _ P x Q h HI') as [Hd Hs]; try done.
    pose proof (due_open P x HO Hd) as Hx. split; [done|]. destruct (process x h) as [[new|?|?|] h'] eqn:Ep; try done.
    split; [done|]. split.
    + intros p [?| ->%elem_of_list_singleton]%elem_of_app; auto.
    + eapply (HJ P x); [done| |apply HI'|done|done]. intros y r Hr. by apply (inv_passed R P (x :: Q)).
  - intros P Q h (HI' & _). split; [apply HI'|]. intros y Hy. destruct (pi_live _ _ _ _ _ _ HI' y Hy) as [[_ [f Hf]] _]. by eapply fn_of_lt.
  - split; [done|]. split; [by intros p ?%elem_of_nil|]. by apply HJ0.
  - simpl. lia.
  - exists order. erewrite !bind_ok by exact E1. rewrite E. split; [done|].
    assert (forall k x, order !! k = Some x -> due h0 t (take k order) x /\ open h0 t x) as HX' by exact HX.
    split; [|split; [|split]].
    + apply NoDup_alt. assert (forall i j x, (i < j)%nat -> order !! i = Some x -> order !! j = Some x -> False) as H.
      { intros i j x Hij Hi Hj. destruct (HX' j x Hj) as [(_ & Hn & _) _]. apply Hn. apply elem_of_list_lookup. exists i. by rewrite lookup_take. }
      intros i j x Hi Hj. destruct (Nat.lt_total i j) as [?|[?|?]]; [by destruct (H i j x)|done|by destruct (H j i x)].
    + intros k x Hk. destruct (HX' k x Hk) as [(_ & _ & Hc) Ho]. split; [done|]. intros c Hbc Hin. apply Hc; [|done].
      split; [done|]. by eapply node_of_input.
    + rewrite <- E. intros h' E'. rewrite E' in HE. destruct HE as (HI' & HO & HJ'). simpl in HI', HO, HJ'. split.
      * intros x. split; [apply HO|]. by eapply (pass_end h0 t R).
      * split; [|done]. intros x r Hr. by apply (inv_passed R order []).
    + rewrite <- E. by destruct (bfs _ _ _ _) as [[?|?|?|] ?].
Qed.
End root.
End with_fops.
