(** backward() where some nodes are not tracked any more: what the leaves' gradients gain. *)
From Verif.Proofs Require Export Stale2 Kept.
From Verif.Spec Require Export Cut.
From Verif.Model Require Export Exact Api.
#[local] Existing Instance Exact.
#[local] Existing Instance is_view_dec.

Section pass.
Variables (h0 : heap) (t : nat) (d : tangent) (B R : list nat).
Hypothesis Hinv : tinv h0.
Hypothesis Hgr : grad_base h0 t.
Hypothesis Hob : views_obey h0 t d.
Hypothesis HdB : NoDup B.
Hypothesis HB : forall b, b ∈ B <-> base h0 t b.
Hypothesis HR : forall x, x ∈ R <-> region h0 t x.
Hypothesis Hall : forall x, region h0 t x -> x <> t -> unpassed h0 x \/ halted h0 R x.
Hypothesis Hnode : forall x f, open h0 t x -> fn_of h0 x = Some f -> node_ok h0 t x (gf_kind f) (gf_in f).
Hypothesis Hrule : forall x f, open h0 t x -> fn_of h0 x = Some f -> rule h0 d x (gf_kind f) (gf_in f).
Hypothesis Hmean : forall x, open h0 t x -> x <> t -> ~ is_mean h0 x.
Notation ginv := (ginv h0 t).
Notation phi := (phi h0 d B).
Notation gpot := (gpot h0 d).
Notation pass_inv := (pass_inv h0 t R).

Lemma root_tracked : exists r, h_ten h0 !! t = Some r /\ t_rg r = true.
Proof. destruct (gb_root _ _ Hgr) as (r & f & ? & _ & ?). by exists r. Qed.
Lemma open_tracked x : open h0 t x -> tracked h0 x.
Proof.
  intros (Hb & _ & Ho). destruct (decide (x = t)) as [->|Hne]; [destruct root_tracked as (r & ? & ?); by exists r|].
  destruct (Ho x Hb (below_root _ _) Hne) as (r & f & ? & _ & ? & _). by exists r.
Qed.
Definition open_inv (c : Qc) (P Q : list nat) (h : heap) : Prop :=
  pass_inv P Q h /\ (forall p, p ∈ P -> open h0 t p) /\
  (exists U, ginv P U h /\ t ∈ U /\ forall p y, p ∈ P -> y ∈ inputs h0 p -> y ∈ U) /\ phi P h = c /\
  (P = [] -> gpot h t = sum_over (shape_of h0 t) (d t)) /\ (P = [] \/ t ∈ P).
Lemma open_step c P x Q h : open_inv c P (x :: Q) h -> exists new h', process x h = (Ok new, h') /\ open_inv c (P ++ [x]) (Q ++ new) h'.
Proof.
  intros (HI & HO & (U & G & Ht & HU) & F & Hg & Hor). assert (x ∈ P ++ x :: Q) as Hx by (rewrite elem_of_app, elem_of_cons; auto).
  unshelve epose proof (pass_step h0 t R _ _ _ _ P x Q h HI) as [Hd Hs]; try done; [apply root_tracked|].
  pose proof (due_open h0 t P x HO Hd) as Ox. destruct Hd as ([Rx _] & HxP & Hc). pose proof Rx as [_ [fx Hfx]].
  assert (upclosed h0 t P) as Hup. { intros p c' Hp Rc _ Hin. eapply (pi_ready _ _ _ _ _ _ HI p); [|done|done]. apply elem_of_app. by left. }
  assert (upclosed h0 t (P ++ [x])) as Hup'.
  { intros p c' Hp Rc _ Hin. apply elem_of_app. left. eapply (pi_ready _ _ _ _ _ _ HI p); [|done|done].
    apply elem_of_app in Hp as [?| ->%elem_of_list_singleton]; rewrite elem_of_app, elem_of_cons; auto. }
  assert (forall a, a ∈ gf_in fx -> a ∉ P) as Hins.
  { intros a Ha Hp. apply HxP. eapply (pi_ready _ _ _ _ _ _ HI a); [apply elem_of_app; by left|exact Rx|]. unfold inputs. by rewrite Hfx. }
  destruct (step_pays h0 t d B Hinv Hgr Hob HdB HB P U x h fx G Hup HxP) as (h1 & E1 & G1 & F1); try done.
  { destruct (pi_used _ _ _ _ _ _ HI x Hx) as [->|(p & Hp & Hy)]; [done|by eapply HU]. }
  { by apply open_tracked. }
  { by apply Hnode. }
  { intros ->. destruct Hor as [->|Hp]; [by apply Hg|done]. }
  { rewrite decide_False; [by apply Hrule|]. intros [? ?]. by apply (Hmean x). }
  assert (gain h0 t d x = 0%Qc) as Hgn. { unfold gain. rewrite decide_False; [done|]. intros [? ?]. by apply (Hmean x). }
  destruct (pi_nodes _ _ _ _ _ _ HI x Rx) as (rx & rx0 & f' & Hrx & Hrx0 & Hf' & _ & Hfnx).
  assert (f' = fx) as -> by (unfold fn_of in Hfx; rewrite Hrx0 in Hfx; congruence).
  destruct (process_rest h0 t d B Hinv Hgr Hob HB P U x h h1 fx _ (pi_sized _ _ _ _ _ _ HI) (pi_tinv _ _ _ _ _ _ HI) Rx ltac:(unfold fn_of; by rewrite Hrx) eq_refl eq_refl G Hup Hup' Hfx E1 G1)
    as (new & h' & E & G' & F' & _). rewrite E in Hs. exists new, h'. split; [done|].
  split; [done|]. split; [intros p [?| ->%elem_of_list_singleton]%elem_of_app; auto|]. split; [|split; [|split; [by destruct P|]]].
  - exists (inputs h0 x ++ U). split; [done|]. split; [apply elem_of_app; by right|].
    intros p y [Hp| ->%elem_of_list_singleton]%elem_of_app Hy; apply elem_of_app; [right; by eapply HU|by left].
  - rewrite F', F1, F, Hgn. ring.
  - right. destruct Hor as [->|Hp]; [|apply elem_of_app; by left].
    destruct (pi_used _ _ _ _ _ _ HI x Hx) as [->|(p & []%elem_of_nil & _)]. apply elem_of_list_here.
Qed.
Lemma open_loop h1 : pass_inv [] [t] h1 -> ginv [] [t] h1 -> gpot h1 t = sum_over (shape_of h0 t) (d t) ->
  exists P h', bfs (length (h_ten h0)) process [t] h1 = (Ok tt, h') /\ open_inv (phi [] h1) P [] h'.
Proof.
  intros HI G Hg. destruct (bfs_ind (open_inv (phi [] h1)) process (length (h_ten h0))) with (fuel := length (h_ten h0)) (P := @nil nat) (Q := [t]) (h := h1) as (P & h' & E & HI').
  - intros. by apply open_step.
  - intros P Q h (HI' & _). split; [apply HI'|]. intros y Hy. destruct (pi_live _ _ _ _ _ _ HI' y Hy) as [[_ [f Hf]] _]. by eapply fn_of_lt.
  - split; [done|]. split; [by intros p ?%elem_of_nil|]. split; [|split; [done|split; [done|by left]]].
    exists [t]. split; [done|]. split; [apply elem_of_list_here|]. by intros p y ?%elem_of_nil.
  - simpl. lia.
  - by exists P, h'.
Qed.
End pass.

#[global] Instance tracked_dec' h x : Decision (tracked h x).
Proof.
  unfold tracked. destruct (h_ten h !! x) as [r|] eqn:E; [|right; by intros (? & ? & _)].
  destruct (t_rg r) eqn:Er; [left; by exists r|right; intros (r' & ? & ?); congruence].
Defined.
(** what the pass leaves of the tensors *)
Record open_effect (h0 : heap) (t : nat) (h' : heap) : Prop := OpenEffect {
  oe_rec : forall y r0, h_ten h0 !! y = Some r0 -> exists r, h_ten h' !! y = Some r /\ same_data r0 r /\ t_rg r = t_rg r0;
  oe_sto : forall s x, outside h0 t s -> h_sto h0 !! s = Some x -> h_sto h' !! s = Some x
}.
Lemma backward_open h0 t d ls : tinv h0 -> vinv h0 -> sized h0 -> grad_base h0 t ->
  (exists r f, h_ten h0 !! t = Some r /\ t_fn r = Some f /\ t_rg r = true /\ t_lay r = contig (shape r) /\ size_prod (shape r) = 1 /\ ~ is_view h0 t) ->
  settled h0 t -> (forall x f, open h0 t x -> fn_of h0 x = Some f -> node_ok h0 t x (gf_kind f) (gf_in f)) ->
  (forall x, open h0 t x -> x <> t -> ~ is_mean h0 x) -> leaves h0 t ls -> obeys_open h0 t d ->
  exists h', backward t h0 = (Ok tt, h') /\ pairing h' ls d = (pairing h0 ls d + sum_over (shape_of h0 t) (d t))%Qc /\ open_effect h0 t h'.
Proof.
  intros Hinv Hver Hsz Hgr Hroot Hset Hnode Hmean Hls (Hr1 & Hr2 & Hr3).
  assert (views_obey h0 t d) as Hob.
  { split; [|done]. intros x f Hb Ht Hf Hk. apply Hr1; [done|done|]. right. split; [by exists f|done]. }
  destruct (prepare_start h0 t Hinv Hver Hgr Hroot) as (h5 & so & r & E5 & Hr & K & HS & Hg & Hso & Hnum).
  destruct Hroot as (r' & f & Hr' & Hf & Hrg & El & E1 & Hv) eqn:HrootE. clear HrootE. assert (r' = r) as -> by congruence. clear Hr'.
  destruct (live_rec h0 t Hinv Hgr t) as (r' & Hr' & _ & _ & _ & _ & Hal & _); [split; [constructor|by exists r]|]. assert (r' = r) as -> by congruence. clear Hr'.
  assert (lnumel (t_lay r) = 1) as Hone. { unfold lnumel. change (sizes (t_lay r)) with (shape r). by rewrite (allocable_numel _ _ Hal). }
  destruct (prepare_pass h0 t r f Hinv Hver Hsz Hr Hf Hrg Hone) as (R & HdR & HR & Hp).
  unfold nd, wp in Hp. rewrite E5 in Hp. destruct Hp as [_ HI].
  set (Nd := filter (fun x => ~ is_view h0 x /\ tracked h0 x) R).
  pose proof Hls as [Hd Hl].
  assert (NoDup (Nd ++ ls)) as HdB.
  { apply NoDup_app. split; [by apply NoDup_filter|]. split; [|done]. intros x [_ [_ Hx]%HR]%elem_of_list_filter (_ & Hn & _)%Hl. done. }
  assert (forall b, b ∈ Nd ++ ls <-> base h0 t b) as HB.
  { intros b. unfold Nd. rewrite elem_of_app, elem_of_list_filter, HR, Hl. unfold base. split.
    - intros [((H1 & H2) & H3 & H4)|(H1 & H2 & H3)]; [done|]. split; [done|]. split; [done|]. intros (g & Hg' & _). apply H2. by exists g.
    - intros (H1 & H2 & H3). destruct (decide (is_node h0 b)); [left|right]; done. }
  assert (forall x, region h0 t x -> x <> t -> unpassed h0 x \/ halted h0 R x) as Hall.
  { intros x [Hb Hn] Hne. destruct (Hset x Hb Hn Hne) as [?|?]; [by left|right]. by eapply (stopped_halted h0 t). }
  assert (exists r f, h_ten h0 !! t = Some r /\ t_fn r = Some f /\ t_rg r = true /\ t_lay r = contig (shape r) /\ size_prod (shape r) = 1 /\ ~ is_view h0 t) as Hroot' by (by exists r, f).
  destruct (start_ok h0 t d _ Hinv Hgr Hob HdB HB Hroot' h5 so r Hr K HS Hg Hso Hnum) as (G & Hgp & Hphi).
  rewrite (phi_start h0 t d _ Hinv Hgr HdB HB Hroot' ls Hls) in Hphi.
  destruct (open_loop h0 t d (Nd ++ ls) R Hinv Hgr Hob HdB HB HR Hall Hnode) with (h1 := h5) as (P & h' & E & HI' & HO & (U & G' & _) & F & _); try done.
  { intros x g Hx Hg'. apply Hr1; [apply Hx|done|by left]. }
  assert (forall x, open h0 t x -> x ∈ P) as HP by (by eapply (pass_end h0 t R)).
  exists h'. split; [rewrite backward_eq; by erewrite bind_ok by exact E5|]. split; [|split].
  - rewrite <- Hphi, <- F. rewrite (phi_end h0 t d (Nd ++ ls) Hinv Hgr HdB HB (filter (fun x => x ∉ P) Nd ++ ls) P U h'); [| | |done].
    + unfold pairing. rewrite map_app, sumq_app, (sumq_zero _ (filter _ Nd)); [ring|]. intros x (HxP & [(Hv' & Tx) [Bx Nx]%HR]%elem_of_list_filter)%elem_of_list_filter. cbv beta.
      apply sumq_zero. intros idx _. rewrite Hr2; [ring|done|done| |done]. intros Ho. by apply HxP, HP.
    + apply NoDup_app. split; [by apply NoDup_filter, NoDup_filter|]. split; [|done].
      intros x (_ & [_ [_ Hx]%HR]%elem_of_list_filter)%elem_of_list_filter (_ & Hn & _)%Hl. done.
    + intros x. rewrite <- HB, !elem_of_app, elem_of_list_filter. split; [|tauto]. intros [[? ?]|Hx]; [auto|].
      split; [auto|]. intros Hx'. destruct (HO _ Hx') as (_ & ? & _). by apply Hl in Hx as (_ & ? & _).
  - intros y r0 Hr0. by apply (gi_rec _ _ _ _ _ G').
  - intros s x Hs Hx. by apply (gi_data _ _ _ _ _ G').
Qed.
