(** backward(): the sum of Ginv.v over the whole loop. *)
From Verif.Proofs Require Export Ginv.
From Verif.Model Require Export Exact Api.
#[local] Existing Instance Exact.

Section drop.
Variables (h0 : heap) (t : nat) (d : tangent) (B R : list nat).
Hypothesis Hinv : tinv h0.
Hypothesis Hgr : grad_base h0 t.
Hypothesis Hob : views_obey h0 t d.
Hypothesis HdB : NoDup B.
Hypothesis HB : forall b, b ∈ B <-> base h0 t b.
Hypothesis HR : forall x, x ∈ R <-> region h0 t x.
Notation ginv := (ginv h0 t).
Notation phi := (phi h0 d B).
Notation gpot := (gpot h0 d).
Notation gain := (gain h0 t d).
Notation main_inv := (main_inv h0 t R).
Notation upclosed := (upclosed h0 t).

(** the gradient of [x] is dropped *)
Lemma drop_ok P U h h' x r : ginv P U h -> upclosed P -> upclosed (P ++ [x]) -> h_ten h !! x = Some r -> h_sto h' = h_sto h ->
  (exists r', dropped x r r' /\ h_ten h' = <[x := r']> (h_ten h)) -> ginv (P ++ [x]) U h' /\ phi (P ++ [x]) h' = phi (P ++ [x]) h.
Proof.
  intros G Hup Hup' Hr Hs (r' & (D1 & D2 & D3 & D4 & D5) & Ht).
  assert (rsim (P ++ [x]) h h') as K.
  { intros y ry Hy. destruct (decide (y = x)) as [->|Hne].
    - assert (ry = r) as -> by congruence. exists r'. rewrite Ht, list_lookup_insert by (by eapply lookup_lt_Some). split; [done|]. split; [done|]. split; [done|].
      intros []. apply elem_of_app. right. apply elem_of_list_here.
    - exists ry. rewrite Ht, list_lookup_insert_ne by done. split; [done|]. split; [apply same_data_refl|done]. }
  split.
  - eapply (ginv_step h0 t d B) with (P := P) (h := h); try done. { intros y Hy. apply elem_of_app. by left. }
    intros s z Hz. left. by rewrite Hs.
  - apply (phi_same h0 t d B HB). intros b Bb Hb. eapply (gpot_keep h0 t d) with (P := P) (U := U) (h := h); try done.
    + intros Hp. apply Hb, elem_of_app. by left.
    + intros s _. by rewrite Hs.
Qed.
(** what one iteration does to the gradients *)
Definition after (x : nat) (ins : list nat) (h h' : heap) : Prop := forall y r, h_ten h !! y = Some r ->
  exists r', h_ten h' !! y = Some r' /\ same_data r r' /\ t_rg r' = t_rg r /\
    (y ∈ ins \/ t_grad r' = t_grad r \/ t_grad r' = None) /\
    (forall g, t_grad r = Some g -> y <> x \/ t_ret r = true -> t_grad r' = Some g).
Lemma after_grad x ins h h' y s : after x ins h h' -> has_grad h y s -> (forall r, h_ten h !! y = Some r -> y <> x \/ t_ret r = true) -> has_grad h' y s.
Proof.
  intros Ha (r & g & gr & H1 & H2 & H3 & H4 & H5 & H6 & H7) Hy. destruct (Ha y r H1) as (r1 & K1 & (D1 & D2 & D3) & K2 & _ & K3).
  destruct (Ha g gr H3) as (gr1 & L1 & (F1 & F2 & F3) & L2 & _). exists r1, g, gr1. split_and!; try done; try congruence. apply K3; [done|]. by apply Hy.
Qed.
Lemma after_back x ins h h' y s : tinv h -> after x ins h h' -> is_Some (h_ten h !! y) -> y ∉ ins -> has_grad h' y s -> has_grad h y s.
Proof.
  intros Ht Ha [r Hr] Hy (r' & g & gr & H1 & H2 & H3 & H4 & H5 & H6 & H7). destruct (Ha y r Hr) as (r1 & K1 & (D1 & D2 & D3) & K2 & K3 & _).
  assert (r1 = r') as -> by congruence. assert (t_grad r = Some g) as Hg by (destruct K3 as [?|[?|?]]; [done|congruence|congruence]).
  destruct (ok_grad _ _ _ (Ht y r Hr) g Hg) as (gr0 & Hg0 & _). destruct (Ha g gr0 Hg0) as (gr1 & L1 & (F1 & F2 & F3) & L2 & _).
  assert (gr1 = gr) as -> by congruence. exists r, g, gr0. split_and!; try done; congruence.
Qed.
(** the rest of one iteration, after the step; [P'] are the nodes whose gradient has been dropped *)
Lemma process_rest P' U x h h1 fx gx : sized h -> tinv h -> region h0 t x -> fn_of h x = Some gx -> gf_kind gx = gf_kind fx -> gf_in gx = gf_in fx ->
  ginv P' U h -> upclosed P' -> upclosed (P' ++ [x]) -> fn_of h0 x = Some fx ->
  step_back x (gf_kind fx) (gf_in fx) h = (Ok tt, h1) -> ginv P' (gf_in fx ++ U) h1 ->
  exists new h', process x h = (Ok new, h') /\ ginv (P' ++ [x]) (inputs h0 x ++ U) h' /\
    phi (P' ++ [x]) h' = phi (P' ++ [x]) h1 /\ h_sto h' = h_sto h1 /\ sb (gf_in fx) (gf_in fx) h h1 /\ after x (inputs h0 x) h h'.
Proof.
  intros Hsz Hti Rx Hgx Kx Ix G Hup Hup' Hfx E1 G1.
  assert (exists rx, h_ten h !! x = Some rx /\ t_fn rx = Some gx) as (rx & Hrx & Hfnx).
  { unfold fn_of in Hgx. destruct (h_ten h !! x) as [rx|]; [by exists rx|done]. }
  assert (gf_in fx = inputs h0 x) as Ein by (unfold inputs; by rewrite Hfx).
  pose proof (nd_back_part x gx h Hsz Hti Hgx) as Hbp. unfold nd, wp in Hbp.
  destruct (gi_rec _ _ _ _ _ G1 x) with (r0 := default rx (h_ten h0 !! x)) as (r1 & Hr1 & _).
  { unfold fn_of in Hfx. destruct (h_ten h0 !! x); done. }
  assert (exists h2, back_part x h = (Ok tt, h2)) as (h2 & E2).
  { unfold back_part. erewrite bind_ok by (by apply get_fn_ok). rewrite Kx, Ix. erewrite bind_ok by exact E1.
    erewrite bind_ok by (by apply get_ten_ok). destruct (t_ret r1); eexists; done. }
  rewrite E2 in Hbp. destruct Hbp as [Hs2 (h1' & r & r2 & E1' & Hsb & S2 & _ & Hr & Hd & T2)]. rewrite Kx, Ix in E1'. rewrite Ix in Hsb.
  assert (h1' = h1) as -> by congruence.
  rewrite process_eq. erewrite !bind_ok by exact E2.
  pose proof (back_part_fn x _ _ _ _ _ _ _ Hsb Hr Hd T2 x) as Hfn2. rewrite Hrx, Hfnx in Hfn2. cbn [fmap option_fmap option_map] in Hfn2.
  erewrite !bind_ok by (by apply get_fn_ok).
  assert (forall y ry, h_ten h1 !! y = Some ry -> is_Some (h_ten h2 !! y)) as Hex.
  { intros y ry Hy. rewrite T2. apply lookup_lt_is_Some. rewrite insert_length. by eapply lookup_lt_Some. }
  destruct (visit_ready_spec (gf_in fx) h2) as (new & h3 & E3 & (S3 & _ & T3 & _)).
  { intros i Hi. rewrite Ein in Hi. destruct (input_lt h0 t Hinv x i Rx Hi) as [_ [ri Hri]]. destruct (gi_rec _ _ _ _ _ G1 i ri Hri) as (r' & Hr' & _). by eapply Hex. }
  cbn [gf_in gf_with_acc]. rewrite Ix, E3. exists new, h3. split; [done|].
  assert (forall y ry, h_ten h2 !! y = Some ry -> exists o, h_ten h3 !! y = Some (with_fn ry o)) as K3.
  { intros y ry Hy. rewrite T3, Hy. by eexists. }
  rewrite <- Ein.
  destruct (drop_ok P' (gf_in fx ++ U) h1 h2 x r G1 Hup Hup' Hr S2) as [G2 F2]; [by exists r2|].
  destruct (ginv_grow h0 t d B) with (P := P' ++ [x]) (U := gf_in fx ++ U) (h := h2) (h' := h3) as [G3 F3]; try done.
  { intros y ry Hy. destruct (K3 y ry Hy) as (o & H3). exists (with_fn ry o). split; [done|]. by split. }
  { intros s z Hz. by rewrite S3. }
  split; [done|]. split; [by rewrite F3, F2|]. split; [by rewrite S3, S2|]. split; [done|].
  intros y ry Hy. destruct Hsb as (_ & Hsb & _). destruct (Hsb y ry Hy) as (r1' & Hy1 & (C1 & C2 & C3) & A1 & A2 & _ & A3 & _).
  assert (exists r', h_ten h3 !! y = Some r' /\ same_data r1' r' /\ t_rg r' = t_rg r1' /\ (y <> x \/ t_ret r1' = true -> t_grad r' = t_grad r1') /\
    (t_grad r' = t_grad r1' \/ t_grad r' = None)) as (r' & H3 & (D1 & D2 & D3) & B1 & B2 & B3).
  { destruct (decide (y = x)) as [->|Hne].
    - assert (r1' = r) as -> by congruence. destruct (K3 x r2) as (o & H3); [rewrite T2; apply list_lookup_insert; by eapply lookup_lt_Some|].
      exists (with_fn r2 o). destruct Hd as (D1 & D2 & D3 & D4 & D5). split; [done|]. split; [done|]. split; [done|]. split.
      + intros [?|Ht]; [done|]. rewrite Ht in D5. exact D5.
      + simpl. destruct (t_ret r); [by left|by right].
    - destruct (K3 y r1') as (o & H3); [by rewrite T2, list_lookup_insert_ne|]. exists (with_fn r1' o). split; [done|]. split; [by split|]. split; [done|]. split; [done|by left]. }
  exists r'. split; [done|]. split; [split_and!; congruence|]. split; [congruence|]. split.
  - destruct A3 as [A3|(_ & _ & _ & A3)]; [right|by left]. destruct B3 as [B3|B3]; [left|right]; congruence.
  - intros g Hg Hor. destruct A3 as [A3|[A3 _]]; [|congruence]. rewrite B2, A3; [done|]. rewrite A2. exact Hor.
Qed.
Lemma process_after P P' Q U x h h1 fx : main_inv P (x :: Q) h -> ginv P' U h -> P' ⊆ P -> upclosed P' -> upclosed (P' ++ [x]) -> fn_of h0 x = Some fx ->
  step_back x (gf_kind fx) (gf_in fx) h = (Ok tt, h1) -> ginv P' (gf_in fx ++ U) h1 ->
  exists new h', process x h = (Ok new, h') /\ main_inv (P ++ [x]) (Q ++ new) h' /\ ginv (P' ++ [x]) (inputs h0 x ++ U) h' /\
    phi (P' ++ [x]) h' = phi (P' ++ [x]) h1 /\ h_sto h' = h_sto h1 /\ sb (gf_in fx) (gf_in fx) h h1 /\ after x (inputs h0 x) h h'.
Proof.
  intros HI G Hsub Hup Hup' Hfx0 E1 G1. destruct (main_step h0 t R Hinv HR P x Q h HI) as [(Rx & Hx & Hc) Hm].
  destruct (mi_nodes _ _ _ _ _ _ HI x Rx) as (rx & fx' & Hrx & Hfx & Hrgx & Hfnx). assert (fx' = fx) as -> by congruence.
  destruct (process_rest P' U x h h1 fx _ (mi_sized _ _ _ _ _ _ HI) (mi_tinv _ _ _ _ _ _ HI) Rx ltac:(unfold fn_of; by rewrite Hrx) eq_refl eq_refl G Hup Hup' Hfx E1 G1)
    as (new & h' & E & K). rewrite E in Hm. exists new, h'. done.
Qed.
(** the step of a node that obeys the rule *)
Lemma step_pays P' U x h fx : ginv P' U h -> upclosed P' -> x ∉ P' -> x ∈ U -> region h0 t x -> tracked h0 x -> fn_of h0 x = Some fx ->
  node_ok h0 t x (gf_kind fx) (gf_in fx) -> (forall a, a ∈ gf_in fx -> a ∉ P') -> (x = t -> gpot h t = sum_over (shape_of h0 t) (d t)) ->
  (if decide (x <> t /\ is_mean h0 x) then d x [] = 0%Qc else rule h0 d x (gf_kind fx) (gf_in fx)) ->
  exists h1, step_back x (gf_kind fx) (gf_in fx) h = (Ok tt, h1) /\ ginv P' (gf_in fx ++ U) h1 /\ phi (P' ++ [x]) h1 = (phi P' h + gain x)%Qc.
Proof.
  intros G Hup Hx Hu Rx Tx Hfx Hn Hins Hroot Hrule.
  eapply (step_drop h0 t d B Hinv Hgr Hob HdB HB (d x)); [|split; [apply Rx|done]|done|done].
  eapply (step_ok h0 t d B Hinv Hgr Hob HdB HB P' U h x fx (d x)); try done.
  + case_decide; [done|by apply rule_rule2].
  + intros ->. split; [done|by apply Hroot].
Qed.
Hypothesis Hcore : grad_core h0 t.
Lemma ready_inputs P P' Q x h fx : main_inv P (x :: Q) h -> P' ⊆ P -> fn_of h0 x = Some fx -> region h0 t x /\ x ∉ P' /\ forall a, a ∈ gf_in fx -> a ∉ P'.
Proof.
  intros HI Hsub Hfx. destruct (main_step h0 t R Hinv HR P x Q h HI) as [(Rx & Hx & Hc) _].
  split; [done|]. split; [by intros ?%Hsub|].
  intros a Ha Hp%Hsub. apply Hx. eapply (mi_ready _ _ _ _ _ _ HI a); [apply elem_of_app; by left|exact Rx|]. unfold inputs. by rewrite Hfx.
Qed.
(** one iteration at a node that obeys the rule *)
Lemma process_drop P P' Q U x h : main_inv P (x :: Q) h -> ginv P' U h -> P' ⊆ P -> upclosed P' -> upclosed (P' ++ [x]) -> x ∈ U ->
  (x = t -> gpot h t = sum_over (shape_of h0 t) (d t)) ->
  (forall f, fn_of h0 x = Some f -> if decide (x <> t /\ is_mean h0 x) then d x [] = 0%Qc else rule h0 d x (gf_kind f) (gf_in f)) ->
  exists new h', process x h = (Ok new, h') /\ main_inv (P ++ [x]) (Q ++ new) h' /\ ginv (P' ++ [x]) (inputs h0 x ++ U) h' /\
    phi (P' ++ [x]) h' = (phi P' h + gain x)%Qc /\ after x (inputs h0 x) h h'.
Proof.
  intros HI G Hsub Hup Hup' Hu Hroot Hrule. assert (region h0 t x) as Rx.
  { apply (mi_region _ _ _ _ _ _ HI x). rewrite elem_of_app, elem_of_cons. auto. }
  pose proof Rx as [_ [fx Hfx]]. destruct (ready_inputs P P' Q x h fx HI Hsub Hfx) as (_ & Hx' & Hins).
  assert (exists h1, step_back x (gf_kind fx) (gf_in fx) h = (Ok tt, h1) /\ ginv P' (gf_in fx ++ U) h1 /\
    phi (P' ++ [x]) h1 = (phi P' h + gain x)%Qc) as (h1 & E1 & G1 & F1).
  { apply step_pays; try done; [by eapply core_live|by apply (gc_node _ _ Hcore), Hfx; apply Rx|by apply Hrule]. }
  destruct (process_after P P' Q U x h h1 fx HI G Hsub Hup Hup' Hfx E1 G1) as (new & h' & E & HI' & G' & F & _ & _ & Ha).
  exists new, h'. split_and!; try done. by rewrite F.
Qed.
(** one iteration at a node [x] with a rate of change of its own: what the gradient of [x] pairs to stays in its buffer *)
Lemma process_cut P P' Q U x h s : main_inv P (x :: Q) h -> ginv P' U h -> P' ⊆ P -> upclosed P' -> upclosed (P' ++ [x]) -> x ∈ U -> base h0 t x -> x <> t ->
  (forall f, fn_of h0 x = Some f -> ~ is_mean h0 x -> rule2 h0 d (fun _ => 0%Qc) x (gf_kind f) (gf_in f)) -> has_grad h x s ->
  exists new h', process x h = (Ok new, h') /\ main_inv (P ++ [x]) (Q ++ new) h' /\ ginv (P' ++ [x]) (inputs h0 x ++ U) h' /\
    (phi (P' ++ [x]) h' + wsum (gcells h' s) (tcell (lay_of h0 x) (d x)) = phi P' h + gain x)%Qc /\ after x (inputs h0 x) h h'.
Proof.
  intros HI G Hsub Hup Hup' Hu Bx Hne Hrule Hs. assert (region h0 t x) as Rx.
  { apply (mi_region _ _ _ _ _ _ HI x). rewrite elem_of_app, elem_of_cons. auto. }
  pose proof Rx as [_ [fx Hfx]]. destruct (ready_inputs P P' Q x h fx HI Hsub Hfx) as (_ & Hx' & Hins).
  assert (exists h1, step_back x (gf_kind fx) (gf_in fx) h = (Ok tt, h1) /\ ginv P' (gf_in fx ++ U) h1 /\
    phi P' h1 = (phi P' h + gain x)%Qc) as (h1 & E1 & G1 & F1).
  { eapply (step_keep h0 t d B (fun _ => 0%Qc)); [|done].
    eapply (step_ok h0 t d B Hinv Hgr Hob HdB HB P' U h x fx (fun _ => 0%Qc)); try done; [by eapply core_live|apply (gc_node _ _ Hcore); [apply Rx|done]|]. case_decide as Hmd; [done|]. apply Hrule; [done|]. tauto. }
  destruct (process_after P P' Q U x h h1 fx HI G Hsub Hup Hup' Hfx E1 G1) as (new & h' & E & HI' & G' & F & ES & Hsb & Ha).
  exists new, h'. split_and!; try done. rewrite F, (phi_drop h0 t d B Hinv Hgr Hob HdB HB P' h1 x Bx Hx'), F1.
  assert (has_grad h1 x s) as Hs1.
  { destruct Hs as (r & g & gr & H1 & H2 & H3 & H4 & H5 & H6 & H7). destruct Hsb as (_ & Hsb & _).
    destruct (Hsb x r H1) as (r1 & K1 & (D1 & D2 & D3) & K2 & _ & _ & K3 & _). destruct (Hsb g gr H3) as (gr1 & L1 & (F1' & F2 & F3) & L2 & _).
    exists r1, g, gr1. split_and!; try done; try congruence. destruct K3 as [->|[K3 _]]; congruence. }
  unfold Ginv.gpot. rewrite (has_grad_gsto _ _ _ Hs1). unfold gcells. rewrite ES. ring.
Qed.
End drop.

Section gback.
(** [kp]: nodes that keep their gradient, and at which the rule need not hold *)
Variables (h0 : heap) (t : nat) (d : tangent) (B R kp : list nat).
Hypothesis Hinv : tinv h0.
Hypothesis Hgr : grad_core h0 t.
Hypothesis Hob : views_obey h0 t d.
Hypothesis Hrule : forall x f, below h0 t x -> x ∉ kp -> fn_of h0 x = Some f ->
  if decide (x <> t /\ is_mean h0 x) then d x [] = 0%Qc else rule h0 d x (gf_kind f) (gf_in f).
Hypothesis HdB : NoDup B.
Hypothesis HB : forall b, b ∈ B <-> base h0 t b.
Hypothesis HdR : NoDup R.
Hypothesis HR : forall x, x ∈ R <-> region h0 t x.
Hypothesis HK : forall x, x ∈ kp -> base h0 t x /\ x <> t /\ (exists r, h_ten h0 !! x = Some r /\ t_ret r = true) /\
  forall f, fn_of h0 x = Some f -> ~ is_mean h0 x -> rule2 h0 d (fun _ => 0%Qc) x (gf_kind f) (gf_in f).
Notation ginv := (ginv h0 t).
Notation phi := (phi h0 d B).
Notation gpot := (gpot h0 d).
Notation gain := (gain h0 t d).
Notation main_inv := (main_inv h0 t R).
Notation upclosed := (upclosed h0 t).

Definition rest (P : list nat) : list nat := filter (fun x => x ∉ kp) P.
Lemma rest_in P x : x ∈ rest P <-> x ∈ P /\ x ∉ kp.
Proof. unfold rest. rewrite elem_of_list_filter. tauto. Qed.
Lemma rest_drop P x : x ∉ kp -> rest (P ++ [x]) = rest P ++ [x].
Proof. intros Hx. unfold rest. by rewrite filter_app, filter_cons_True. Qed.
Lemma rest_keep P x : x ∈ kp -> rest (P ++ [x]) = rest P.
Proof. intros Hx. unfold rest. rewrite filter_app, filter_cons_False by tauto. apply app_nil_r. Qed.
Lemma main_up P Q h : main_inv P Q h -> upclosed (rest P).
Proof.
  intros HI p c [Hp _]%rest_in Rc Hv Hin. apply rest_in. split.
  - eapply (mi_ready _ _ _ _ _ _ HI p); [|done|done]. apply elem_of_app. by left.
  - intros Hk. by destruct (HK c Hk) as ((_ & _ & ?) & _).
Qed.
Lemma main_up_next P x Q h : main_inv P (x :: Q) h -> x ∉ kp -> upclosed (rest P ++ [x]).
Proof.
  intros HI Hx p c Hp Rc Hv Hin. apply elem_of_app. left. apply rest_in. split.
  - eapply (mi_ready _ _ _ _ _ _ HI p); [|done|done].
    apply elem_of_app in Hp as [[Hp _]%rest_in| ->%elem_of_list_singleton]; apply elem_of_app; [by left|right; apply elem_of_list_here].
  - intros Hk. by destruct (HK c Hk) as ((_ & _ & ?) & _).
Qed.
Lemma process_ok P Q U x h : main_inv P (x :: Q) h -> ginv (rest P) U h -> x ∈ U -> (x = t -> gpot h t = sum_over (shape_of h0 t) (d t)) ->
  exists new h', process x h = (Ok new, h') /\ main_inv (P ++ [x]) (Q ++ new) h' /\ ginv (rest (P ++ [x])) (inputs h0 x ++ U) h' /\
    phi (rest (P ++ [x])) h' = (phi (rest P) h + gain x)%Qc.
Proof.
  intros HI G Hu Hroot. destruct (decide (x ∈ kp)) as [Hk|Hk].
  2:{ rewrite rest_drop by done. pose proof (main_up _ _ _ HI) as Hup. pose proof (main_up_next _ _ _ _ HI Hk) as Hup'.
    destruct (process_drop h0 t d B R Hinv Hgr Hob HdB HB HR Hgr P (rest P) Q U x h) as (new & h' & E & HI' & G' & F & _); try done; [by intros y [? _]%rest_in| |by exists new, h'].
    intros f. apply Hrule; [|done]. apply (mi_region _ _ _ _ _ _ HI x). rewrite elem_of_app, elem_of_cons. auto. }
  destruct (main_step h0 t R Hinv HR P x Q h HI) as [(Rx & Hx & Hc) Hm].
  pose proof (main_up _ _ _ HI) as Hup.
  destruct (mi_nodes _ _ _ _ _ _ HI x Rx) as (rx & fx & Hrx & Hfx & Hrgx & Hfnx). set (gx := Gfn _ _ _ _ _) in Hfnx.
  assert (fn_of h x = Some gx) as Hgx by (unfold fn_of; by rewrite Hrx).
  assert (gf_in fx = inputs h0 x) as Ein by (unfold inputs; by rewrite Hfx).
  assert (x ∉ rest P) as Hx' by (by intros [? _]%rest_in).
  assert (forall a, a ∈ gf_in fx -> a ∉ rest P) as Hins.
  { intros a Ha [Hp _]%rest_in. apply Hx. eapply (mi_ready _ _ _ _ _ _ HI a); [apply elem_of_app; by left|exact Rx|by rewrite <- Ein]. }
  assert (exists h1, step_back x (gf_kind fx) (gf_in fx) h = (Ok tt, h1) /\ ginv (rest P) (gf_in fx ++ U) h1 /\
    phi (rest P) h1 = (phi (rest P) h + gain x)%Qc) as (h1 & E1 & G1 & F1).
  { destruct (HK x Hk) as (_ & Hne & _ & Hr0). eapply (step_keep h0 t d B (fun _ => 0%Qc)); [|done].
      eapply (step_ok h0 t d B Hinv Hgr Hob HdB HB (rest P) U h x fx (fun _ => 0%Qc)); try done; [by eapply core_live|apply (gc_node _ _ Hgr); [apply Rx|done]|]. case_decide as Hmd; [done|]. apply Hr0; [done|]. tauto. }
  pose proof (nd_back_part x gx h (mi_sized _ _ _ _ _ _ HI) (mi_tinv _ _ _ _ _ _ HI) Hgx) as Hbp. unfold nd, wp in Hbp.
  destruct (gi_rec _ _ _ _ _ G1 x) with (r0 := default rx (h_ten h0 !! x)) as (r1 & Hr1 & _).
  { unfold fn_of in Hfx. destruct (h_ten h0 !! x); done. }
  assert (exists h2, back_part x h = (Ok tt, h2)) as (h2 & E2).
  { unfold back_part. erewrite bind_ok by (by apply get_fn_ok). cbn [gx gf_kind gf_in]. erewrite bind_ok by exact E1.
    erewrite bind_ok by (by apply get_ten_ok). destruct (t_ret r1); eexists; done. }
  rewrite E2 in Hbp. destruct Hbp as [Hs2 (h1' & r & r2 & E1' & Hsb & S2 & _ & Hr & Hd & T2)]. cbn [gx gf_kind gf_in] in E1'.
  assert (h1' = h1) as -> by congruence.
  rewrite process_eq in Hm |- *. erewrite !bind_ok in Hm |- * by exact E2.
  pose proof (back_part_fn x _ _ _ _ _ _ _ Hsb Hr Hd T2 x) as Hfn2. rewrite Hrx, Hfnx in Hfn2. cbn [fmap option_fmap option_map] in Hfn2.
  erewrite !bind_ok in Hm |- * by (by apply get_fn_ok).
  assert (forall y ry, h_ten h1 !! y = Some ry -> is_Some (h_ten h2 !! y)) as Hex.
  { intros y ry Hy. rewrite T2. apply lookup_lt_is_Some. rewrite insert_length. by eapply lookup_lt_Some. }
  destruct (visit_ready_spec (gf_in fx) h2) as (new & h3 & E3 & (S3 & _ & T3 & _)).
  { intros i Hi. rewrite Ein in Hi. destruct (input_lt h0 t Hinv x i Rx Hi) as [_ [ri Hri]]. destruct (gi_rec _ _ _ _ _ G1 i ri Hri) as (r' & Hr' & _). by eapply Hex. }
  cbn [gx gf_in gf_with_acc] in Hm |- *. rewrite E3 in Hm |- *. exists new, h3. split; [done|]. split; [done|].
  assert (forall y ry, h_ten h2 !! y = Some ry -> exists o, h_ten h3 !! y = Some (with_fn ry o)) as K3.
  { intros y ry Hy. rewrite T3, Hy. by eexists. }
  rewrite <- Ein. rewrite rest_keep by done.
    assert (t_ret r = true) as Hret.
    { destruct (HK x Hk) as (_ & _ & (r0 & Hr0 & Ht0) & _). destruct (mi_kept _ _ _ _ _ _ Hm x r0 Hr0) as (r3 & Hr3 & _ & _ & Hret & _).
      assert (h_ten h2 !! x = Some r2) as H2 by (rewrite T2; apply list_lookup_insert; by eapply lookup_lt_Some).
      destruct (K3 x r2 H2) as (o & H3). assert (r3 = with_fn r2 o) as -> by congruence. destruct Hd as (_ & _ & Hd & _). simpl in Hret. congruence. }
    destruct (ginv_grow h0 t d B) with (P := rest P) (U := gf_in fx ++ U) (h := h1) (h' := h3) as [G3 F3]; try done.
    { intros y ry Hy. destruct (decide (y = x)) as [->|Hne].
      - assert (ry = r) as -> by congruence. destruct (K3 x r2) as (o & H3); [rewrite T2; apply list_lookup_insert; by eapply lookup_lt_Some|].
        exists (with_fn r2 o). destruct Hd as (D1 & D2 & D3 & D4 & D5). rewrite Hret in D5. split; [done|]. split; [done|]. split; [done|]. by intros _.
      - destruct (K3 y ry) as (o & H3); [by rewrite T2, list_lookup_insert_ne|]. exists (with_fn ry o). split; [done|]. by split. }
    { intros s z Hz. by rewrite S3, S2. }
    split; [done|]. by rewrite F3.
Qed.

Definition loop_inv (c : Qc) (P Q : list nat) (h : heap) : Prop :=
  main_inv P Q h /\ (exists U, ginv (rest P) U h /\ t ∈ U /\ forall p y, p ∈ P -> y ∈ inputs h0 p -> y ∈ U) /\ phi (rest P) h = (c + sumq (map gain P))%Qc /\
  (P = [] -> gpot h t = sum_over (shape_of h0 t) (d t)) /\ (P = [] \/ t ∈ P).
Lemma loop_from c fuel P0 Q0 h1 : loop_inv c P0 Q0 h1 -> (length (h_ten h0) <= length P0 + fuel)%nat ->
  exists P h' U, bfs fuel process Q0 h1 = (Ok tt, h') /\ main_inv P [] h' /\ ginv (rest P) U h' /\ phi (rest P) h' = (c + sumq (map gain P))%Qc /\
    forall p y, p ∈ P -> y ∈ inputs h0 p -> y ∈ U.
Proof.
  intros HI0 Hfuel. destruct (bfs_ind (loop_inv c) process (length (h_ten h0))) with (fuel := fuel) (P := P0) (Q := Q0) (h := h1)
    as (P & h' & E & HI' & (U & G' & _ & HU) & F & _).
  - intros P x Q h (HI' & (U & G' & Ht & HU) & F & Hg' & Hor).
    assert (x ∈ P ++ x :: Q) as Hx by (rewrite elem_of_app, elem_of_cons; auto).
    destruct (process_ok P Q U x h HI' G') as (new & h' & E & HI2 & G2 & F2).
    + destruct (mi_used _ _ _ _ _ _ HI' x Hx) as [->|(p & Hp & Hy)]; [done|by eapply HU].
    + intros ->. destruct Hor as [->|Hp]; [by apply Hg'|]. exfalso. pose proof (mi_dup _ _ _ _ _ _ HI') as Hd. apply NoDup_app in Hd as (_ & Hd & _).
      apply (Hd t Hp). apply elem_of_list_here.
    + exists new, h'. split; [done|]. split; [done|]. split; [|split; [rewrite F2, F, map_app, sumq_app; simpl; ring|split; [by destruct P|]]].
      * exists (inputs h0 x ++ U). split; [done|]. split; [apply elem_of_app; by right|].
        intros p y [Hp| ->%elem_of_list_singleton]%elem_of_app Hy; apply elem_of_app; [right; by eapply HU|by left].
      * right. destruct Hor as [->|Hp]; [|apply elem_of_app; by left].
        destruct (mi_used _ _ _ _ _ _ HI' x Hx) as [->|(p & []%elem_of_nil & _)]. apply elem_of_list_here.
  - intros P Q h (HI' & _). split; [apply HI'|]. intros y Hy. destruct (mi_region _ _ _ _ _ _ HI' y Hy) as [_ [f Hf]]. by eapply fn_of_lt.
  - done.
  - done.
  - by exists P, h', U.
Qed.
Lemma loop_ok h1 : main_inv [] [t] h1 -> ginv [] [t] h1 -> gpot h1 t = sum_over (shape_of h0 t) (d t) ->
  exists P h' U, bfs (length (h_ten h0)) process [t] h1 = (Ok tt, h') /\ main_inv P [] h' /\ ginv (rest P) U h' /\ phi (rest P) h' = (phi [] h1 + sumq (map gain P))%Qc /\
    forall p y, p ∈ P -> y ∈ inputs h0 p -> y ∈ U.
Proof.
  intros HI G Hg. apply (loop_from (phi [] h1) (length (h_ten h0)) []); [|simpl; lia].
  split; [done|]. split; [|split; [change (phi [] h1 = (phi [] h1 + 0)%Qc); ring|split; [done|by left]]]. exists [t]. split; [done|]. split; [apply elem_of_list_here|]. by intros p y ?%elem_of_nil.
Qed.

End gback.

(** ** the start *)
Section gstart.
Variables (h0 : heap) (t : nat) (d : tangent) (B : list nat).
Hypothesis Hinv : tinv h0.
Hypothesis Hgr : grad_base h0 t.
Hypothesis Hob : views_obey h0 t d.
Hypothesis HdB : NoDup B.
Hypothesis HB : forall b, b ∈ B <-> base h0 t b.
Notation ginv := (ginv h0 t).
Notation phi := (phi h0 d B).
Notation gpot := (gpot h0 d).
Notation upclosed := (upclosed h0 t).
Lemma base_ge y b : base_of h0 y b -> (b <= y)%nat.
Proof.
  induction 1 as [x Hv|x f a b Hf Hk Hi H IH]; [done|]. destruct (tinv_inputs h0 x f Hinv Hf) as (_ & _ & _ & _ & Hin).
  destruct (Hin a) as [? _]; [rewrite Hi; apply elem_of_list_here|]. lia.
Qed.
(** what the sum counts for one tensor *)
Lemma gpot_pairing P U h x : ginv P U h -> base h0 t x -> x ∉ P -> gpot h x = sum_over (shape_of h x) (fun idx => grad_value h x idx * d x idx)%Qc.
Proof.
  intros G Bx Hx. destruct (live_rec h0 t Hinv Hgr x (base_live _ _ x Bx)) as (r0 & Hr0 & _ & _ & El & Es & _).
  destruct (gi_rec _ _ _ _ _ G x r0 Hr0) as (r & Hr & (D1 & D2 & D3) & _).
  destruct (gi_base _ _ _ _ _ G x r Bx Hx Hr) as [Hn|(s & Hg & (r' & Hr' & Hbuf))].
  - rewrite (gpot_none h0 d h x r) by done. symmetry. apply sumq_zero. intros idx _. unfold grad_value. rewrite Hr, Hn. ring.
  - assert (r' = r) as -> by congruence. pose proof Hg as (r'' & g & gr & H1 & H2 & H3 & H4 & H5 & H6 & H7). assert (r'' = r) as -> by congruence.
    assert (forall idx, grad_value h x idx = num (contents h gr idx)) as Hv. { intros idx. unfold grad_value, value. by rewrite Hr, H2, H3. }
    destruct Hbuf as [Hb|(qs & Hb)].
    + rewrite (gpot_raw h0 d h x s _ _ Hg Hb). symmetry. apply sumq_zero. intros idx _. rewrite Hv. unfold contents, elem, cells. rewrite H7, Hb. simpl.
      assert (qc_of_Z 0 = 0%Qc) as -> by (by apply Qc_is_canon). ring.
    + rewrite (gpot_num h0 d h x s qs _ _ Hg Hb). destruct Bx as (Bx & Tx & Vx). destruct (gb_dense _ _ Hgr x Bx Tx Vx) as [Hdi _]. destruct Hb as [Hb Hlen].
      assert (lay_of h x = lay_of h0 x) as El'. { rewrite El. unfold lay_of. by rewrite Hr. }
      assert (lay_in (lay_of h0 x) (Z.of_nat (length qs))) as Hli. { rewrite Hlen, <- D2, <- El. exact Hdi. }
      rewrite wsum_tcell by done. unfold shape_of. rewrite El'. apply sum_over_ext. intros idx Hi. f_equal. rewrite Hv. unfold contents, elem, cells.
      rewrite H7, Hb. cbn [sto_blob]. rewrite H5, <- D2, <- El. pose proof (Hli idx Hi) as Hp. rewrite (proj2 (Z.leb_le _ _)) by lia.
      destruct (lookup_lt_is_Some_2 qs (Z.to_nat (pos (lay_of h0 x) idx))) as [q Hq]; [lia|].
      rewrite Hq. assert (forall o : option cell, o = Some (Some (@VF Exact q)) ->
        num (match match o with Some c => c | None => None end with Some v => v | None => VI 0 end) = q) as Hm by (by intros ? ->).
      symmetry. apply Hm. etrans; [exact (list_lookup_fmap _ qs _)|]. exact (f_equal (fmap (fun q => Some (@VF Exact q))) Hq).
Qed.
(** what remains *)
Lemma phi_end ls P U h : NoDup ls -> (forall x, x ∈ ls <-> base h0 t x /\ x ∉ P) -> ginv P U h -> phi P h = pairing h ls d.
Proof.
  intros Hd Hls' G. unfold phi, Ginv.phi, pairing.
  assert (forall x, x ∈ ls <-> x ∈ B /\ x ∉ P) as Hls by (intros x; by rewrite Hls', HB).
  assert (filter (fun x => x ∉ P) B ≡ₚ ls) as Hp.
  { apply NoDup_Permutation; [by apply NoDup_filter|done|]. intros x. rewrite elem_of_list_filter, Hls. tauto. }
  rewrite <- (sumq_perm _ _ (Permutation_map _ Hp)).
  trans (sumq (map (gpot h) (filter (fun x => x ∉ P) B))).
  - clear. induction B as [|b B' IH]; [done|]. cbn [map]. destruct (decide (b ∈ P)) as [Hb|Hb].
    + rewrite filter_cons_False by tauto. rewrite <- IH. apply Qcplus_0_l.
    + rewrite filter_cons_True by done. cbn [map sumq foldr]. f_equal. exact IH.
  - apply sumq_ext. intros x [Hx Bx%HB]%elem_of_list_filter. by eapply gpot_pairing.
Qed.
Hypothesis Hroot : exists r f, h_ten h0 !! t = Some r /\ t_fn r = Some f /\ t_rg r = true /\ t_lay r = contig (shape r) /\
  size_prod (shape r) = 1 /\ ~ is_view h0 t.
Lemma root_base : base h0 t t.
Proof.
  destruct Hroot as (r & f & Hr & Hf & Hg & _ & _ & Hv). split; [constructor|]. split; [|done]. by exists r.
Qed.
(** without the old gradient of the root *)
Definition bare : heap := Hp (h_sto h0) (match h_ten h0 !! t with Some r => <[t := with_grad r None]> (h_ten h0) | None => h_ten h0 end) (h_ver h0).
Lemma bare_other y : y <> t -> h_ten bare !! y = h_ten h0 !! y.
Proof. intros Hy. unfold bare. simpl. destruct (h_ten h0 !! t); [by apply list_lookup_insert_ne|done]. Qed.
Lemma bare_root r : h_ten h0 !! t = Some r -> h_ten bare !! t = Some (with_grad r None).
Proof. intros Hr. unfold bare. simpl. rewrite Hr. apply list_lookup_insert. by eapply lookup_lt_Some. Qed.
Lemma bare_rec y r : h_ten h0 !! y = Some r -> exists r', h_ten bare !! y = Some r' /\ same_data r r' /\ t_rg r' = t_rg r /\ (y <> t -> t_grad r' = t_grad r).
Proof.
  intros Hr. destruct (decide (y = t)) as [->|Hne].
  - exists (with_grad r None). split; [by apply bare_root|]. done.
  - exists r. rewrite bare_other by done. split; [done|]. split; [apply same_data_refl|done].
Qed.
Lemma bare_grad y s : y <> t -> has_grad h0 y s -> has_grad bare y s.
Proof.
  intros Hy (r & g & gr & H1 & H2 & H3 & H4 & H5 & H6 & H7). destruct (bare_rec g gr H3) as (gr' & K1 & (K2 & K3 & K4) & K5 & _).
  exists r, g, gr'. rewrite bare_other by done. split_and!; try done; congruence.
Qed.
Lemma bare_back y s : has_grad bare y s -> y <> t /\ (forall r g, h_ten h0 !! y = Some r -> t_grad r = Some g -> is_Some (h_ten h0 !! g)) -> has_grad h0 y s.
Proof.
  intros (r & g & gr & H1 & H2 & H3 & H4 & H5 & H6 & H7) [Hy Hex]. rewrite bare_other in H1 by done. destruct (Hex r g H1 H2) as [gr0 Hg0].
  destruct (bare_rec g gr0 Hg0) as (gr' & K1 & (K2 & K3 & K4) & K5 & _). assert (gr' = gr) as -> by congruence.
  exists r, g, gr0. split_and!; try done; congruence.
Qed.
Lemma bare_not_root s : ~ has_grad bare t s.
Proof.
  intros (r & g & gr & H1 & H2 & _). destruct (gb_root _ _ Hgr) as (r0 & f & Hr & _). rewrite (bare_root r0 Hr) in H1. injection H1 as <-. done.
Qed.
Lemma ginv_bare : ginv [] [] bare.
Proof.
  assert (forall y s, has_grad bare y s -> has_grad h0 y s) as Hback.
  { intros y s Hg. apply bare_back; [done|]. split; [intros ->; by eapply bare_not_root|]. intros r g Hr Hg'.
    destruct (ok_grad _ _ _ (Hinv y r Hr) g Hg') as (gr & Hg0 & _). by eexists. }
  assert (forall y s, has_grad bare y s -> y <> t) as Hne by (intros y s Hg ->; by eapply bare_not_root).
  split.
  - intros y r0 Hr0. destruct (bare_rec y r0 Hr0) as (r & H1 & H2 & H3 & _). by exists r.
  - done.
  - intros b r (Bb & Tb & Vb) _ Hr. destruct (decide (b = t)) as [->|Hn].
    + left. destruct (gb_root _ _ Hgr) as (r0 & f & Hr0 & _). rewrite (bare_root r0 Hr0) in Hr. by injection Hr as <-.
    + rewrite bare_other in Hr by done. destruct (gb_grad _ _ Hgr b r Bb Hn Tb Vb Hr) as [?|(s & H1 & H2)]; [by left|right].
      exists s. split; [by apply bare_grad|]. exists r. rewrite bare_other by done. split; [done|]. destruct H2 as [H2|[_ H2]]; [by left|by right].
  - intros y b [By Ty] Vy _ Hb. assert (y <> t) as Hy. { intros ->. by destruct Hroot as (? & ? & _ & _ & _ & _ & _ & ?). }
    destruct (gb_view _ _ Hgr y b By Hy Ty Vy Hb) as (s & H1 & H2). exists s.
    assert (b <> t) as Hb'. { intros ->. apply base_ge in Hb. apply (below_le h0 t Hinv) in By. lia. }
    split; by apply bare_grad.
  - intros x y s (Bx & Tx & Vx) (By & Ty & Vy) _ _ H1 H2. eapply (gb_sep _ _ Hgr x y s); eauto.
  - intros x s Bx _ H1 [_ Hn]. apply (Hn x Bx); [by eapply Hne|by apply Hback].
  - by intros y ?%elem_of_nil.
Qed.
Lemma bare_pairing ls : t ∉ ls -> pairing bare ls d = pairing h0 ls d.
Proof.
  intros Ht. apply sumq_ext. intros x Hx. assert (x <> t) as Hne by (by intros ->).
  assert (shape_of bare x = shape_of h0 x) as ->. { unfold shape_of, lay_of. by rewrite bare_other. }
  apply sum_over_ext. intros idx Hi. f_equal. unfold grad_value. rewrite bare_other by done.
  destruct (h_ten h0 !! x) as [r|] eqn:Er; [|done]. destruct (t_grad r) as [g|] eqn:Eg; [|done].
  destruct (ok_grad _ _ _ (Hinv x r Er) g Eg) as (gr & Hg0 & _). destruct (bare_rec g gr Hg0) as (gr' & K1 & (K2 & K3 & K4) & _).
  unfold value. rewrite Hg0, K1. unfold contents, elem, cells, bare. simpl. by rewrite K3, K4.
Qed.
(** the gradient that the root starts with *)
Lemma start_ok h5 so r : h_ten h0 !! t = Some r -> rsim [t] h0 h5 -> (forall s x, h_sto h0 !! s = Some x -> h_sto h5 !! s = Some x) ->
  has_grad h5 t so -> h_sto h0 !! so = None -> num_buffer h5 so (t_dt r) (t_lay r) [1%Qc] ->
  ginv [] [t] h5 /\ gpot h5 t = sum_over (shape_of h0 t) (d t) /\ phi [] h5 = (phi [] bare + sum_over (shape_of h0 t) (d t))%Qc.
Proof.
  intros Hr K HS Hg Hso Hnum. pose proof root_base as Bt. assert (upclosed []) as Hup by (by intros ? ? ?%elem_of_nil).
  assert (rsim [t] bare h5) as K'.
  { intros y ry Hy. destruct (decide (y = t)) as [->|Hne].
    - rewrite (bare_root r Hr) in Hy. injection Hy as <-. destruct (K t r Hr) as (r' & K1 & K2 & K3 & _). exists r'. split; [done|]. split; [done|]. split; [done|].
      intros []. apply elem_of_list_here.
    - rewrite bare_other in Hy by done. by apply K. }
  assert (ginv [] [] h5) as G.
  { eapply (ginv_new h0 t d B) with (h := bare) (a := t) (r := with_grad r None) (s0 := so) (qs := [1%Qc]); try done.
    - apply ginv_bare.
    - apply not_elem_of_nil.
    - by apply bare_root. }
  destruct (K t r Hr) as (r5 & Hr5 & (D1 & D2 & D3) & _).
  assert (gpot h5 t = sum_over (shape_of h0 t) (d t)) as Hp.
  { rewrite (gpot_num h0 d h5 t so [1%Qc] _ _ Hg Hnum). destruct Hroot as (r' & f & Hr' & _ & _ & El & E1 & _). assert (r' = r) as -> by congruence.
    assert (lay_of h0 t = contig (shape r)) as El'. { unfold lay_of. by rewrite Hr. }
    assert (forall idx, in_range (shape r) idx -> pos (contig (shape r)) idx = 0) as Hpos.
    { intros idx Hi. rewrite pos_contig; [|done|rewrite E1; done]. pose proof (row_major_bounds _ _ Hi). lia. }
    rewrite wsum_tcell.
    - unfold shape_of. rewrite El'. cbn [contig sizes]. apply sum_over_ext. intros idx Hi. rewrite Hpos by done. simpl. ring.
    - rewrite El'. intros idx Hi. rewrite Hpos by done. simpl. lia. }
  split; [|split; [done|]].
  - eapply (ginv_use h0 t [] [] h5 t so t r5 [1%Qc]); try done. { apply base_self, Bt. } by rewrite <- D1, <- D2.
  - rewrite (phi_one h0 t d B HdB HB [] bare h5 t Bt); [|apply not_elem_of_nil|].
    + rewrite Hp, (gpot_none h0 d bare t (with_grad r None)); [ring|by apply bare_root|done].
    + intros b Bb _ Hne. eapply (gpot_keep h0 t d) with (P := []) (U := []) (P' := [t]) (h := bare); try done.
      * apply ginv_bare.
      * apply not_elem_of_nil.
      * by rewrite elem_of_list_singleton.
      * intros s Hs. destruct (live_rec h0 t Hinv Hgr b (base_live _ _ b Bb)) as (r0 & Hr0 & _). destruct (bare_rec b r0 Hr0) as (rb & Hrb & _).
        destruct (gi_base _ _ _ _ _ ginv_bare b rb Bb (not_elem_of_nil _) Hrb) as [Hn|(s' & G1 & G2)].
        { destruct Hs as (r' & g & gr & H1 & H2 & _). congruence. }
        rewrite (has_grad_fun _ _ _ _ Hs G1). destruct (buffer_some _ _ _ G2) as [x Hx]. rewrite Hx. by apply HS.
Qed.
Lemma phi_start ls : leaves h0 t ls -> phi [] bare = pairing h0 ls d.
Proof.
  intros [Hd Hl]. assert (t ∉ ls) as Ht.
  { rewrite Hl. intros (_ & Hn & _). destruct (gb_root _ _ Hgr) as (r & f & Hr & Hf & _). apply Hn. exists f. unfold fn_of. by rewrite Hr. }
  rewrite <- (bare_pairing ls Ht). unfold Ginv.phi, pairing.
  assert (forall x, base h0 t x -> is_node h0 x -> gpot bare x = 0%Qc) as Hz.
  { intros x (Bx & Tx & Vx) Hn. destruct (decide (x = t)) as [->|Hne].
    - destruct (gb_root _ _ Hgr) as (r & f & Hr & _). eapply gpot_none; [by apply bare_root|done].
    - pose proof Tx as (r & Hr & _). destruct (gb_grad _ _ Hgr x r Bx Hne Tx Vx Hr) as [?|(s & H1 & [H2|[? _]])]; [| |done].
      + eapply gpot_none; [by rewrite bare_other|done].
      + eapply (gpot_raw h0 d bare x s (t_dt r) (t_lay r)); [by apply bare_grad|exact H2]. }
  trans (sumq (map (gpot bare) (filter (fun x => ~ is_node h0 x) B))).
  - assert (forall b, b ∈ B -> base h0 t b) as HB' by (intros b; apply HB). clear HB HdB. induction B as [|b B' IH]; [done|]. cbn [map].
    rewrite decide_False by apply not_elem_of_nil. destruct (decide (is_node h0 b)) as [Hb|Hb].
    + rewrite filter_cons_False by tauto. rewrite <- IH by (intros; apply HB'; by constructor). rewrite Hz; [apply Qcplus_0_l|apply HB'; by constructor|done].
    + rewrite filter_cons_True by done. cbn [map sumq foldr]. f_equal. apply IH. intros; apply HB'; by constructor.
  - assert (filter (fun x => ~ is_node h0 x) B ≡ₚ ls) as Hp.
    { apply NoDup_Permutation; [by apply NoDup_filter|done|]. intros x. rewrite elem_of_list_filter, Hl, HB. unfold base. split; [tauto|].
      intros (? & Hn & ?). split; [done|]. split; [done|]. split; [done|]. intros (f & Hf & _). apply Hn. by exists f. }
    rewrite <- (sumq_perm _ _ (Permutation_map _ Hp)). apply sumq_ext. intros x [Hx Bx%HB]%elem_of_list_filter.
    eapply gpot_pairing; [apply ginv_bare|done|apply not_elem_of_nil].
Qed.
End gstart.
