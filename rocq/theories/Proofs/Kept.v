(** The gradient of a view that retains it: what the gradient of its base paired to. *)
From Verif.Proofs Require Export Retained.
From Verif.Proofs Require Import Frame4.
From Verif.Model Require Export Exact Api.
#[local] Existing Instance Exact.
#[local] Existing Instance is_view_dec.

Section kept.
Variables (h0 : heap) (t : nat) (d : tangent) (B R : list nat) (b u s : nat).
Hypothesis Hinv : tinv h0.
Hypothesis Hgr : grad_core h0 t.
Hypothesis Hob : views_obey h0 t d.
Hypothesis HdB : NoDup B.
Hypothesis HB : forall b, b ∈ B <-> base h0 t b.
Hypothesis HR : forall x, x ∈ R <-> region h0 t x.
Hypothesis Hmean : forall x, ~ mean_below h0 t x.
(** constants have no gradient *)
Hypothesis Hconst : forall x r, below h0 t x -> h_ten h0 !! x = Some r -> t_rg r = false -> t_grad r = None.
Hypothesis Hb : base h0 t b.
Hypothesis Hbt : b <> t.
Hypothesis Hret : exists r, h_ten h0 !! u = Some r /\ t_ret r = true.
Hypothesis Hrule : forall x f, below h0 t x -> x <> b -> fn_of h0 x = Some f -> rule h0 d x (gf_kind f) (gf_in f).
Hypothesis Hcut : forall f, fn_of h0 b = Some f -> rule2 h0 d (fun _ => 0%Qc) b (gf_kind f) (gf_in f).
Notation ginv := (ginv h0 t).
Notation phi := (phi h0 d B).
Notation gpot := (gpot h0 d).
Notation gain := (gain h0 t d).
Notation main_inv := (main_inv h0 t R).
Notation upclosed := (upclosed h0 t).
Notation base := (base h0 t).

Lemma no_gain x : region h0 t x -> gain x = 0%Qc.
Proof. intros [Bx _]. unfold Ginv.gain. rewrite decide_False; [done|]. intros [? ?]. by apply (Hmean x). Qed.
Lemma up_main P Q h : main_inv P Q h -> upclosed P.
Proof. intros HI p c Hp Rc Hv Hin. eapply (mi_ready _ _ _ _ _ _ HI p); [|done|done]. apply elem_of_app. by left. Qed.
Lemma up_next P x Q h : main_inv P (x :: Q) h -> upclosed (P ++ [x]).
Proof.
  intros HI p c Hp Rc Hv Hin. apply elem_of_app. left. eapply (mi_ready _ _ _ _ _ _ HI p); [|done|done].
  apply elem_of_app in Hp as [?| ->%elem_of_list_singleton]; rewrite elem_of_app, elem_of_cons; auto.
Qed.

(** no iteration writes a buffer that belongs to no gradient in use, nor gives it to one *)
Lemma frame_s P Q U x h new h' : main_inv P (x :: Q) h -> ginv P U h -> is_Some (h_sto h !! s) ->
  (forall y, base y -> y ∉ P -> y <> x -> ~ has_grad h y s) -> process x h = (Ok new, h') -> after x (inputs h0 x) h h' ->
  h_sto h' !! s = h_sto h !! s /\ forall y, base y -> y ∉ P -> y <> x -> ~ has_grad h' y s.
Proof.
  intros HI G [z Hz] Hno E Ha. pose proof (up_main _ _ _ HI) as Hup.
  assert (region h0 t x) as Rx by (apply (mi_region _ _ _ _ _ _ HI x); rewrite elem_of_app, elem_of_cons; auto).
  assert (x ∉ P) as Hx. { pose proof (mi_dup _ _ _ _ _ _ HI) as Hd. apply NoDup_app in Hd as (_ & Hd & _). intros Hp. apply (Hd x Hp), elem_of_list_here. }
  assert (inputs h x = inputs h0 x) as Ein.
  { destruct (mi_nodes _ _ _ _ _ _ HI x Rx) as (r & f & H1 & H2 & _ & H3). unfold inputs, fn_of at 1. rewrite H1, H2. simpl. by rewrite H3. }
  pose proof (nk_process (eq s) h (fun y => y ∈ inputs h0 x) x h) as Hnk. unfold nk, wp in Hnk. rewrite E in Hnk. destruct Hnk as (([K1 _] & Ho) & _).
  - rewrite Ein. by apply Forall_forall.
  - split; [apply kept_refl|]. intros y r g Hy Hr Hg.
    destruct (input_facts h0 t Hinv x y Rx Hy) as [By Hlt].
    destruct (input_lt h0 t Hinv x y Rx Hy) as [_ [r0 Hr0]]. destruct (mi_kept _ _ _ _ _ _ HI y r0 Hr0) as (r' & Hr' & _ & Erg & _ & _ & _ & Hk). assert (r' = r) as -> by congruence.
    destruct (t_rg r0) eqn:Erg0; [|rewrite Hk in Hg by done; by rewrite (Hconst y r0 By Hr0 Erg0) in Hg].
    assert (live h0 t y) as Ly by (split; [done|by exists r0]).
    assert (y ∉ P) as Hyp. { intros Hp. apply Hx. eapply (mi_ready _ _ _ _ _ _ HI y); [apply elem_of_app; by left|done|done]. }
    destruct (cur_grad h0 t d B Hinv Hgr Hob HB P U h y G Hup Ly Hyp) as (c & r' & Hbc & Bc & Hc & Hr2 & [[_ Hn]|(s' & Hg1 & Hg2 & _)]); [congruence|].
    assert (c <= y)%nat as Hle. { destruct (base_ex h0 t d B Hinv Hgr Hob HB y Ly) as (c' & Hc' & _ & Hle & _). by rewrite (base_fun _ _ _ _ Hbc Hc'). }
    destruct Hg1 as (r1 & g1 & gr & H1 & H2 & H3 & _ & _ & _ & H7). assert (g1 = g) as -> by congruence. exists gr. split; [done|]. left.
    intros Es. rewrite H7, <- Es in *. apply (Hno c Bc Hc); [lia|done].
  - split; [rewrite Hz; by apply K1|]. intros y By Hy Hne Hg. destruct (decide (y ∈ inputs h0 x)) as [Hin|Hin].
    + destruct Hg as (r & g & gr & H1 & H2 & H3 & _ & _ & _ & H7). destruct (Ho y r g Hin H1 H2) as (gr' & H4 & [H5|H5]); congruence.
    + apply (Hno y By Hy Hne). eapply after_back; [apply HI|done| |done|done].
      destruct By as (By & (r0 & Hr0 & _) & _). destruct (gi_rec _ _ _ _ _ G y r0 Hr0) as (r & Hr & _). by exists r.
Qed.
(** ** the loop *)
Variables (c : Qc) (rb0 : tensor).
Hypothesis Hrb0 : h_ten h0 !! b = Some rb0.
Definition keep_inv (P Q : list nat) (h : heap) : Prop :=
  main_inv P Q h /\ (exists U, ginv P U h /\ t ∈ U /\ forall p y, p ∈ P -> y ∈ inputs h0 p -> y ∈ U) /\
  (P = [] -> gpot h t = sum_over (shape_of h0 t) (d t)) /\ (P = [] \/ t ∈ P) /\ has_grad h u s /\
  (b ∉ P -> has_grad h b s /\ phi P h = c) /\
  (b ∈ P -> (exists qs, num_buffer h s (t_dt rb0) (t_lay rb0) qs /\ (phi P h + wsum qs (tcell (lay_of h0 b) (d b)) = c)%Qc) /\
    forall y, base y -> y ∉ P -> ~ has_grad h y s).
Lemma keep_step P x Q h : keep_inv P (x :: Q) h -> exists new h', process x h = (Ok new, h') /\ keep_inv (P ++ [x]) (Q ++ new) h'.
Proof.
  intros (HI & (U & G & Ht & HU) & Hg & Hor & Hu & Hbefore & Hafter). pose proof (up_main _ _ _ HI) as Hup. pose proof (up_next _ _ _ _ HI) as Hup'.
  assert (x ∈ P ++ x :: Q) as Hx by (rewrite elem_of_app, elem_of_cons; auto). pose proof (mi_region _ _ _ _ _ _ HI x Hx) as Rx.
  assert (x ∉ P) as HxP. { pose proof (mi_dup _ _ _ _ _ _ HI) as Hd. apply NoDup_app in Hd as (_ & Hd & _). intros Hp. apply (Hd x Hp), elem_of_list_here. }
  assert (x ∈ U) as HxU. { destruct (mi_used _ _ _ _ _ _ HI x Hx) as [->|(p & Hp & Hy)]; [done|by eapply HU]. }
  assert (x = t -> gpot h t = sum_over (shape_of h0 t) (d t)) as Hroot. { intros ->. destruct Hor as [->|Hp]; [by apply Hg|done]. }
  assert (forall h', after x (inputs h0 x) h h' -> has_grad h' u s) as Hu'.
  { intros h' Ha. eapply after_grad; [done|done|]. intros r Hr. right. destruct Hret as (r0 & Hr0 & Ht0).
    destruct (mi_kept _ _ _ _ _ _ HI u r0 Hr0) as (r' & Hr' & _ & _ & Er & _). congruence. }
  assert (forall new h', ginv (P ++ [x]) (inputs h0 x ++ U) h' -> main_inv (P ++ [x]) (Q ++ new) h' -> after x (inputs h0 x) h h' ->
    (b ∉ P ++ [x] -> has_grad h' b s /\ phi (P ++ [x]) h' = c) ->
    (b ∈ P ++ [x] -> (exists qs, num_buffer h' s (t_dt rb0) (t_lay rb0) qs /\ (phi (P ++ [x]) h' + wsum qs (tcell (lay_of h0 b) (d b)) = c)%Qc) /\
      forall y, base y -> y ∉ P ++ [x] -> ~ has_grad h' y s) -> keep_inv (P ++ [x]) (Q ++ new) h') as Hdone.
  { intros new h' G' HI' Ha H1 H2. split; [done|]. split; [|split; [by destruct P|split; [|split; [by apply Hu'|split; [exact H1|exact H2]]]]].
    - exists (inputs h0 x ++ U). split; [done|]. split; [apply elem_of_app; by right|].
      intros p y [Hp| ->%elem_of_list_singleton]%elem_of_app Hy; apply elem_of_app; [right; by eapply HU|by left].
    - right. destruct Hor as [->|Hp]; [|apply elem_of_app; by left].
      destruct (mi_used _ _ _ _ _ _ HI x Hx) as [->|(p & []%elem_of_nil & _)]. apply elem_of_list_here. }
  destruct (decide (x = b)) as [->|Hne].
  - destruct (Hbefore HxP) as [Hgb F]. destruct (process_cut h0 t d B R Hinv Hgr Hob HdB HB HR Hgr P P Q U b h s HI G) as (new & h' & E & HI' & G' & F' & Ha); try done; [by intros f Hf _; apply Hcut|].
    destruct (gi_used _ _ _ _ _ G b HxU HxP (base_live _ _ b Hb)) as (s' & b' & rb & qs & H1 & H2 & _ & H4 & H5).
    assert (s' = s) as -> by (by eapply has_grad_fun). assert (b' = b) as -> by (eapply base_fun; [done|apply base_self; by apply Hb]).
    destruct (gi_rec _ _ _ _ _ G b rb0 Hrb0) as (rb' & Hrb' & (D1 & D2 & _) & _). assert (rb' = rb) as -> by congruence.
    destruct (frame_s P Q U b h new h' HI G) as [Es Hno]; [destruct H5 as [-> _]; by eexists|by intros y By Hy Hn Hgy; apply Hn; apply (gi_sep _ _ _ _ _ G y b s)|done|done|].
    assert (num_buffer h' s (t_dt rb0) (t_lay rb0) qs) as Hnb. { rewrite D1, D2. destruct H5 as [H5 H6]. split; [by rewrite Es|done]. }
    exists new, h'. split; [done|]. apply Hdone; try done; [by intros []; apply elem_of_app; right; apply elem_of_list_here|].
    intros _. split.
    + exists qs. split; [done|]. rewrite <- (num_buffer_cells _ _ _ _ _ Hnb). rewrite F', F, no_gain by done. ring.
    + intros y By [Hy Hyb]%not_elem_of_app. apply Hno; [done|done|]. intros ->. apply Hyb, elem_of_list_here.
  - destruct (process_drop h0 t d B R Hinv Hgr Hob HdB HB HR Hgr P P Q U x h HI G) as (new & h' & E & HI' & G' & F' & Ha); try done.
    { intros f Hf. rewrite decide_False; [by apply Hrule; [apply Rx|..]|]. intros [? ?]. apply (Hmean x). split; [apply Rx|]. done. }
    rewrite no_gain in F' by done. exists new, h'. split; [done|]. apply Hdone; try done.
    + intros [HbP _]%not_elem_of_app. destruct (Hbefore HbP) as [Hgb F]. split; [|rewrite F', F; ring]. eapply after_grad; [done|done|]. intros ? _. left. done.
    + intros [HbP|Hbx%elem_of_list_singleton]%elem_of_app; [|done]. destruct (Hafter HbP) as [(qs & Hnb & F) Hno].
      destruct (frame_s P Q U x h new h' HI G) as [Es Hno']; [destruct Hnb as [-> _]; by eexists|by intros y By Hy _; apply Hno|done|done|].
      split.
      * exists qs. split; [destruct Hnb as [H5 H6]; split; [by rewrite Es|done]|]. rewrite F', <- F. ring.
      * intros y By [Hy Hyb]%not_elem_of_app. apply Hno'; [done|done|]. intros ->. apply Hyb, elem_of_list_here.
Qed.
Lemma keep_loop h1 : keep_inv [] [t] h1 -> exists P h', bfs (length (h_ten h0)) process [t] h1 = (Ok tt, h') /\ keep_inv P [] h'.
Proof.
  intros H1. destruct (bfs_ind keep_inv process (length (h_ten h0))) with (fuel := length (h_ten h0)) (P := @nil nat) (Q := [t]) (h := h1) as (P & h' & E & HI).
  - intros. by apply keep_step.
  - intros P Q h (HI & _). split; [apply HI|]. intros y Hy. destruct (mi_region _ _ _ _ _ _ HI y Hy) as [_ [f Hf]]. by eapply fn_of_lt.
  - done.
  - simpl. lia.
  - by exists P, h'.
Qed.
End kept.

Lemma backward_keep h0 t d b u ls : tinv h0 -> vinv h0 -> sized h0 -> grad_ready h0 t -> leaves h0 t ls -> views_obey h0 t d -> (forall x, ~ mean_below h0 t x) ->
  (forall x r, below h0 t x -> h_ten h0 !! x = Some r -> t_rg r = false -> t_grad r = None) ->
  base h0 t b -> b <> t -> below h0 t u -> is_view h0 u -> base_of h0 u b -> (exists r, h_ten h0 !! u = Some r /\ t_ret r = true) ->
  (forall x f, below h0 t x -> x <> b -> fn_of h0 x = Some f -> rule h0 d x (gf_kind f) (gf_in f)) ->
  (forall f, fn_of h0 b = Some f -> rule2 h0 d (fun _ => 0%Qc) b (gf_kind f) (gf_in f)) ->
  exists h' s, backward t h0 = (Ok tt, h') /\ has_grad h' u s /\ (~ is_node h0 b -> has_grad h' b s) /\
    (is_node h0 b -> exists rb qs, h_ten h0 !! b = Some rb /\ num_buffer h' s (t_dt rb) (t_lay rb) qs /\
      (pairing h' ls d + wsum qs (tcell (lay_of h0 b) (d b)) = pairing h0 ls d + sum_over (shape_of h0 t) (d t))%Qc).
Proof.
  intros Hinv Hver Hsz Hgr Hls Hob Hmean Hconst Hb Hbt Bu Vu Hub Hret Hrule Hcut.
  destruct (prepare_start h0 t Hinv Hver Hgr (gr_root _ _ Hgr)) as (h5 & so & r & E5 & Hr & K & HS & Hg & Hso & Hnum).
  destruct (gr_root _ _ Hgr) as (r' & f & Hr' & Hf & Hrg & El & E1 & Hv). assert (r' = r) as -> by congruence. clear Hr'.
  destruct (live_rec h0 t Hinv Hgr t) as (r' & Hr' & _ & _ & _ & _ & Hal & _); [split; [constructor|by exists r]|]. assert (r' = r) as -> by congruence. clear Hr'.
  assert (lnumel (t_lay r) = 1) as Hone. { unfold lnumel. change (sizes (t_lay r)) with (shape r). by rewrite (allocable_numel _ _ Hal). }
  destruct (prepare_ok h0 t r f Hinv Hver Hsz Hr Hf Hrg Hone (Deriv.gr_new _ _ Hgr)) as (R & HdR & HR & Hp).
  unfold nd, wp in Hp. rewrite E5 in Hp. destruct Hp as [_ HI].
  assert (exists B, NoDup B /\ forall b, b ∈ B <-> base h0 t b) as (B & HdB & HB).
  { exists (filter (fun x => ~ is_view h0 x) R ++ ls). destruct Hls as [Hd Hl]. split.
    - apply NoDup_app. split; [by apply NoDup_filter|]. split; [|done]. intros x [_ [_ Hx]%HR]%elem_of_list_filter (_ & Hn & _)%Hl. done.
    - intros c. rewrite elem_of_app, elem_of_list_filter, HR, Hl. unfold base. split.
      + intros [(H1 & H2 & H3)|(H1 & H2 & H3)].
        * split; [done|]. split; [|done]. destruct H3 as [g Hg']. unfold fn_of in Hg'. destruct (h_ten h0 !! c) as [rb|] eqn:Eb; [|done].
          destruct (Deriv.gr_new _ _ Hgr c rb g H2 Eb Hg') as [Hrgb _]. by exists rb.
        * split; [done|]. split; [done|]. intros (g & Hg' & _). apply H2. by exists g.
      + intros (H1 & H2 & H3). destruct (decide (is_node h0 c)); [left|right]; done. }
  destruct (start_ok h0 t d B Hinv Hgr Hob HdB HB (gr_root _ _ Hgr) h5 so r Hr K HS Hg Hso Hnum) as (G & Hgp & Hphi).
  rewrite (phi_start h0 t d B Hinv Hgr HdB HB (gr_root _ _ Hgr) ls Hls) in Hphi.
  destruct (gr_view _ _ Hgr u b Bu Vu Hub) as (s & Hgu & Hgb).
  assert (u <> t) as Hut by (by intros ->).
  pose proof Hb as (_ & (rb & Hrb & _) & _).
  destruct (keep_loop h0 t d B R b u s Hinv Hgr Hob HdB HB HR Hmean Hconst Hb Hbt Hret Hrule Hcut (pairing h0 ls d + sum_over (shape_of h0 t) (d t))%Qc rb Hrb h5)
    as (P & h' & E & HI' & (U & G' & _) & _ & _ & Hu' & Hbefore & Hafter).
  { split; [done|]. split; [exists [t]; split; [done|]; split; [apply elem_of_list_here|]; by intros p y ?%elem_of_nil|]. split; [done|]. split; [by left|].
    split; [eapply rsim_has_grad; [done| |done]; by rewrite elem_of_list_singleton|]. split; [|by intros ?%elem_of_nil].
    intros _. split; [eapply rsim_has_grad; [done| |done]; by rewrite elem_of_list_singleton|done]. }
  assert (forall x, region h0 t x -> x ∈ P) as Hall by (by apply (main_end h0 t R Hinv HdR HR P h' HI')).
  assert (forall x, x ∈ P -> region h0 t x) as HP. { intros x Hx. apply (mi_region _ _ _ _ _ _ HI' x). by rewrite app_nil_r. }
  exists h', s. split; [rewrite backward_eq; by erewrite bind_ok by exact E5|]. split; [done|]. split.
  - intros Hn. apply Hbefore. by intros [_ ?]%HP.
  - intros Hn. destruct Hafter as [(qs & Hnb & F) _]; [apply Hall; by split; [apply Hb|]|]. exists rb, qs. split; [done|]. split; [done|]. rewrite <- F. f_equal.
    destruct Hls as [Hd Hl]. symmetry. apply (phi_end h0 t d B Hinv Hgr HdB HB ls P U h' Hd); [|done].
    intros x. rewrite Hl. split.
    + intros (H1 & H2 & H3). split; [split; [done|]; split; [done|]; intros (g & Hg' & _); apply H2; by exists g|]. by intros [_ ?]%HP.
    + intros [(H1 & H2 & H3) H4]. split; [done|]. split; [|done]. intros ?. by apply H4, Hall.
Qed.

Lemma bases_exist h t : tinv h -> vinv h -> grad_ready h t -> exists B : list nat, forall b, b ∈ B <-> base h t b.
Proof.
  intros Hinv Hver Hgr. pose proof (root_node h t Hgr) as [f Hf]. destruct (gr_root _ _ Hgr) as (r & _). clear r.
  destruct (refresh_ok h t f Hinv Hver Hf) as (R & h1 & _ & _ & HR & _). destruct (leaves_exist h t Hinv Hver) as (ls & _ & Hl); [by exists f|].
  exists (filter (fun x => ~ is_view h x) R ++ ls). intros c. rewrite elem_of_app, elem_of_list_filter, HR, Hl. unfold base. split.
  - intros [(H1 & H2 & H3)|(H1 & H2 & H3)].
    + split; [done|]. split; [|done]. destruct H3 as [g Hg']. unfold fn_of in Hg'. destruct (h_ten h !! c) as [rb|] eqn:Eb; [|done].
      destruct (Deriv.gr_new _ _ Hgr c rb g H2 Eb Hg') as [Hrgb _]. by exists rb.
    + split; [done|]. split; [done|]. intros (g & Hg' & _). apply H2. by exists g.
  - intros (H1 & H2 & H3). destruct (decide (is_node h c)); [left|right]; done.
Qed.
Lemma zero_rules h t : tinv h -> grad_ready h t -> forall x f, below h t x -> fn_of h x = Some f -> rule h (fun _ _ => 0%Qc) x (gf_kind f) (gf_in f).
Proof.
  intros Hinv Hgr x f Hb Hf. apply (rule_zero h t Hinv Hgr); [done| |by apply (gr_node _ _ Hgr)].
  intros a Ha. eapply below_in; [exact Hb|]. unfold inputs. by rewrite Hf.
Qed.
(** the base of a view: tracked, no view, with a cell for every element of the view *)
Lemma view_base h t u b : tinv h -> vinv h -> grad_ready h t -> below h t u -> is_view h u -> base_of h u b ->
  base h t b /\ b <> t /\ forall j, in_range (shape_of h u) j -> exists i, in_range (shape_of h b) i /\ pos (lay_of h u) j = pos (lay_of h b) i.
Proof.
  intros Hinv Hver Hgr Bu Vu Hub. destruct (bases_exist h t Hinv Hver Hgr) as (B & HB).
  assert (tracked h u) as Tu.
  { destruct Vu as (f & Hf & _). unfold fn_of in Hf. destruct (h_ten h !! u) as [r|] eqn:Hr; [|done]. exists r. split; [done|]. by destruct (Deriv.gr_new _ _ Hgr u r f Bu Hr Hf). }
  destruct (base_ex h t (fun _ _ => 0%Qc) B Hinv Hgr) with (a := u) as (b' & H1 & H2 & H3 & _ & H5); [|done|done|].
  { split; [|done]. intros x f Hb _ Hf _. by apply (zero_rules h t Hinv Hgr). }
  rewrite (base_fun _ _ _ _ Hub H1). split; [done|]. split.
  - intros ->. apply (below_le h t Hinv) in Bu. assert (u = t) as -> by lia. by destruct (gr_root _ _ Hgr) as (? & ? & _ & _ & _ & _ & _ & ?).
  - intros j Hj. destruct (H5 j Hj) as (i & Hi & Hp & _). by exists i.
Qed.
(** gradients on one buffer *)
Lemma grad_shared h u b s j i : has_grad h u s -> has_grad h b s -> pos (lay_of h u) j = pos (lay_of h b) i -> grad_value h u j = grad_value h b i.
Proof.
  intros (r & g & gr & H1 & H2 & H3 & _ & H5 & _ & H7) (r' & g' & gr' & K1 & K2 & K3 & _ & K5 & _ & K7) Hp.
  unfold lay_of in Hp. rewrite H1, K1 in Hp. unfold grad_value, value. rewrite H1, H2, H3, K1, K2, K3. unfold contents, elem. by rewrite H7, K7, H5, K5, Hp.
Qed.
Lemma grad_num h u s dt lay qs j : has_grad h u s -> num_buffer h s dt lay qs -> 0 <= pos (lay_of h u) j < Z.of_nat (length qs) ->
  grad_value h u j = default 0%Qc (qs !! Z.to_nat (pos (lay_of h u) j)).
Proof.
  intros (r & g & gr & H1 & H2 & H3 & _ & H5 & _ & H7) [Hb _] Hp. unfold grad_value, value. rewrite H1, H2, H3. unfold contents, elem, cells.
  rewrite H7, Hb. cbn [sto_blob]. unfold lay_of in *. rewrite H1 in *. rewrite H5. rewrite (proj2 (Z.leb_le _ _)) by lia.
  destruct (lookup_lt_is_Some_2 qs (Z.to_nat (pos (t_lay r) j))) as [q Hq]; [lia|].
  rewrite Hq. assert (forall o : option cell, o = Some (Some (@VF Exact q)) ->
    num (match match o with Some c => c | None => None end with Some v => v | None => VI 0 end) = q) as Hm by (by intros ? ->).
  apply Hm. etrans; [exact (list_lookup_fmap _ qs _)|]. exact (f_equal (fmap (fun q => Some (@VF Exact q))) Hq).
Qed.

Lemma program_view ops H T h t u b r : program ops H T h -> may_backward h H T t -> below h t u -> is_view h u -> base_of h u b ->
  h_ten h !! u = Some r -> t_ret r = true ->
  exists h', exec (OBackward (Some t)) h = (Ok RUnit, h') /\ forall j, in_range (shape_of h u) j ->
    exists i, in_range (shape_of h b) i /\ pos (lay_of h u) j = pos (lay_of h b) i /\
      (is_node h b -> exists q, derivative_at h t b i q /\ (forall q', derivative_at h t b i q' -> q' = q) /\ grad_value h' u j = q) /\
      (~ is_node h b -> exists q, derivative h t b i q /\ (forall q', derivative h t b i q' -> q' = q) /\ grad_value h' u j = (grad_value h b i + q)%Qc).
Proof.
  intros Hp Hmb Bu Vu Hub Hr Hret. destruct (program_facts _ _ _ _ Hp) as (Hinv & Hver & Hsz). pose proof (program_ready _ _ _ _ _ Hp Hmb) as Hgr.
  pose proof (mb_no_means _ _ _ _ Hmb) as Hmn.
  assert (forall x r, below h t x -> h_ten h !! x = Some r -> t_rg r = false -> t_grad r = None) as Hconst.
  { destruct (program_GI _ _ _ _ Hp) as (D & G & HD). intros x rx Bx Hx Hg. apply (g_const _ _ _ G x rx); [|done|done].
    eapply below_D; [apply (g_in _ _ _ G)| |exact Bx]. apply HD, (mb_held _ _ _ _ Hmb). }
  destruct (view_base h t u b Hinv Hver Hgr Bu Vu Hub) as (Hb & Hbt & Hidx). pose proof Hb as (Bb & Tb & Vb).
  destruct (leaves_exist h t Hinv Hver (root_node h t Hgr)) as (ls & Hls). pose proof Hls as [Hdl Hl].
  destruct (backward_run h t Hinv Hver Hsz Hgr) as (h' & E & F & _). exists h'. split; [done|].
  assert (forall h1, backward t h = (Ok tt, h1) -> h1 = h') as Eh.
  { intros h1 E1. cbn [exec] in E. unfold deref, no_result in E. rewrite bind_ret in E. erewrite bind_ok in E by exact E1. by injection E. }
  assert (forall x, is_Some (h_ten h !! x) -> lay_of h' x = lay_of h x) as Elay.
  { intros x [rx Hx]. destruct (ef_rec _ _ _ F x rx Hx) as (rx' & Hx' & (_ & D2 & _) & _). unfold lay_of. by rewrite Hx, Hx', D2. }
  assert (lay_of h' u = lay_of h u) as Eu by (apply Elay; by eexists). assert (lay_of h' b = lay_of h b) as Eb by (apply Elay; destruct Tb as (? & ? & _); by eexists).
  intros j Hj. destruct (Hidx j Hj) as (i & Hi & Hpos). exists i. split; [done|]. split; [done|]. split.
  - intros Nb. destruct (derivative_at_exists h t b i Hinv Hgr Tb Vb) as (q & Hq). exists q. split; [done|]. split; [intros q' Hq'; by eapply derivative_at_unique|].
    destruct Hq as (d & H1 & H2 & H3 & ->).
    destruct (backward_keep h t d b u ls Hinv Hver Hsz Hgr Hls) as (h1 & s & E1 & Hgu & _ & Hnode); try done.
    + split; [|done]. intros x f Hbx _ Hf Hk. apply H1; [done| |done]. intros ->. apply Vb. by exists f.
    + by exists r.
    + intros f Hf. assert (forall a, a ∈ gf_in f -> a ∈ inputs h b) as Hin by (intros a Ha; unfold inputs; by rewrite Hf).
      apply (rule2_zero h t Hinv Hgr); [done| |by apply (gr_node _ _ Hgr)|].
      * intros a Ha. eapply below_in; [exact Bb|by apply Hin].
      * intros a idx Ha Hidx'. apply (under_zero h t Hinv Hgr d b a); try done; [|by apply Hin|constructor].
        intros y k Hy Hny Ty Hyu. rewrite H3 by auto. rewrite decide_False by naive_solver. done.
    + apply Eh in E1 as ->. destruct (Hnode Nb) as (rb & qs & Hrb & Hnb & Hsum). pose proof Hnb as [_ Hlen].
      assert (forall g, pairing g ls d = 0%Qc) as E0.
      { intros g. apply sumq_zero. intros x Hx. apply sumq_zero. intros idx _. apply Hl in Hx as (Bx & Nx & Tx). rewrite H3 by auto. rewrite decide_False by naive_solver. ring. }
      destruct (gr_dense _ _ Hgr b Bb Tb Vb) as [Hdi _].
      assert (lay_in (lay_of h b) (Z.of_nat (length qs))) as Hli. { rewrite Hlen. unfold shape_of, lay_of in *. rewrite Hrb in *. exact Hdi. }
      pose proof (Hli i Hi) as Hrange. rewrite !E0, wsum_tcell in Hsum by done.
      assert (Forall (fun n => 0 <= n) (shape_of h b)) as Hsn.
      { destruct (gr_data _ _ Hgr b rb Bb Hrb) as [Hh _]. unfold shape_of, lay_of. rewrite Hrb. by eapply holds_nonneg. }
      rewrite (grad_num h' u s _ _ qs j Hgu Hnb) by (by rewrite Eu, Hpos). rewrite Eu, Hpos.
      assert (sum_over (sizes (lay_of h b)) (fun idx => default 0 (qs !! Z.to_nat (pos (lay_of h b) idx)) * d b idx)%Qc = default 0%Qc (qs !! Z.to_nat (pos (lay_of h b) i))) as Eone.
      { unfold sum_over. rewrite (sumq_one _ _ i).
        - rewrite H3 by auto. rewrite decide_True by done. ring.
        - by apply NoDup_indices.
        - by apply elem_of_indices.
        - intros idx _ Hne. rewrite H3 by auto. rewrite decide_False by naive_solver. ring. }
      rewrite Eone in Hsum. rewrite Qcplus_0_l in Hsum. rewrite Hsum, Qcplus_0_l.
      destruct (gr_root _ _ Hgr) as (rt & f & Hrt & _ & _ & _ & Hone & _). destruct (gr_data _ _ Hgr t rt ltac:(constructor) Hrt) as [Hh _]. apply one_index.
      * unfold shape_of, lay_of. rewrite Hrt. by eapply holds_nonneg.
      * unfold shape_of, lay_of. by rewrite Hrt.
  - intros Nb. destruct (program_backward _ _ _ _ _ Hp Hmb) as (h2 & E2 & _ & K). assert (h2 = h') as -> by congruence.
    destruct (K b i Bb Nb Tb Hi) as (q & Hq & Uq & Eq). exists q. split; [done|]. split; [done|]. rewrite <- Eq.
    destruct (backward_keep h t (fun _ _ => 0%Qc) b u ls Hinv Hver Hsz Hgr Hls) as (h1 & s & E1 & Hgu & Hgb & _); try done.
    + split; [|done]. intros x f Hbx _ Hf _. by apply (zero_rules h t Hinv Hgr).
    + by exists r.
    + intros x f Hbx _ Hf. by apply (zero_rules h t Hinv Hgr).
    + intros f Hf. destruct Nb. by exists f.
    + apply Eh in E1 as ->. eapply grad_shared; [done|by apply Hgb|]. by rewrite Eu, Eb.
Qed.
