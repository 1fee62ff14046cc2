(** Changes of state that keep the invariant of Prog.v. *)
From Verif.Proofs Require Export Prog.
From Verif.Model Require Export Exact Api.
#[local] Existing Instance Exact.

(** Records keep everything; at most the tensor [a], that had no gradient, got a new and yet
    unallocated one. *)
Record step (a : nat) (h h' : heap) : Prop := Step {
  st_rec : forall y r, h_ten h !! y = Some r -> exists r', h_ten h' !! y = Some r' /\ same_data r r' /\ t_rg r' = t_rg r /\ t_fn r' = t_fn r /\
    (t_grad r' = t_grad r \/ y = a /\ t_grad r = None /\ t_rg r = true /\
      exists s, h_sto h !! s = None /\ has_grad h' y s /\ raw_buffer h' s (t_dt r) (t_lay r));
  st_sto : forall s x, h_sto h !! s = Some x -> h_sto h' !! s = Some x
}.
Lemma step_extends a h h' : extends h h' -> step a h h'.
Proof. intros [H1 H2]. split; [|done]. intros y r Hr. exists r. split; [by apply H2|]. split; [done|]. split; [done|]. split; [done|]. by left. Qed.
Lemma step_trans a h h' h'' : step a h h' -> extends h' h'' -> step a h h''.
Proof.
  intros [A1 A2] [B1 B2]. split; [|by auto]. intros y r Hr. destruct (A1 y r Hr) as (r' & K1 & K2 & K3 & K4 & K5). exists r'. split; [by apply B2|].
  split; [done|]. split; [done|]. split; [done|]. destruct K5 as [K5|(E & K5 & K6 & s & K7 & K8 & K9)]; [by left|right]. split_and!; try done. exists s.
  split; [done|]. split.
  - destruct K8 as (r1 & g & gr & L1 & L2 & L3 & L4). exists r1, g, gr. split; [by apply B2|]. split; [done|]. split; [by apply B2|done].
  - by apply B1.
Qed.

(** facts about both states that the lemmas below share *)
Section same_nodes.
Variables (D T : nat -> Prop) (h h' : heap).
Hypothesis G : GI D T h.
Hypothesis Hfn : forall x, D x -> (fun f => (gf_kind f, gf_in f)) <$> fn_of h' x = (fun f => (gf_kind f, gf_in f)) <$> fn_of h x.
Lemma fn_back x f' : D x -> fn_of h' x = Some f' -> exists f, fn_of h x = Some f /\ gf_kind f' = gf_kind f /\ gf_in f' = gf_in f.
Proof. intros Hx Hf. pose proof (Hfn x Hx) as H. rewrite Hf in H. destruct (fn_of h x) as [f|]; [|done]. exists f. simpl in H. split; [done|]. by split; congruence. Qed.
Lemma fn_fwd x f : D x -> fn_of h x = Some f -> exists f', fn_of h' x = Some f' /\ gf_kind f' = gf_kind f /\ gf_in f' = gf_in f.
Proof. intros Hx Hf. pose proof (Hfn x Hx) as H. rewrite Hf in H. destruct (fn_of h' x) as [f'|]; [|done]. exists f'. simpl in H. split; [done|]. by split; congruence. Qed.
Lemma same_inputs x : D x -> inputs h' x = inputs h x.
Proof.
  intros Hx. unfold inputs. destruct (fn_of h x) as [f|] eqn:E.
  - destruct (fn_fwd x f Hx E) as (f' & -> & _ & ->). done.
  - destruct (fn_of h' x) as [f'|] eqn:E'; [|done]. destruct (fn_back x f' Hx E') as (f & ? & _). congruence.
Qed.
Lemma same_view x : D x -> is_view h' x <-> is_view h x.
Proof.
  intros Hx. split; intros (f & Hf & Hk).
  - destruct (fn_back x f Hx Hf) as (f' & ? & ? & _). exists f'. split; [done|congruence].
  - destruct (fn_fwd x f Hx Hf) as (f' & ? & ? & _). exists f'. split; [done|congruence].
Qed.
Lemma same_is_node x : D x -> is_node h' x <-> is_node h x.
Proof.
  intros Hx. split; intros (f & Hf).
  - destruct (fn_back x f Hx Hf) as (f' & ? & _). by exists f'.
  - destruct (fn_fwd x f Hx Hf) as (f' & ? & _). by exists f'.
Qed.
Lemma same_below x y : D x -> below h' x y <-> below h x y.
Proof. intros Hx. apply (below_same D); [apply (g_in _ _ _ G)|apply same_inputs|done]. Qed.
Lemma same_base x b : D x -> base_of h' x b -> base_of h x b.
Proof.
  intros Hx H. revert Hx. induction H as [x Hv|x f a b Hf Hk Hi H IH]; intros Hx.
  - constructor. by rewrite <- same_view.
  - destruct (fn_back x f Hx Hf) as (f' & Hf' & E1 & E2). eapply base_view; [exact Hf'|congruence|by rewrite <- E2|]. apply IH.
    apply (g_in _ _ _ G x a Hx). unfold inputs. rewrite Hf', <- E2, Hi. apply elem_of_list_here.
Qed.
Lemma same_gdata : (forall x r, h_ten h !! x = Some r -> exists r', h_ten h' !! x = Some r' /\ same_data r r') ->
  forall s, gdata h' D s -> gdata h D s.
Proof.
  intros Hr s (x & r' & Hx & Hx' & Es).
  assert (exists r, h_ten h !! x = Some r) as (r & Hrx).
  { destruct Hx as [Hx|(y & f' & Dy & Hf & Hk)]; [by destruct (g_rec _ _ _ G x Hx) as (r & ? & _); exists r|].
    destruct (fn_back y f' Dy Hf) as (f & Hf' & E1 & E2). rewrite E1 in Hk. destruct (g_node _ _ _ G y f Dy Hf') as (Hn & _).
    destruct (gf_kind f); try by apply elem_of_nil in Hk. simpl in Hk. apply elem_of_list_singleton in Hk as ->.
    simpl in Hn. destruct (gf_in f) as [|? [|]]; try done. destruct Hn as ((r & ? & _) & _). by exists r. }
  destruct (Hr x r Hrx) as (r2 & Hr2 & _ & _ & D3). assert (r2 = r') as -> by congruence. exists x, r. split; [|split; [done|congruence]].
  destruct Hx as [Hx|(y & f' & Dy & Hf & Hk)]; [by left|right]. destruct (fn_back y f' Dy Hf) as (f & Hf' & E1 & E2). exists y, f. split; [done|]. split; [done|]. by rewrite <- E1.
Qed.
End same_nodes.

Lemma has_grad_sto h x s r : h_ten h !! x = Some r -> t_grad r = None -> ~ has_grad h x s.
Proof. intros H1 H2 (r' & g & gr & H3 & H4 & _). congruence. Qed.
Lemma gdata_exists D T h s : GI D T h -> gdata h D s -> is_Some (h_sto h !! s).
Proof.
  intros G (x & r & Hx & Hr & <-). assert (holds h r (contents h r)) as [(cs & (b & Hb) & _) _]; [|by eexists].
  destruct Hx as [Hx|(y & f & Dy & Hf & Hk)].
  - destruct (g_rec _ _ _ G x Hx) as (r' & ? & ? & _). by assert (r' = r) as <- by congruence.
  - destruct (g_node _ _ _ G y f Dy Hf) as (Hn & _). destruct (gf_kind f); try by apply elem_of_nil in Hk.
    simpl in Hk. apply elem_of_list_singleton in Hk as ->. simpl in Hn. destruct (gf_in f) as [|? [|]]; try done.
    destruct Hn as ((r' & ? & ?) & _). by assert (r' = r) as <- by congruence.
Qed.
Lemma grad_exists D T h x s : GI D T h -> D x -> ~ T x -> ~ is_view h x -> has_grad h x s -> is_Some (h_sto h !! s).
Proof.
  intros G Dx Tx Vx Hs. pose proof Hs as (r & g & gr & H1 & H2 & _). assert (tracked h x) as Hx.
  { exists r. split; [done|]. destruct (t_rg r) eqn:E; [done|]. destruct (g_const _ _ _ G x r Dx H1 E). congruence. }
  destruct (g_grad _ _ _ G x r Dx Tx Hx Vx H1) as [?|(s' & Hs' & Hb)]; [congruence|]. rewrite (has_grad_fun _ _ _ _ Hs Hs').
  destruct Hb as [Hb|(_ & qs & Hb & _)]; by eexists.
Qed.

Lemma GI_step D T a h h' : GI D T h -> step a h h' -> GI D T h'.
Proof.
  intros G K.
  assert (forall x, D x -> fn_of h' x = fn_of h x) as Hfn.
  { intros x Hx. destruct (g_rec _ _ _ G x Hx) as (r & Hr & _). destruct (st_rec _ _ _ K x r Hr) as (r' & Hr' & _ & _ & E & _). unfold fn_of. by rewrite Hr, Hr', E. }
  assert (forall x, D x -> (fun f => (gf_kind f, gf_in f)) <$> fn_of h' x = (fun f => (gf_kind f, gf_in f)) <$> fn_of h x) as Hfn' by (intros x Hx; by rewrite Hfn).
  assert (forall y r, h_ten h !! y = Some r -> is_Some (h_sto h !! t_sto r) -> kept h h' y) as Hk.
  { intros y r Hr [x Hs]. destruct (st_rec _ _ _ K y r Hr) as (r' & Hr' & E1 & E2 & _). exists r, r'. split_and!; try done; [congruence|]. by rewrite Hs, (st_sto _ _ _ K _ _ Hs). }
  assert (forall y, D y -> kept h h' y) as HkD.
  { intros y Hy. destruct (g_rec _ _ _ G y Hy) as (r & Hr & _). eapply Hk; [done|]. apply (gdata_exists D T h _ G). exists y, r. split; [by left|done]. }
  assert (forall y s, h_sto h !! s <> None -> has_grad h y s -> has_grad h' y s) as Hfwd.
  { intros y s _ (r & g & gr & L1 & L2 & L3 & L4 & L5 & L6 & L7). destruct (st_rec _ _ _ K y r L1) as (r' & M1 & (M2 & M3 & M4) & M5 & _ & M6).
    destruct (st_rec _ _ _ K g gr L3) as (gr' & N1 & (N2 & N3 & N4) & N5 & _). exists r', g, gr'. split_and!; try done; try congruence. destruct M6 as [M6|(_ & M6 & _)]; congruence. }
  assert (forall y s, D y -> ~ T y -> ~ is_view h y -> has_grad h' y s -> has_grad h y s \/ y = a /\ h_sto h !! s = None) as Hback.
  { intros y s Dy Ty Vy Hs. pose proof (g_rec _ _ _ G y Dy) as (r & Hr & _). destruct (st_rec _ _ _ K y r Hr) as (r' & M1 & _ & M5 & _ & M6).
    destruct M6 as [M6|(-> & M6 & _ & s' & M7 & M8 & _)]; [left|right; split; [done|]; by rewrite (has_grad_fun _ _ _ _ Hs M8)].
    pose proof Hs as (r1 & g & gr & L1 & L2 & _). assert (r1 = r') as -> by congruence. assert (t_grad r = Some g) as Eg by congruence.
    assert (tracked h y) as Hy. { exists r. split; [done|]. destruct (t_rg r) eqn:E; [done|]. destruct (g_const _ _ _ G y r Dy Hr E). congruence. }
    destruct (g_grad _ _ _ G y r Dy Ty Hy Vy Hr) as [?|(s' & Hs' & Hb)]; [congruence|].
    assert (has_grad h' y s') as Hs''. { apply Hfwd; [|done]. destruct (grad_exists D T h y s' G Dy Ty Vy Hs') as [? E]. congruence. }
    by rewrite (has_grad_fun _ _ _ _ Hs Hs''). }
  assert (forall x, D x -> tracked h' x -> tracked h x) as Htr.
  { intros x Dx (r' & Hr' & Hg). destruct (g_rec _ _ _ G x Dx) as (r & Hr & _). destruct (st_rec _ _ _ K x r Hr) as (r1 & M1 & _ & M5 & _). exists r. split; [done|congruence]. }
  assert (forall s, gdata h' D s -> gdata h D s) as Hgd.
  { apply (same_gdata D T h h' G Hfn'). intros x r Hr. destruct (st_rec _ _ _ K x r Hr) as (r' & ? & ? & _). by exists r'. }
  assert (forall x, D x -> is_view h' x <-> is_view h x) as Hv by (apply same_view; done).
  assert (forall x y, D x -> below h' x y <-> below h x y) as Hbl by (by apply (same_below D T h h' G)).
  split.
  - intros x Tx. destruct (g_sub _ _ _ G x Tx) as [Dx Nx]. split; [done|]. by rewrite (same_is_node D h h' Hfn').
  - intros x Dx. destruct (g_rec _ _ _ G x Dx) as (r & Hr & Hh & Hf & Hi). destruct (st_rec _ _ _ K x r Hr) as (r' & Hr' & (E1 & E2 & E3) & _). exists r'.
    split; [done|]. split; [by eapply (kept_holds h h' x); eauto|]. unfold shape in *. rewrite <- E1, <- E2. done.
  - intros x y Dx Hy. eapply (g_in _ _ _ G); [done|]. by rewrite (same_inputs D h h' Hfn') in Hy.
  - intros x f Dx Hf. rewrite Hfn in Hf by done. eapply node_fact_kept; [|by apply (g_node _ _ _ G)]. intros y Hy.
    apply elem_of_cons in Hy as [->|Hy]; [by apply HkD|]. apply elem_of_app in Hy as [Hy|Hy].
    + apply HkD. eapply (g_in _ _ _ G); [done|]. unfold inputs. by rewrite Hf.
    + destruct (g_node _ _ _ G x f Dx Hf) as (Hn & _). destruct (gf_kind f); try by apply elem_of_nil in Hy. simpl in Hy.
      pose proof Hy as Hy'. apply elem_of_list_singleton in Hy' as ->. simpl in Hn. destruct (gf_in f) as [|? [|]]; try done.
      destruct Hn as ((r & Hr & [(cs & (bs & Hb) & _) _]) & _). eapply Hk; [done|by eexists].
  - intros x Dx Tx Vx. rewrite (kept_lay _ _ _ (HkD x Dx)). apply (g_dense _ _ _ G); [done|by apply Htr|by rewrite <- Hv].
  - intros x r' f Dx Hr' Hf. destruct (g_rec _ _ _ G x Dx) as (r & Hr & _). destruct (st_rec _ _ _ K x r Hr) as (r1 & M1 & _ & M5 & M6 & _).
    assert (r1 = r') as -> by congruence. rewrite M5. eapply (g_free _ _ _ G); [done|done|congruence].
  - intros x r' Dx Hr' Hg. destruct (g_rec _ _ _ G x Dx) as (r & Hr & _). destruct (st_rec _ _ _ K x r Hr) as (r1 & M1 & _ & M5 & M6 & M7).
    assert (r1 = r') as -> by congruence. rewrite M6. destruct M7 as [->|(_ & _ & ? & _)]; [|congruence]. eapply (g_const _ _ _ G); [done|done|congruence].
  - intros x r' Dx Tx Hx Vx Hr'. rewrite Hv in Vx by done. apply Htr in Hx; [|done]. destruct (g_rec _ _ _ G x Dx) as (r & Hr & _).
    destruct (st_rec _ _ _ K x r Hr) as (r1 & M1 & (E1 & E2 & E3) & M5 & M6 & M7). assert (r1 = r') as -> by congruence. rewrite <- E1, <- E2.
    destruct M7 as [M7|(-> & M7 & _ & s & M8 & M9 & M10)]; [|right; exists s; split; [done|by left]].
    destruct (g_grad _ _ _ G x r Dx Tx Hx Vx Hr) as [?|(s & Hs & Hb)]; [left; congruence|right]. exists s.
    destruct (grad_exists D T h x s G Dx Tx Vx Hs) as [st Hst]. split; [apply Hfwd; [congruence|done]|].
    destruct Hb as [Hb|(Hnn & qs & Hb & Hl)]; [left; by apply (st_sto _ _ _ K)|right]. split; [by rewrite (same_is_node D h h' Hfn')|].
    exists qs. split; [by apply (st_sto _ _ _ K)|done].
  - intros x b Dx Cx Vx Hb. rewrite Hv in Vx by done. apply (same_base D T h h' G Hfn' x b Dx) in Hb.
    assert (clean h T x) as Cx' by (intros y Hy; apply Cx; by rewrite Hbl).
    destruct (g_view _ _ _ G x b Dx Cx' Vx Hb) as (s & S1 & S2). exists s. assert (h_sto h !! s <> None) as Hne.
    { assert (~ T b) as Tb by (by apply Cx', base_below). destruct (grad_exists D T h b s G) as [? E]; [eapply base_D; [apply (g_in _ _ _ G)|done|done]|done|by eapply base_not_view|done|congruence]. }
    by split; apply Hfwd.
  - intros x y s Dx Dy Tx Ty Vx Vy Hx Hy. rewrite Hv in Vx by done. rewrite Hv in Vy by done.
    destruct (Hback x s Dx Tx Vx Hx) as [Hx'|[-> Hx']]; destruct (Hback y s Dy Ty Vy Hy) as [Hy'|[-> Hy']].
    + by apply (g_sep _ _ _ G x y s).
    + destruct (grad_exists D T h x s G Dx Tx Vx Hx'). congruence.
    + destruct (grad_exists D T h y s G Dy Ty Vy Hy'). congruence.
    + done.
  - intros x s Dx Tx Vx Hx Hd%Hgd. rewrite Hv in Vx by done. destruct (Hback x s Dx Tx Vx Hx) as [Hx'|[-> Hx']].
    + by apply (g_apart _ _ _ G x s).
    + destruct (gdata_exists D T h s G Hd). congruence.
Qed.

(** ** one more tensor *)
Lemma GI_add D T h x r : GI D T h -> h_ten h !! x = Some r -> ~ D x ->
  holds h r (contents h r) -> fits (t_dt r) (shape r) -> lay_inj (t_lay r) ->
  (forall y, y ∈ inputs h x -> D y) -> (forall f, t_fn r = Some f -> node_fact h x (gf_kind f) (gf_in f) /\ t_rg r = true /\ gf_acc f = 0) ->
  (t_rg r = true -> ~ is_view h x -> dense (t_lay r)) -> (t_rg r = false -> t_fn r = None /\ t_grad r = None) ->
  (~ is_view h x -> t_grad r = None) ->
  (is_view h x -> clean h T x -> forall b, base_of h x b -> exists s, has_grad h x s /\ has_grad h b s) ->
  (forall y s, D y -> ~ T y -> ~ is_view h y -> has_grad h y s -> s <> t_sto r /\
    forall f kg rk, t_fn r = Some f -> kg ∈ kg_of (gf_kind f) -> h_ten h !! kg = Some rk -> s <> t_sto rk) ->
  GI (fun y => D y \/ y = x) T h.
Proof.
  intros G Hr Nx Hh Hf Hi Hin Hnf Hd Hc Hg Hv Ha.
  assert (fn_of h x = t_fn r) as Efn by (unfold fn_of; by rewrite Hr).
  assert (forall y r', (D y \/ y = x) -> h_ten h !! y = Some r' -> D y \/ y = x /\ r' = r) as Hor.
  { intros y r' [?| ->] Hr'; [by left|right]. split; [done|congruence]. }
  split.
  - intros y Hy. destruct (g_sub _ _ _ G y Hy). split; [by left|done].
  - intros y [Dy| ->]; [by apply (g_rec _ _ _ G)|]. by exists r.
  - intros y z [Dy| ->] Hz; left; [by eapply (g_in _ _ _ G)|by apply Hin].
  - intros y f [Dy| ->] Hfy; [by apply (g_node _ _ _ G)|]. rewrite Efn in Hfy. by apply Hnf.
  - intros y [Dy| ->] Ty Vy; [by apply (g_dense _ _ _ G)|]. unfold lay_of. rewrite Hr. destruct Ty as (r' & Hr' & Hg'). assert (r' = r) as -> by congruence. by apply Hd.
  - intros y ry f Dy Hry Hfy. destruct (Hor y ry Dy Hry) as [Dy'|[-> ->]]; [by apply (g_free _ _ _ G)|]. destruct (Hnf f Hfy) as (_ & H1 & H2). done.
  - intros y ry Dy Hry Hfy. destruct (Hor y ry Dy Hry) as [Dy'|[-> ->]]; [by apply (g_const _ _ _ G y)|]. by apply Hc.
  - intros y ry Dy Ty Hty Vy Hry. destruct (Hor y ry Dy Hry) as [Dy'|[-> ->]]; [by apply (g_grad _ _ _ G)|]. left. by apply Hg.
  - intros y b [Dy| ->] Cy Vy Hb; [by apply (g_view _ _ _ G)|]. by apply Hv.
  - intros y z s Dy Dz Ty Tz Vy Vz Hy Hz.
    assert (forall w, (D w \/ w = x) -> ~ is_view h w -> has_grad h w s -> D w) as Hw.
    { intros w [?| ->] Vw (rw & g & gr & L1 & L2 & _); [done|]. assert (rw = r) as -> by congruence. rewrite Hg in L2 by done. done. }
    apply (g_sep _ _ _ G y z s); auto.
  - intros y s Dy Ty Vy Hy (z & rz & Hz & Hrz & Es). assert (D y) as Dy'.
    { destruct Dy as [?| ->]; [done|]. destruct Hy as (rw & g & gr & L1 & L2 & _). assert (rw = r) as -> by congruence. rewrite Hg in L2 by done. done. }
    destruct (Ha y s Dy' Ty Vy Hy) as [A1 A2]. assert ((D z \/ exists y f, D y /\ fn_of h y = Some f /\ z ∈ kg_of (gf_kind f)) \/ s = t_sto r \/
      exists f, t_fn r = Some f /\ z ∈ kg_of (gf_kind f)) as Hcase.
    { destruct Hz as [[?| ->]|(w & f & [Dw| ->] & Hfw & Hk)].
      - by left; left.
      - right; left. congruence.
      - left; right. by exists w, f.
      - right; right. exists f. split; [congruence|done]. }
    destruct Hcase as [Hc1|[Hc2|(f & Hc3 & Hc4)]]; [|done|].
    + apply (g_apart _ _ _ G y s Dy' Ty Vy Hy). by exists z, rz.
    + by eapply (A2 f z rz).
Qed.
