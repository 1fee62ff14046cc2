(** The calls that change the autograd state of existing tensors keep the invariant. *)
From Verif.Proofs Require Export Prog2.
From Verif.Model Require Export Exact Api.
#[local] Existing Instance Exact.

Definition grad_buffer (h : heap) (x : nat) (r : tensor) (s : nat) : Prop :=
  raw_buffer h s (t_dt r) (t_lay r) \/ ~ is_node h x /\ exists qs, num_buffer h s (t_dt r) (t_lay r) qs.
Lemma fn_shape_of h h' : (forall x r, h_ten h !! x = Some r -> exists r', h_ten h' !! x = Some r' /\ fn_shape r' = fn_shape r) ->
  forall x, is_Some (h_ten h !! x) -> (fun f => (gf_kind f, gf_in f)) <$> fn_of h' x = (fun f => (gf_kind f, gf_in f)) <$> fn_of h x.
Proof. intros H x [r Hr]. destruct (H x r Hr) as (r' & Hr' & E). unfold fn_of. rewrite Hr, Hr'. exact E. Qed.

Section change.
Variables (D T T' : nat -> Prop) (h h' : heap).
Hypothesis G : GI D T h.
Hypothesis Hsub : forall x, T' x -> D x /\ is_node h x.
Hypothesis Hrec : forall x r, h_ten h !! x = Some r -> exists r', h_ten h' !! x = Some r' /\ same_data r r' /\ (t_rg r = true -> t_rg r' = true) /\ fn_shape r' = fn_shape r.
Hypothesis Hsto : forall s x, gdata h D s -> h_sto h !! s = Some x -> h_sto h' !! s = Some x.
Hypothesis Hdense : forall x, D x -> tracked h' x -> ~ is_view h x -> dense (lay_of h x).
Hypothesis Hfree : forall x r' f, D x -> ~ T' x -> h_ten h' !! x = Some r' -> t_fn r' = Some f -> gf_acc f = 0.
Hypothesis Hconst : forall x r', D x -> h_ten h' !! x = Some r' -> t_rg r' = false -> t_grad r' = None.
Hypothesis Hgrad : forall x r', D x -> ~ T' x -> tracked h' x -> ~ is_view h x -> h_ten h' !! x = Some r' -> t_grad r' = None \/
  exists s, has_grad h' x s /\ (raw_buffer h' s (t_dt r') (t_lay r') \/ ~ is_node h x /\ exists qs, num_buffer h' s (t_dt r') (t_lay r') qs).
Hypothesis Hview : forall x b, D x -> clean h T' x -> is_view h x -> base_of h x b -> exists s, has_grad h' x s /\ has_grad h' b s.
Hypothesis Hsep : forall x y s, D x -> D y -> ~ T' x -> ~ T' y -> ~ is_view h x -> ~ is_view h y -> has_grad h' x s -> has_grad h' y s -> x = y.
Hypothesis Hap : forall x s, D x -> ~ T' x -> ~ is_view h x -> has_grad h' x s -> ~ gdata h D s.

Lemma GI_change : GI D T' h'.
Proof.
  assert (forall x, D x -> (fun f => (gf_kind f, gf_in f)) <$> fn_of h' x = (fun f => (gf_kind f, gf_in f)) <$> fn_of h x) as Hfn.
  { intros x Dx. apply fn_shape_of; [|destruct (g_rec _ _ _ G x Dx) as (r & ? & _); by eexists].
    intros y r Hr. destruct (Hrec y r Hr) as (r' & ? & _ & _ & ?). by exists r'. }
  assert (forall x r, gdata h D (t_sto r) -> h_ten h !! x = Some r -> kept h h' x) as Hk.
  { intros x r Hd Hr. destruct (Hrec x r Hr) as (r' & ? & ? & ? & _). exists r, r'. split_and!; try done.
    destruct (gdata_exists D T h _ G Hd) as [y Hy]. by rewrite Hy, (Hsto _ y Hd Hy). }
  assert (forall y, D y -> kept h h' y) as HkD.
  { intros y Hy. destruct (g_rec _ _ _ G y Hy) as (r & Hr & _). eapply Hk; [|done]. exists y, r. split; [by left|done]. }
  assert (forall s, gdata h' D s -> gdata h D s) as Hgd.
  { apply (same_gdata D T h h' G Hfn). intros x r Hr. destruct (Hrec x r Hr) as (r' & ? & ? & _). by exists r'. }
  assert (forall x, D x -> is_view h' x <-> is_view h x) as Hv by (by apply same_view).
  assert (forall x y, D x -> below h' x y <-> below h x y) as Hbl by (by apply (same_below D T h h' G)).
  split.
  - intros x Tx. destruct (Hsub x Tx) as [Dx Nx]. split; [done|]. by rewrite (same_is_node D h h' Hfn).
  - intros x Dx. destruct (g_rec _ _ _ G x Dx) as (r & Hr & Hh & Hf & Hi). destruct (Hrec x r Hr) as (r' & Hr' & (E1 & E2 & E3) & _). exists r'.
    split; [done|]. split; [by eapply (kept_holds h h' x); eauto|]. unfold shape in *. rewrite <- E1, <- E2. done.
  - intros x y Dx Hy. eapply (g_in _ _ _ G); [done|]. by rewrite (same_inputs D h h' Hfn) in Hy.
  - intros x f' Dx Hf'. destruct (fn_back D h h' Hfn x f' Dx Hf') as (f & Hf & -> & ->). pose proof (g_node _ _ _ G x f Dx Hf) as Hn.
    eapply node_fact_kept; [|done]. intros y Hy. apply elem_of_cons in Hy as [->|Hy]; [by apply HkD|]. apply elem_of_app in Hy as [Hy|Hy].
    + apply HkD. eapply (g_in _ _ _ G); [done|]. unfold inputs. by rewrite Hf.
    + destruct Hn as (Hn & _). assert (exists r, h_ten h !! y = Some r) as (r & Hr).
      { destruct (gf_kind f); try by apply elem_of_nil in Hy. simpl in Hy. apply elem_of_list_singleton in Hy as ->. simpl in Hn. destruct (gf_in f) as [|? [|]]; try done.
        destruct Hn as ((r & Hr & _) & _). by exists r. }
      eapply Hk; [|done]. exists y, r. split; [right; by exists x, f|done].
  - intros x Dx Tx Vx. rewrite (kept_lay _ _ _ (HkD x Dx)). apply Hdense; [done..|by rewrite <- Hv].
  - intros x r' f Dx Hr' Hf. split.
    + assert (fn_of h' x = Some f) as Hf' by (unfold fn_of; by rewrite Hr'). destruct (fn_back D h h' Hfn x f Dx Hf') as (f0 & Hf0 & _).
      destruct (g_rec _ _ _ G x Dx) as (r & Hr & _). unfold fn_of in Hf0. rewrite Hr in Hf0. destruct (g_free _ _ _ G x r f0 Dx Hr Hf0) as [E _].
      destruct (Hrec x r Hr) as (r1 & ? & _ & E' & _). assert (r1 = r') as -> by congruence. auto.
    + intros Hn. by eapply Hfree.
  - intros x r' Dx Hr' Hg. split; [|by eapply Hconst]. destruct (g_rec _ _ _ G x Dx) as (r & Hr & _). destruct (Hrec x r Hr) as (r1 & ? & _ & E' & E).
    assert (r1 = r') as -> by congruence. destruct (t_rg r) eqn:Er; [rewrite E' in Hg; done|]. destruct (g_const _ _ _ G x r Dx Hr Er) as [En _].
    unfold fn_shape in E. rewrite En in E. by destruct (t_fn r').
  - intros x r' Dx Tx Hx Vx Hr'. rewrite Hv in Vx by done. destruct (Hgrad x r' Dx Tx Hx Vx Hr') as [?|(s & H1 & H2)]; [by left|right]. exists s.
    split; [done|]. by rewrite (same_is_node D h h' Hfn).
  - intros x b Dx Cx Vx Hb. rewrite Hv in Vx by done. apply (same_base D T h h' G Hfn x b Dx) in Hb. apply Hview; try done.
    intros y Hy. apply Cx. by rewrite Hbl.
  - intros x y s Dx Dy Tx Ty Vx Vy. rewrite Hv in Vx by done. rewrite Hv in Vy by done. by apply Hsep.
  - intros x s Dx Tx Vx Hx Hd%Hgd. rewrite Hv in Vx by done. by apply (Hap x s).
Qed.
End change.

(** ** gradients stay where they are *)
Section soft.
Variables (D T : nat -> Prop) (h h' : heap).
Hypothesis G : GI D T h.
Hypothesis Hrec : forall x r, h_ten h !! x = Some r -> exists r', h_ten h' !! x = Some r' /\ same_data r r' /\ t_fn r' = t_fn r /\ t_grad r' = t_grad r /\
  (t_rg r' = t_rg r \/ D x /\ t_rg r' = true /\ t_fn r = None /\ dense (t_lay r)).
Hypothesis Hsto : forall s x, gdata h D s -> h_sto h !! s = Some x -> h_sto h' !! s = Some x.
Hypothesis Hbuf : forall x r s, D x -> ~ T x -> ~ is_view h x -> h_ten h !! x = Some r -> has_grad h x s -> grad_buffer h x r s -> grad_buffer h' x r s.

Lemma soft_fwd y s : ~ gdata h D s -> has_grad h y s -> has_grad h' y s.
Proof.
  intros Hs (r & g & gr & L1 & L2 & L3 & L4 & L5 & L6 & L7). destruct (Hrec y r L1) as (r' & M1 & (M2 & M3 & M4) & _ & M6 & _).
  destruct (Hrec g gr L3) as (gr' & N1 & (N2 & N3 & N4) & _ & _ & N6). exists r', g, gr'. split_and!; try done; try congruence.
  destruct N6 as [N6|(N6 & _)]; [congruence|]. destruct Hs. exists g, gr. split; [by left|done].
Qed.
Lemma soft_back y s : D y -> ~ T y -> ~ is_view h y -> has_grad h' y s -> has_grad h y s.
Proof.
  intros Dy Ty Vy Hs. destruct (g_rec _ _ _ G y Dy) as (r & Hr & _). destruct (Hrec y r Hr) as (r' & M1 & _ & _ & M6 & _).
  pose proof Hs as (r1 & g & gr & L1 & L2 & _). assert (r1 = r') as -> by congruence.
  assert (tracked h y) as Hy. { exists r. split; [done|]. destruct (t_rg r) eqn:E; [done|]. destruct (g_const _ _ _ G y r Dy Hr E). congruence. }
  destruct (g_grad _ _ _ G y r Dy Ty Hy Vy Hr) as [?|(s' & Hs' & _)]; [congruence|].
  rewrite (has_grad_fun h' y s s' Hs); [done|]. apply soft_fwd; [|done]. by apply (g_apart _ _ _ G y s').
Qed.
Lemma GI_soft : GI D T h'.
Proof.
  apply (GI_change D T T h h' G).
  - apply (g_sub _ _ _ G).
  - intros x r Hr. destruct (Hrec x r Hr) as (r' & M1 & M2 & M3 & M4 & M5). exists r'. split; [done|]. split; [done|].
    split; [|unfold fn_shape; by rewrite M3]. destruct M5 as [->|(_ & -> & _)]; done.
  - done.
  - intros x Dx Tx Vx. destruct (g_rec _ _ _ G x Dx) as (r & Hr & _). destruct (Hrec x r Hr) as (r' & M1 & M2 & M3 & M4 & M5).
    destruct M5 as [M5|(_ & _ & _ & M5)]; [|unfold lay_of; by rewrite Hr]. apply (g_dense _ _ _ G); [done| |done].
    destruct Tx as (r1 & ? & ?). exists r. split; [done|]. congruence.
  - intros x r' f Dx Tx Hr' Hf. destruct (g_rec _ _ _ G x Dx) as (r & Hr & _). destruct (Hrec x r Hr) as (r1 & M1 & M2 & M3 & M4 & M5).
    assert (r1 = r') as -> by congruence. eapply (g_free _ _ _ G); [done|done|congruence|done].
  - intros x r' Dx Hr' Hg. destruct (g_rec _ _ _ G x Dx) as (r & Hr & _). destruct (Hrec x r Hr) as (r1 & M1 & M2 & M3 & M4 & M5).
    assert (r1 = r') as -> by congruence. rewrite M4. apply (g_const _ _ _ G x r Dx Hr). destruct M5 as [?|(_ & ? & _)]; congruence.
  - intros x r' Dx Tx Hx Vx Hr'. destruct (g_rec _ _ _ G x Dx) as (r & Hr & _). destruct (Hrec x r Hr) as (r1 & M1 & (E1 & E2 & E3) & M3 & M4 & M5).
    assert (r1 = r') as -> by congruence. rewrite M4. destruct (t_rg r) eqn:Er; [|left; apply (g_const _ _ _ G x r Dx Hr Er)].
    assert (tracked h x) as Tx' by (by exists r). destruct (g_grad _ _ _ G x r Dx Tx Tx' Vx Hr) as [?|(s & Hs & Hb)]; [by left|right].
    exists s. split; [apply soft_fwd; [by apply (g_apart _ _ _ G x s)|done]|]. rewrite <- E1, <- E2.
    destruct (Hbuf x r s Dx Tx Vx Hr Hs Hb) as [?|[Hn ?]]; [by left|right]. split; [|done]. intros [f Hf]. apply Hn. exists f.
    unfold fn_of in *. rewrite Hr in Hf. by rewrite Hr', M3.
  - intros x b Dx Cx Vx Hb. destruct (g_view _ _ _ G x b Dx Cx Vx Hb) as (s & S1 & S2). exists s.
    assert (~ gdata h D s) as Hs. { apply (g_apart _ _ _ G b s); [eapply base_D; [apply (g_in _ _ _ G)|done|done]|apply Cx; by apply base_below|by eapply base_not_view|done]. }
    split; by apply soft_fwd.
  - intros x y s Dx Dy Tx Ty Vx Vy Hx Hy. apply (g_sep _ _ _ G x y s); try done; by apply soft_back.
  - intros x s Dx Tx Vx Hx. apply (g_apart _ _ _ G x s); try done; by apply soft_back.
Qed.
End soft.

Lemma GI_requires D T h a r : GI D T h -> D a -> h_ten h !! a = Some r -> t_fn r = None -> dense (t_lay r) ->
  GI D T (Hp (h_sto h) (<[a := with_rg r true]> (h_ten h)) (h_ver h)).
Proof.
  intros G Da Hr Hf Hd. apply (GI_soft D T h _ G).
  - intros x rx Hx. simpl. destruct (decide (x = a)) as [->|Hne].
    + assert (rx = r) as -> by congruence. exists (with_rg r true). rewrite list_lookup_insert by (by eapply lookup_lt_Some).
      split; [done|]. split; [done|]. split; [done|]. split; [done|]. by right.
    + exists rx. rewrite list_lookup_insert_ne by done. split; [done|]. split; [done|]. split; [done|]. split; [done|]. by left.
  - done.
  - intros x rx s Dx Tx Vx Hx Hs [Hb|(Hn & qs & Hb)]; [by left|right]. split; [|by exists qs]. intros [f Hf']. apply Hn. unfold is_node, fn_of in *. simpl in Hf'.
    destruct (decide (x = a)) as [->|Hne].
    + rewrite list_lookup_insert in Hf' by (by eapply lookup_lt_Some). simpl in Hf'. congruence.
    + rewrite list_lookup_insert_ne in Hf' by done. rewrite Hf'. by eexists.
Qed.
Lemma GI_retain D T h a r b : GI D T h -> h_ten h !! a = Some r ->
  GI D T (Hp (h_sto h) (<[a := with_ret r b]> (h_ten h)) (h_ver h)).
Proof.
  intros G Hr. apply (GI_soft D T h _ G).
  - intros x rx Hx. simpl. destruct (decide (x = a)) as [->|Hne].
    + assert (rx = r) as -> by congruence. exists (with_ret r b). rewrite list_lookup_insert by (by eapply lookup_lt_Some).
      split; [done|]. split; [done|]. split; [done|]. split; [done|]. by left.
    + exists rx. rewrite list_lookup_insert_ne by done. split; [done|]. split; [done|]. split; [done|]. split; [done|]. by left.
  - done.
  - intros x rx s Dx Tx Vx Hx Hs [Hb|(Hn & qs & Hb)]; [by left|right]. split; [|by exists qs]. intros [f Hf']. apply Hn. unfold is_node, fn_of in *. simpl in Hf'.
    destruct (decide (x = a)) as [->|Hne].
    + rewrite list_lookup_insert in Hf' by (by eapply lookup_lt_Some). rewrite Hr. by exists f.
    + rewrite list_lookup_insert_ne in Hf' by done. rewrite Hf'. by eexists.
Qed.

(** ** backward() *)
Lemma below_em h t x : tinv h -> vinv h -> is_node h t -> below h t x \/ ~ below h t x.
Proof.
  intros Hinv Hver [f Hf]. destruct (refresh_ok h t f Hinv Hver Hf) as (R & _ & _ & _ & HR & _).
  destruct (decide (x = t)) as [->|Hne]; [left; constructor|].
  destruct (decide (Exists (fun c => x ∈ inputs h c) R)) as [He|Hn].
  - left. apply Exists_exists in He as (c & Hc & Hx). apply HR in Hc as [Hc _]. by eapply below_in.
  - right. intros Hb. destruct Hb as [|c x Hb Hin]; [done|]. apply Hn, Exists_exists. exists c. split; [|done]. apply HR. split; [done|].
    unfold inputs in Hin. unfold is_node. destruct (fn_of h c); [done|]. by apply elem_of_nil in Hin.
Qed.
Lemma GI_back D T h h' t : tinv h -> vinv h -> GI D T h -> D t -> grad_core h t -> (forall x, below h t x -> x <> t -> ~ T x) -> effect h t h' ->
  GI D (fun x => T x \/ below h t x /\ is_node h x) h'.
Proof.
  intros Hinv Hver G Dt Hgr HT F.
  assert (forall x, below h t x -> D x) as HD by (intros x; apply below_D; [apply (g_in _ _ _ G)|done]).
  assert (forall x s, D x -> ~ T x -> ~ is_view h x -> has_grad h x s -> ~ below h t x -> outside h t s) as Hout.
  { intros x s Dx Tx Vx Hs Hb. split; [by eapply (grad_exists D T h x s)|]. intros b (B1 & B2 & B3) Hbt Hbs. apply Hb.
    by rewrite (g_sep _ _ _ G x b s Dx (HD b B1) Tx (HT b B1 Hbt) Vx B3 Hs Hbs). }
  assert (forall s, gdata h D s -> outside h t s) as Hgo.
  { intros s Hs. split; [by eapply gdata_exists|]. intros b (B1 & B2 & B3) Hbt Hbs. by apply (g_apart _ _ _ G b s (HD b B1) (HT b B1 Hbt) B3 Hbs). }
  assert (forall x s, (t_grad <$> h_ten h' !! x) = (t_grad <$> h_ten h !! x) -> has_grad h x s -> has_grad h' x s) as Hfwd.
  { intros x s Hg (r & g & gr & L1 & L2 & L3 & L4 & L5 & L6 & L7). destruct (ef_rec _ _ _ F x r L1) as (r' & M1 & (M2 & M3 & M4) & _).
    destruct (ef_rec _ _ _ F g gr L3) as (gr' & N1 & (N2 & N3 & N4) & N5 & _). exists r', g, gr'. split_and!; try done; try congruence.
    rewrite M1, L1 in Hg. simpl in Hg. congruence. }
  assert (forall x, ~ below h t x -> is_Some (h_ten h !! x) -> (t_grad <$> h_ten h' !! x) = (t_grad <$> h_ten h !! x)) as Hsame.
  { intros x Hb [r Hr]. destruct (ef_rec _ _ _ F x r Hr) as (r' & M1 & _ & _ & _ & _ & _ & M2 & _). rewrite Hr, M1. simpl. by rewrite (proj2 (M2 Hb)). }
  assert (forall x s, D x -> ~ T x -> ~ is_view h x -> ~ below h t x -> has_grad h' x s -> has_grad h x s) as Hback.
  { intros x s Dx Tx Vx Hb Hs. destruct (g_rec _ _ _ G x Dx) as (r & Hr & _). pose proof (Hsame x Hb (ex_intro _ r Hr)) as E.
    pose proof Hs as (r1 & g & gr & L1 & L2 & _). rewrite L1, Hr in E. simpl in E. assert (t_grad r = Some g) as Eg by congruence.
    assert (tracked h x) as Hx. { exists r. split; [done|]. destruct (t_rg r) eqn:Er; [done|]. destruct (g_const _ _ _ G x r Dx Hr Er). congruence. }
    destruct (g_grad _ _ _ G x r Dx Tx Hx Vx Hr) as [?|(s' & Hs' & _)]; [congruence|].
    rewrite (has_grad_fun h' x s s' Hs); [done|]. apply Hfwd; [by apply Hsame; [done|by eexists]|done]. }
  assert (forall x, below h t x \/ ~ below h t x) as Hbd.
  { intros x. apply below_em; [done|done|]. destruct (gc_root _ _ Hgr) as (r & f & Hr & Hf & _). exists f. unfold fn_of. by rewrite Hr. }
  assert (forall x, D x -> tracked h' x -> tracked h x) as Htr.
  { intros x Dx (r' & Hr' & Hg). destruct (g_rec _ _ _ G x Dx) as (r & Hr & _). destruct (ef_rec _ _ _ F x r Hr) as (r1 & M1 & _ & M2 & _). exists r. split; [done|]. congruence. }
  assert (forall x s, D x -> has_grad h' x s -> tracked h x) as Hgt.
  { intros x s Dx (r' & g & gr & L1 & L2 & _). destruct (g_rec _ _ _ G x Dx) as (r & Hr & _). destruct (ef_rec _ _ _ F x r Hr) as (r1 & M1 & _ & M2 & _ & _ & _ & _ & M3).
    exists r. split; [done|]. destruct (t_rg r) eqn:Er; [done|]. destruct (g_const _ _ _ G x r Dx Hr Er) as [_ E]. assert (r1 = r') as -> by congruence. rewrite M3 in L2 by done. congruence. }
  apply (GI_change D T _ h h' G).
  - intros x [?|[? ?]]; [by apply (g_sub _ _ _ G)|split; [by apply HD|done]].
  - intros x r Hr. destruct (ef_rec _ _ _ F x r Hr) as (r' & M1 & M2 & M3 & _ & M4 & _). exists r'. split; [done|]. split; [done|]. split; [congruence|done].
  - intros s x Hs. apply (ef_sto _ _ _ F). by apply Hgo.
  - intros x Dx Tx Vx. apply (g_dense _ _ _ G); [done| |done]. by apply Htr.
  - intros x r' f Dx Tx Hr' Hf. destruct (g_rec _ _ _ G x Dx) as (r & Hr & _). destruct (ef_rec _ _ _ F x r Hr) as (r1 & M1 & _ & _ & _ & M4 & _ & M6 & _).
    assert (r1 = r') as -> by congruence. assert (is_node h x) as Hn.
    { unfold is_node, fn_of. rewrite Hr. unfold fn_shape in M4. rewrite Hf in M4. destruct (t_fn r); [by eexists|done]. }
    assert (~ below h t x) as Hb by (intros ?; apply Tx; by right). destruct (M6 Hb) as [E _]. eapply (g_free _ _ _ G x r f); [done|done|congruence|]. intros ?. apply Tx. by left.
  - intros x r' Dx Hr' Hg. destruct (g_rec _ _ _ G x Dx) as (r & Hr & _). destruct (ef_rec _ _ _ F x r Hr) as (r1 & M1 & _ & M2 & _ & _ & _ & _ & M3).
    assert (r1 = r') as -> by congruence. rewrite M3 by congruence. eapply (g_const _ _ _ G x r); [done|done|congruence].
  - intros x r' Dx Tx Hx Vx Hr'. apply Htr in Hx; [|done]. destruct (Hbd x) as [Hb|Hb].
    + assert (~ is_node h x) as Hn by (intros ?; apply Tx; by right). right. destruct (ef_leaf _ _ _ F x r') as (s & Hs & r1 & Hr1 & Hbuf); [by split|done|done|].
      assert (r1 = r') as -> by congruence. exists s. split; [done|]. destruct Hbuf as [?|?]; [by left|by right].
    + destruct (g_rec _ _ _ G x Dx) as (r & Hr & _). destruct (ef_rec _ _ _ F x r Hr) as (r1 & M1 & (E1 & E2 & E3) & _ & _ & _ & _ & M6 & _).
      assert (r1 = r') as -> by congruence. destruct (M6 Hb) as [_ Eg]. rewrite Eg, <- E1, <- E2. assert (~ T x) as Tx' by (intros ?; apply Tx; by left).
      destruct (g_grad _ _ _ G x r Dx Tx' Hx Vx Hr) as [?|(s & Hs & Hbuf)]; [by left|right]. exists s.
      pose proof (Hout x s Dx Tx' Vx Hs Hb) as Ho.
      split; [apply Hfwd; [by apply Hsame; [done|by eexists]|done]|]. destruct Hbuf as [Hbuf|(Hn & qs & Hbuf & Hl)]; [left|right].
      * by apply (ef_sto _ _ _ F).
      * split; [done|]. exists qs. split; [by apply (ef_sto _ _ _ F)|done].
  - intros x b Dx Cx Vx Hb. assert (clean h T x) as Cx' by (intros y Hy ?; apply (Cx y Hy); by left).
    destruct (g_view _ _ _ G x b Dx Cx' Vx Hb) as (s & S1 & S2). exists s. split.
    + apply Hfwd; [|done]. apply Hsame; [|destruct S1 as (r & _ & _ & ? & _); by eexists]. intros Hbx. apply (Cx x); [constructor|]. right.
      split; [done|]. destruct Vx as (f & ? & _). by exists f.
    + apply Hfwd; [|done]. destruct S2 as (r & g & gr & L1 & L2 & _). destruct (Hbd b) as [Hbb|Hbb]; [|by apply Hsame; [|by eexists]].
      destruct (t_fn r) as [f|] eqn:Ef.
      { destruct (Cx b); [by apply base_below|]. right. split; [done|]. exists f. unfold fn_of. by rewrite L1. }
      destruct (ef_rec _ _ _ F b r L1) as (r' & M1 & _ & _ & _ & _ & M5 & _). rewrite L1, M1. simpl. f_equal. rewrite L2. by apply M5.
  - intros x y s Dx Dy Tx Ty Vx Vy Hx Hy.
    assert (forall z, D z -> ~ (T z \/ below h t z /\ is_node h z) -> ~ is_view h z -> has_grad h' z s -> (base h t z /\ ~ is_node h z) \/ (has_grad h z s /\ outside h t s)) as Hcase.
    { intros z Dz Tz Vz Hz. assert (~ T z) as Tz' by (intros ?; apply Tz; by left). destruct (Hbd z) as [Hb|Hb].
      - left. split; [|intros ?; apply Tz; by right]. split; [done|]. split; [by eapply Hgt|done].
      - right. pose proof (Hback z s Dz Tz' Vz Hb Hz) as Hz'. split; [done|]. by apply (Hout z). }
    destruct (Hcase x Dx Tx Vx Hx) as [[Bx Nx]|[Ox1 Ox2]]; destruct (Hcase y Dy Ty Vy Hy) as [[By Ny]|[Oy1 Oy2]].
    + by apply (ef_sep _ _ _ F x y s).
    + by destruct (ef_apart _ _ _ F x s Bx Nx Hx).
    + by destruct (ef_apart _ _ _ F y s By Ny Hy).
    + apply (g_sep _ _ _ G x y s); try done; intros ?; [apply Tx|apply Ty]; by left.
  - intros x s Dx Tx Vx Hx Hs. assert (~ T x) as Tx' by (intros ?; apply Tx; by left). destruct (Hbd x) as [Hb|Hb].
    + eapply (ef_apart _ _ _ F x s); [|intros ?; apply Tx; by right|done|by apply Hgo]. split; [done|]. split; [by eapply Hgt|done].
    + by apply (g_apart _ _ _ G x s Dx Tx' Vx (Hback x s Dx Tx' Vx Hb Hx)).
Qed.
