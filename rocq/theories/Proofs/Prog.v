(** What every program that makes only the calls of Spec/Program.v keeps true of its tensors
    and their gradients. *)
From Verif.Proofs Require Export Grad.
From Verif.Spec Require Export Program.
From Verif.Model Require Export Exact Api.
#[local] Existing Instance Exact.

(** ** tensors whose data stay *)
Definition kept (h h' : heap) (y : nat) : Prop :=
  exists r r', h_ten h !! y = Some r /\ h_ten h' !! y = Some r' /\ same_data r r' /\ (t_rg r = true -> t_rg r' = true) /\
    h_sto h' !! t_sto r = h_sto h !! t_sto r.
Lemma kept_lay h h' y : kept h h' y -> lay_of h' y = lay_of h y.
Proof. intros (r & r' & H1 & H2 & (_ & H3 & _) & _). unfold lay_of. by rewrite H1, H2. Qed.
Lemma kept_shape h h' y : kept h h' y -> shape_of h' y = shape_of h y.
Proof. intros H. unfold shape_of. by rewrite (kept_lay h h' y H). Qed.
Lemma kept_elem h h' r r' idx : same_data r r' -> h_sto h' !! t_sto r = h_sto h !! t_sto r -> elem h' r' idx = elem h r idx.
Proof. intros (D1 & D2 & D3) E. unfold elem, cells. by rewrite <- D3, E, <- D2. Qed.
Lemma kept_value h h' y idx : kept h h' y -> value h' y idx = value h y idx.
Proof.
  intros (r & r' & H1 & H2 & D & _ & E). unfold value, contents. rewrite H1, H2. by rewrite (kept_elem h h' r r' idx D E).
Qed.
Lemma kept_holds h h' y r r' : h_ten h !! y = Some r -> h_ten h' !! y = Some r' -> kept h h' y ->
  holds h r (contents h r) -> holds h' r' (contents h' r').
Proof.
  intros Hr Hr' (r1 & r1' & H1 & H2 & D & _ & E). assert (r1 = r) as -> by congruence. assert (r1' = r') as -> by congruence.
  pose proof D as (D1 & D2 & D3). intros [(cs & (b & Hb) & B2 & B3 & B4) He]. split.
  - exists cs. split; [exists b; rewrite <- D3, E; by rewrite <- D1|]. by rewrite <- D2.
  - rewrite <- D2. intros idx Hi. unfold contents. rewrite (kept_elem h h' r r' idx D E). destruct (He idx Hi) as [He1 He2]. split; [exact He1|].
    unfold contents in He2. by rewrite <- D1.
Qed.
Lemma kept_tracked h h' y : kept h h' y -> tracked h y -> tracked h' y.
Proof. intros (r & r' & H1 & H2 & _ & Hg & _) (r1 & H3 & H4). exists r'. split; [done|]. apply Hg. congruence. Qed.

(** ** what is known of a node *)
Definition node_fact (h : heap) (x : nat) (k : bkind) (ins : list nat) : Prop :=
  node_ok h x x k ins /\ computes h (value h) x k ins /\
  (forall kg a, k = KnownGradBack kg -> ins = [a] ->
     shape_of h x = shape_of h a /\ (forall idx, in_range (shape_of h a) idx -> value h kg idx = qsign (value h a idx)) \/
     shape_of h x <> shape_of h a /\ exists best, in_range (shape_of h a) best /\ value h a best = value h x [] /\
       forall idx, in_range (shape_of h a) idx -> value h kg idx = if decide (idx = best) then 1%Qc else 0%Qc).
Ltac mem := repeat first [assumption | apply elem_of_list_here | apply elem_of_list_further].
Lemma node_fact_kept h h' x k ins : (forall y, y ∈ x :: ins ++ kg_of k -> kept h h' y) -> node_fact h x k ins -> node_fact h' x k ins.
Proof.
  intros K. assert (forall y, y ∈ x :: ins -> kept h h' y) as K' by (intros y Hy; apply K; rewrite app_comm_cons; apply elem_of_app; by left).
  assert (forall y, y ∈ x :: ins -> lay_of h' y = lay_of h y) as L. { intros y Hy. apply kept_lay, K'; done. }
  assert (forall y, y ∈ x :: ins -> shape_of h' y = shape_of h y) as S. { intros y Hy. apply kept_shape, K'; done. }
  assert (forall y, y ∈ x :: ins -> tracked h y -> tracked h' y) as G. { intros y Hy. apply kept_tracked, K'; done. }
  assert (forall y idx, y ∈ x :: ins -> value h' y idx = value h y idx) as V. { intros y idx Hy. apply kept_value, K'; done. }
  assert (forall kg, k = KnownGradBack kg -> kept h h' kg) as Kg. { intros kg ->. apply K. rewrite app_comm_cons. apply elem_of_app. right. apply elem_of_list_here. }
  assert (forall (f : list Z -> nat -> Z), (forall y, y ∈ ins -> f (shape_of h' y) y = f (shape_of h y) y) ->
    map (fun a => f (shape_of h' a) a) ins = map (fun a => f (shape_of h a) a) ins) as Hmap.
  { intros f Hf. clear - Hf. induction ins as [|a l IH]; [done|]. simpl. rewrite Hf by mem. rewrite IH; [done|]. intros y Hy. apply Hf. mem. }
  intros (H1 & H2 & H3). split; [|split].
  - unfold node_ok in *. destruct k.
    + destruct ins as [|a [|b [|]]]; try done. rewrite !S by mem. done.
    + destruct ins as [|a [|b [|]]]; try done. rewrite !S by mem. done.
    + destruct ins as [|a [|b [|]]]; try done. rewrite !S by mem. done.
    + destruct ins as [|a [|b [|]]]; try done. rewrite !S by mem. destruct H1 as (A1 & A2 & A3 & A4 & A5 & A6 & A7).
      split_and!; try done; try (apply G; [mem|done]). intros idx Hi. rewrite !V by mem. by apply A7.
    + destruct ins as [|a [|]]; try done. rewrite !S by mem. done.
    + destruct ins as [|a [|]]; try done. rewrite !S by mem. done.
    + destruct ins as [|a [|]]; try done. rewrite !S, !L by mem. destruct H1 as [A1 A2]. split; [apply G; [mem|done]|done].
    + destruct ins as [|a [|]]; try done. rewrite !S by mem. done.
    + destruct H1 as (a0 & ins' & E & A1 & A2 & A3). exists a0, ins'. split; [done|]. subst ins. rewrite (S a0) by mem. split; [done|]. split.
      * rewrite Forall_forall in *. intros y Hy. rewrite S by mem. by apply A2.
      * rewrite L by mem. rewrite A3. do 2 f_equal. f_equal. symmetry. apply (Hmap (fun s _ => nth (Z.to_nat dim) s 0)).
        intros y Hy. by rewrite S by mem.
    + destruct ins as [|a [|]]; try done. rewrite (S x), (S a) by mem. rewrite (kept_shape h h' grad (Kg grad eq_refl)).
      destruct H1 as ((r & A1 & A2) & A3 & A4). split; [|done]. pose proof (Kg grad eq_refl) as Hk. pose proof Hk as (r1 & r' & E1 & E2 & _).
      assert (r1 = r) as -> by congruence. exists r'. split; [done|]. eapply (kept_holds h h' grad r r'); eauto.
  - unfold computes in *. destruct k.
    + destruct ins as [|a [|b [|]]]; try done. rewrite !S by mem. intros idx Hi. rewrite !V by mem. by apply H2.
    + destruct ins as [|a [|b [|]]]; try done. rewrite !S by mem. intros idx Hi. rewrite !V by mem. by apply H2.
    + destruct ins as [|a [|b [|]]]; try done. rewrite !S by mem. intros idx Hi. rewrite !V by mem. by apply H2.
    + destruct ins as [|a [|b [|]]]; try done. rewrite !S by mem. intros idx Hi. rewrite !V by mem. by apply H2.
    + destruct ins as [|a [|]]; try done. rewrite !S by mem. rewrite V by mem. rewrite H2. apply sumq_ext.
      intros idx _. symmetry. apply V. mem.
    + destruct ins as [|a [|]]; try done. rewrite !S by mem. rewrite V by mem. rewrite H2. f_equal. apply sumq_ext.
      intros idx _. symmetry. apply V. mem.
    + destruct ins as [|a [|]]; try done. rewrite !S, !L by mem. intros idx idx' Hi Hi' E. rewrite !V by mem. by apply H2.
    + destruct ins as [|a [|]]; try done. rewrite !S by mem. intros idx Hi. rewrite !V by mem. by apply H2.
    + intros idx Hi. rewrite S in Hi by mem. specialize (H2 idx Hi). cbv zeta in *.
      rewrite (Hmap (fun s _ => nth (Z.to_nat dim) s 0)) by (intros y Hy; by rewrite S by mem).
      destruct (owner _ _) as [i j]. destruct (ins !! i) as [a|] eqn:Ea; [|done]. apply elem_of_list_lookup_2 in Ea. by rewrite !V by mem.
    + destruct ins as [|a [|]]; try done. rewrite !S by mem. destruct H2 as [[A1 A2]|(A1 & A2 & A3)]; [left|right].
      * split; [done|]. intros idx Hi. rewrite !V by mem. by apply A2.
      * split; [done|]. split; [done|].
        assert (forall idx, value h' a idx = value h a idx) as Va by (intros idx; apply V; mem).
        rewrite (decide_ext _ (Forall (fun idx => (value h a idx <= value h x [])%Qc) (indices (shape_of h a)))).
        2:{ rewrite !Forall_forall. rewrite V by mem. setoid_rewrite Va. done. }
        rewrite V by mem. unfold greatest, least in *. case_decide; setoid_rewrite Va; done.
  - intros kg a -> ->. rewrite !S by mem. destruct (H3 kg a eq_refl eq_refl) as [[A1 A2]|(A1 & best & A2 & A3 & A4)]; [left|right].
    + split; [done|]. intros idx Hi. rewrite (kept_value h h' kg idx (Kg kg eq_refl)). rewrite V by mem. by apply A2.
    + split; [done|]. exists best. rewrite !V by mem. split; [done|]. split; [done|]. intros idx Hi.
      rewrite (kept_value h h' kg idx (Kg kg eq_refl)). by apply A4.
Qed.

(** ** the invariant *)
(** no backward has passed through anything [x] was computed from *)
Definition clean (h : heap) (T : nat -> Prop) (x : nat) : Prop := forall y, below h x y -> ~ T y.
Definition gdata (h : heap) (D : nat -> Prop) (s : nat) : Prop :=
  exists x r, (D x \/ exists y f, D y /\ fn_of h y = Some f /\ x ∈ kg_of (gf_kind f)) /\ h_ten h !! x = Some r /\ t_sto r = s.
(** [D] are the tensors that programs hold or have computed with, [T] the nodes that a
    backward has passed through *)
Record GI (D T : nat -> Prop) (h : heap) : Prop := MkGI {
  g_sub : forall x, T x -> D x /\ is_node h x;
  g_rec : forall x, D x -> exists r, h_ten h !! x = Some r /\ holds h r (contents h r) /\ fits (t_dt r) (shape r) /\ lay_inj (t_lay r);
  g_in : forall x y, D x -> y ∈ inputs h x -> D y;
  g_node : forall x f, D x -> fn_of h x = Some f -> node_fact h x (gf_kind f) (gf_in f);
  g_dense : forall x, D x -> tracked h x -> ~ is_view h x -> dense (lay_of h x);
  g_free : forall x r f, D x -> h_ten h !! x = Some r -> t_fn r = Some f -> t_rg r = true /\ (~ T x -> gf_acc f = 0);
  g_const : forall x r, D x -> h_ten h !! x = Some r -> t_rg r = false -> t_fn r = None /\ t_grad r = None;
  g_grad : forall x r, D x -> ~ T x -> tracked h x -> ~ is_view h x -> h_ten h !! x = Some r -> t_grad r = None \/
    exists s, has_grad h x s /\ (raw_buffer h s (t_dt r) (t_lay r) \/ ~ is_node h x /\ exists qs, num_buffer h s (t_dt r) (t_lay r) qs);
  g_view : forall x b, D x -> clean h T x -> is_view h x -> base_of h x b -> exists s, has_grad h x s /\ has_grad h b s;
  g_sep : forall x y s, D x -> D y -> ~ T x -> ~ T y -> ~ is_view h x -> ~ is_view h y -> has_grad h x s -> has_grad h y s -> x = y;
  g_apart : forall x s, D x -> ~ T x -> ~ is_view h x -> has_grad h x s -> ~ gdata h D s
}.

Lemma GI_start : GI (fun _ => False) (fun _ => False) empty_heap.
Proof. by split. Qed.
Lemma below_D (D : nat -> Prop) h t x : (forall x y, D x -> y ∈ inputs h x -> D y) -> D t -> below h t x -> D x.
Proof. intros Hin Ht H. induction H; [done|]. by eapply Hin. Qed.
Lemma below_same (D : nat -> Prop) h h' t x : (forall x y, D x -> y ∈ inputs h x -> D y) -> (forall x, D x -> inputs h' x = inputs h x) -> D t ->
  below h' t x <-> below h t x.
Proof.
  intros Hin E Ht. split; intros H.
  - assert (below h t x /\ D x) as [? _]; [|done]. induction H as [|x y H [IH1 IH2] Hy]; [split; [constructor|done]|].
    rewrite E in Hy by done. split; [by eapply below_in|by eapply Hin].
  - assert (below h' t x /\ D x) as [? _]; [|done]. induction H as [|x y H [IH1 IH2] Hy]; [split; [constructor|done]|].
    split; [|by eapply Hin]. eapply below_in; [done|]. by rewrite E.
Qed.
Lemma base_D (D : nat -> Prop) h x b : (forall x y, D x -> y ∈ inputs h x -> D y) -> D x -> base_of h x b -> D b.
Proof.
  intros Hin Hx H. induction H as [|x f a b Hf Hk Hi H IH]; [done|]. apply IH. eapply Hin; [done|]. unfold inputs. rewrite Hf, Hi. apply elem_of_list_here.
Qed.
Lemma base_below h x b : base_of h x b -> below h x b.
Proof.
  intros H. induction H as [|x f a b Hf Hk Hi H IH]; [constructor|].
  assert (below h x a) as Ha. { eapply below_in; [constructor|]. unfold inputs. rewrite Hf, Hi. apply elem_of_list_here. }
  clear - Ha IH. induction IH; [done|]. by eapply below_in.
Qed.

Lemma view_base h x : tinv h -> (forall y f, below h x y -> fn_of h y = Some f -> node_fact h y (gf_kind f) (gf_in f)) -> tracked h x ->
  exists b, base_of h x b /\ tracked h b.
Proof.
  intros Hinv. induction (lt_wf x) as [x _ IH]. intros Hn Hx. destruct (is_view_dec h x) as [Hv|Hv]; [|exists x; split; [by constructor|done]].
  destruct Hv as (f & Hf & Hk). destruct (tinv_inputs h x f Hinv Hf) as (r & Hr & Hf' & Hfit & Hin).
  destruct (Hn x f ltac:(constructor) Hf) as (Hno & _). rewrite Hk in Hno. destruct (gf_in f) as [|c [|]] eqn:Ei; try done. destruct Hno as [Tc _].
  assert (c < x)%nat as Hlt by (apply Hin; apply elem_of_list_here).
  destruct (IH c Hlt) as (b & Hb & Tb); [|done|exists b; split; [by eapply base_view|done]].
  intros y g Hy. apply Hn. clear - Hy Hf Ei. induction Hy; [|by eapply below_in]. eapply below_in; [constructor|].
  unfold inputs. rewrite Hf, Ei. apply elem_of_list_here.
Qed.
(** ** what backward() asks for *)
Lemma GI_ready D T h H t : tinv h -> GI D T h -> (forall x, x ∈ H -> D x) -> may_start h H T t -> grad_ready h t.
Proof.
  intros Hinv G HD [M1 M2 M3 M4 M5 M6].
  assert (forall x, below h t x -> D x) as B by (intros x; apply below_D; [apply (g_in _ _ _ G)|by apply HD]).
  assert (forall x, below h t x -> forall y, below h x y -> below h t y) as Btr.
  { intros x Hx y Hy. induction Hy; [done|]. by eapply below_in. }
  assert (forall x, below h t x -> is_view h x -> forall y, below h x y -> y <> t) as Bne.
  { intros x Hx Vx y Hy ->. pose proof (below_le h t Hinv _ Hx). pose proof (below_le h x Hinv _ Hy). assert (x = t) as -> by lia. done. }
  assert (forall x s, below h t x -> x <> t -> tracked h x -> has_grad h x s -> ~ is_view h x -> ~ data_sto h t s) as Hap.
  { intros x s Hx Nx Tx Hs Hv Hd. apply (g_apart _ _ _ G x s (B x Hx) (M6 x Hx Nx) Hv Hs). destruct Hd as [(y & r & Hy & Hr & E)|(y & f & kg & r & Hy & Hf & Hk & Hr & E)].
    - exists y, r. split; [left; by apply B|done].
    - exists kg, r. split; [right; exists y, f; split; [by apply B|]; split; [done|]; rewrite Hk; apply elem_of_list_here|done]. }
  split.
  - destruct M2 as [f Hf]. unfold fn_of in Hf. destruct (h_ten h !! t) as [r|] eqn:Er; [|done]. exists r, f. split; [done|]. split; [done|].
    destruct (g_free _ _ _ G t r f (HD t M1) Er Hf) as [Hg _]. split; [done|]. unfold lay_of, shape_of in *. unfold lay_of in *. rewrite Er in *. done.
  - intros x r f Hx Hr Hf. destruct (g_free _ _ _ G x r f (B x Hx) Hr Hf) as [? Ht]. split; [done|]. intros Nx. by apply Ht, M6.
  - intros x r Hx Hr. destruct (g_rec _ _ _ G x (B x Hx)) as (r' & Hr' & Hh & Hf & _). assert (r' = r) as -> by congruence. done.
  - intros x f Hx Hf. destruct (g_node _ _ _ G x f (B x Hx) Hf) as (Hn & _). exact Hn.
  - intros x Hx Tx Hv. by apply (g_dense _ _ _ G x (B x Hx)).
  - intros x r Hx Nx Tx Hv Hr. by apply (g_grad _ _ _ G x r (B x Hx) (M6 x Hx Nx)).
  - intros x b Hx Hv Hb. apply (g_view _ _ _ G x b (B x Hx)); [|done|done]. intros y Hy. apply (M6 y (Btr x Hx y Hy)). exact (Bne x Hx Hv y Hy).
  - intros x y s Hx Hy Nx Ny Vx Vy Tx Ty. apply (g_sep _ _ _ G x y s (B x Hx) (B y Hy) (M6 x Hx Nx) (M6 y Hy Ny) Vx Vy).
  - intros x s Hx Nx Tx Hs. destruct (is_view_dec h x) as [Hv|Hv]; [|by apply (Hap x s)].
    destruct (view_base h x Hinv) as (b & Hb & Tb); [intros y f Hy; apply (g_node _ _ _ G), B; by eapply Btr|done|].
    assert (below h t b) as Bb by (eapply Btr; [done|by apply base_below]).
    destruct (g_view _ _ _ G x b (B x Hx)) as (s' & S1 & S2); [intros y Hy; apply (M6 y (Btr x Hx y Hy)); exact (Bne x Hx Hv y Hy)|done|done|].
    rewrite (has_grad_fun h x s s' Hs S1). apply (Hap b s' Bb (Bne x Hx Hv b (base_below _ _ _ Hb)) Tb S2). by eapply base_not_view.
Qed.
Lemma GI_core D T h H t : tinv h -> GI D T h -> (forall x, x ∈ H -> D x) -> may_start_view h H T t -> grad_core h t.
Proof.
  intros Hinv G HD [M1 M2 M4 M6].
  assert (forall x, below h t x -> D x) as B by (intros x; apply below_D; [apply (g_in _ _ _ G)|by apply HD]).
  assert (forall x, below h t x -> forall y, below h x y -> below h t y) as Btr.
  { intros x Hx y Hy. induction Hy; [done|]. by eapply below_in. }
  assert (forall x, below h t x -> x <> t -> forall y, below h x y -> y <> t) as Bne.
  { intros x Hx Vx y Hy ->. apply Vx. pose proof (below_le h t Hinv _ Hx). pose proof (below_le h x Hinv _ Hy). lia. }
  assert (forall x s, below h t x -> x <> t -> tracked h x -> has_grad h x s -> ~ is_view h x -> ~ data_sto h t s) as Hap.
  { intros x s Hx Nx Tx Hs Hv Hd. apply (g_apart _ _ _ G x s (B x Hx) (M6 x Hx Nx) Hv Hs). destruct Hd as [(y & r & Hy & Hr & E)|(y & f & kg & r & Hy & Hf & Hk & Hr & E)].
    - exists y, r. split; [left; by apply B|done].
    - exists kg, r. split; [right; exists y, f; split; [by apply B|]; split; [done|]; rewrite Hk; apply elem_of_list_here|done]. }
  split.
  - destruct M2 as (f & Hf & _). unfold fn_of in Hf. destruct (h_ten h !! t) as [r|] eqn:Er; [|done]. exists r, f. split; [done|]. split; [done|].
    destruct (g_free _ _ _ G t r f (HD t M1) Er Hf) as [Hg _]. done.
  - intros x r f Hx Hr Hf. destruct (g_free _ _ _ G x r f (B x Hx) Hr Hf) as [? Ht]. split; [done|]. intros Nx. by apply Ht, M6.
  - intros x r Hx Hr. destruct (g_rec _ _ _ G x (B x Hx)) as (r' & Hr' & Hh & Hf & _). assert (r' = r) as -> by congruence. done.
  - intros x f Hx Hf. destruct (g_node _ _ _ G x f (B x Hx) Hf) as (Hn & _). exact Hn.
  - intros x Hx Tx Hv. by apply (g_dense _ _ _ G x (B x Hx)).
  - intros x r Hx Nx Tx Hv Hr. by apply (g_grad _ _ _ G x r (B x Hx) (M6 x Hx Nx)).
  - intros x b Hx Nx Hv Hb. apply (g_view _ _ _ G x b (B x Hx)); [|done|done]. intros y Hy. apply (M6 y (Btr x Hx y Hy)). exact (Bne x Hx Nx y Hy).
  - intros x y s Hx Hy Nx Ny Vx Vy Tx Ty. apply (g_sep _ _ _ G x y s (B x Hx) (B y Hy) (M6 x Hx Nx) (M6 y Hy Ny) Vx Vy).
  - intros x s Hx Nx Tx Hs. destruct (is_view_dec h x) as [Hv|Hv]; [|by apply (Hap x s)].
    destruct (view_base h x Hinv) as (b & Hb & Tb); [intros y f Hy; apply (g_node _ _ _ G), B; by eapply Btr|done|].
    assert (below h t b) as Bb by (eapply Btr; [done|by apply base_below]).
    destruct (g_view _ _ _ G x b (B x Hx)) as (s' & S1 & S2); [intros y Hy; apply (M6 y (Btr x Hx y Hy)); exact (Bne x Hx Nx y Hy)|done|done|].
    rewrite (has_grad_fun h x s s' Hs S1). apply (Hap b s' Bb (Bne x Hx Nx b (base_below _ _ _ Hb)) Tb S2). by eapply base_not_view.
Qed.
