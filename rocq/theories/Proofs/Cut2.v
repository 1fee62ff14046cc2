(** requires_grad(false) on the intermediates of a program's graph. *)
From Verif.Proofs Require Export Cut Prog8.
From Verif.Spec Require Export Cut.
From Verif.Model Require Export Exact Api.
#[local] Existing Instance Exact.
#[local] Existing Instance is_view_dec.

Section cut.
Variables (h : heap) (ys : list nat) (h1 : heap) (t : nat).
Hypothesis Hcut : cut_heap h ys h1.
Definition off (x : nat) (r : tensor) : tensor := if decide (x ∈ ys) then Ten (t_dt r) (t_lay r) (t_sto r) (t_grad r) false (t_ret r) (t_fn r) else r.
Lemma cut_ten x : h_ten h1 !! x = off x <$> h_ten h !! x.
Proof. apply Hcut. Qed.
Lemma off_same x r : t_dt (off x r) = t_dt r /\ t_lay (off x r) = t_lay r /\ t_sto (off x r) = t_sto r /\ t_grad (off x r) = t_grad r /\ t_fn (off x r) = t_fn r /\
  (t_rg (off x r) = true <-> t_rg r = true /\ x ∉ ys).
Proof. unfold off. case_decide; cbn; repeat split; try done; tauto. Qed.
Lemma cut_sto : h_sto h1 = h_sto h.
Proof. apply Hcut. Qed.
Lemma cut_fn x : fn_of h1 x = fn_of h x.
Proof. unfold fn_of. rewrite cut_ten. destruct (h_ten h !! x) as [r|]; [|done]. cbn. apply off_same. Qed.
Lemma cut_inputs x : inputs h1 x = inputs h x.
Proof. unfold inputs. by rewrite cut_fn. Qed.
Lemma cut_node x : is_node h1 x <-> is_node h x.
Proof. unfold is_node. by rewrite cut_fn. Qed.
Lemma cut_view x : is_view h1 x <-> is_view h x.
Proof. unfold is_view. by rewrite cut_fn. Qed.
Lemma cut_mean x : is_mean h1 x <-> is_mean h x.
Proof. unfold is_mean. by rewrite cut_fn. Qed.
Lemma cut_below x y : below h1 x y <-> below h x y.
Proof. split; induction 1 as [|a b _ IH Hin]; try constructor; (eapply below_in; [exact IH|]); by rewrite cut_inputs in *. Qed.
Lemma cut_lay x : lay_of h1 x = lay_of h x.
Proof. unfold lay_of. rewrite cut_ten. destruct (h_ten h !! x) as [r|]; [|done]. cbn. apply off_same. Qed.
Lemma cut_shape x : shape_of h1 x = shape_of h x.
Proof. unfold shape_of. by rewrite cut_lay. Qed.
Lemma cut_elem x r idx : elem h1 (off x r) idx = elem h r idx.
Proof. unfold elem, cells. rewrite cut_sto. destruct (off_same x r) as (_ & -> & -> & _). done. Qed.
Lemma cut_contents x r idx : contents h1 (off x r) idx = contents h r idx.
Proof. unfold contents. by rewrite cut_elem. Qed.
Lemma cut_value x idx : value h1 x idx = value h x idx.
Proof. unfold value. rewrite cut_ten. destruct (h_ten h !! x) as [r|]; [|done]. cbn. by rewrite cut_contents. Qed.
Lemma cut_grad x idx : grad_value h1 x idx = grad_value h x idx.
Proof.
  unfold grad_value. rewrite cut_ten. destruct (h_ten h !! x) as [r|]; [|done]. cbn. destruct (off_same x r) as (_ & _ & _ & -> & _).
  destruct (t_grad r); [|done]. apply cut_value.
Qed.
Lemma cut_tracked x : tracked h1 x <-> tracked h x /\ x ∉ ys.
Proof.
  unfold tracked. rewrite cut_ten. destruct (h_ten h !! x) as [r|]; cbn.
  - pose proof (off_same x r) as (_ & _ & _ & _ & _ & H). split.
    + intros (r' & E & Hg). injection E as <-. apply H in Hg as [? ?]. split; [by exists r|done].
    + intros ((r' & E & Hg) & Hx). injection E as <-. exists (off x r). split; [done|]. by apply H.
  - split; [by intros (? & ? & _)|by intros ((? & ? & _) & _)].
Qed.
Lemma cut_rule d x k ins : rule h1 d x k ins <-> rule h d x k ins.
Proof.
  assert (forall g g' : list Z -> Qc, (forall i, g i = g' i) -> forall ss, sum_over ss g = sum_over ss g') as Hs by (intros; apply sum_over_ext; auto).
  unfold rule. destruct k as [ | | | | | | | |dim|kg].
  9: { rewrite cut_shape. assert (map (fun a => nth (Z.to_nat dim) (shape_of h1 a) 0) ins = map (fun a => nth (Z.to_nat dim) (shape_of h a) 0) ins) as -> by (apply map_ext; intros; by rewrite cut_shape). done. }
  all: destruct ins as [|a [|b [|]]]; rewrite ?cut_shape, ?cut_lay; try done.
  - by setoid_rewrite cut_value.
  - by setoid_rewrite cut_value.
  - destruct (decide (shape_of h x = shape_of h a)); [by setoid_rewrite cut_value|]. by rewrite (Hs _ (fun idx => value h kg idx * d a idx)%Qc) by (intros; by rewrite cut_value).
Qed.
Lemma cut_holds x r : holds h r (contents h r) -> holds h1 (off x r) (contents h1 (off x r)).
Proof.
  intros [(cs & Hc) He]. destruct (off_same x r) as (E1 & E2 & E3 & _). split.
  - exists cs. unfold backed in *. rewrite cut_sto, E1, E2, E3. exact Hc.
  - intros idx. rewrite E1, E2, cut_elem, cut_contents. apply He.
Qed.

Hypothesis Hinv : tinv h.
Hypothesis Hgb : grad_base h t.
Hypothesis Hgr : tan_ready h t.
Hypothesis Hrt : exists r f, h_ten h !! t = Some r /\ t_fn r = Some f /\ t_rg r = true /\ t_lay r = contig (shape r) /\ size_prod (shape r) = 1 /\ ~ is_view h t.
Hypothesis Ht : t ∉ ys.
Lemma tan_zero_rules x f : below h t x -> fn_of h x = Some f -> rule h (fun _ _ => 0%Qc) x (gf_kind f) (gf_in f).
Proof.
  intros Hb Hf. apply (rule_zero h t Hinv Hgr); [done| |by apply (tr_node _ _ Hgr)].
  intros a Ha. eapply below_in; [exact Hb|]. unfold inputs. by rewrite Hf.
Qed.
Lemma some_base x : below h t x -> exists b, base_of h x b.
Proof.
  induction (lt_wf x) as [x _ IH]. intros Hb. destruct (decide (is_view h x)) as [(f & Hf & Hk)|Hv]; [|exists x; by constructor].
  pose proof (tr_node _ _ Hgr x f Hb Hf) as Hn. rewrite Hk in Hn. cbn in Hn. destruct (gf_in f) as [|c [|]] eqn:Ei; try done.
  destruct (tinv_inputs h x f Hinv Hf) as (_ & _ & _ & _ & Hin). destruct (IH c) as (b & Hcb).
  - apply Hin. rewrite Ei. apply elem_of_list_here.
  - eapply below_in; [exact Hb|]. unfold inputs. rewrite Hf, Ei. apply elem_of_list_here.
  - exists b. by eapply base_view.
Qed.
Lemma cut_inv x r' : h_ten h1 !! x = Some r' -> exists r, h_ten h !! x = Some r /\ r' = off x r.
Proof. rewrite cut_ten. destruct (h_ten h !! x) as [r|]; [|done]. intros E. injection E as <-. by exists r. Qed.
Lemma cut_root : exists r f, h_ten h1 !! t = Some r /\ t_fn r = Some f /\ t_rg r = true /\ t_lay r = contig (shape r) /\ size_prod (shape r) = 1 /\ ~ is_view h1 t.
Proof.
  destruct Hrt as (r & f & Hr & Hf & Hg & H1 & H2 & H3). exists (off t r), f. rewrite cut_ten, Hr. cbn.
  destruct (off_same t r) as (_ & E2 & _ & _ & E5 & E6). unfold shape in *. rewrite E2, E5. split_and!; try done; [by apply E6|by rewrite cut_view].
Qed.
Lemma cut_has x s : has_grad h x s -> has_grad h1 x s.
Proof.
  intros (r & g & gr & H1 & H2 & H3 & H4 & H5 & H6 & H7). exists (off x r), g, (off g gr). rewrite !cut_ten, H1, H3. cbn.
  destruct (off_same x r) as (-> & -> & _ & -> & _). destruct (off_same g gr) as (-> & -> & -> & _ & _ & E). split_and!; try done.
  destruct (t_rg (off g gr)); [|done]. by destruct E as [[? _] _]; [|congruence].
Qed.
Lemma cut_has_inv x s r : h_ten h !! x = Some r -> t_grad r = None \/ (exists s', has_grad h x s') -> has_grad h1 x s -> has_grad h x s.
Proof.
  intros Hr Hor (r' & g & gr & H1 & H2 & H3 & _ & _ & _ & H7). rewrite cut_ten, Hr in H1. injection H1 as <-. destruct (off_same x r) as (_ & _ & _ & E & _). rewrite E in H2.
  destruct Hor as [?|(s' & r1 & g1 & gr1 & G1 & G2 & G3 & G4 & G5 & G6 & G7)]; [congruence|]. assert (r1 = r) as -> by congruence. assert (g1 = g) as -> by congruence.
  apply cut_inv in H3 as (gr' & H3 & ->). assert (gr' = gr1) as -> by congruence. destruct (off_same g gr1) as (_ & _ & E' & _). rewrite E' in H7. subst s s'. by exists r, g, gr1.
Qed.
Lemma cut_data s : data_sto h1 t s <-> data_sto h t s.
Proof.
  assert (forall x r, h_ten h !! x = Some r -> exists r', h_ten h1 !! x = Some r' /\ t_sto r' = t_sto r) as K1.
  { intros x r Hr. exists (off x r). rewrite cut_ten, Hr. split; [done|]. apply off_same. }
  assert (forall x r, h_ten h1 !! x = Some r -> exists r', h_ten h !! x = Some r' /\ t_sto r' = t_sto r) as K2.
  { intros x r (r' & Hr' & ->)%cut_inv. exists r'. split; [done|]. symmetry. apply off_same. }
  split; intros [(x & r & Hb & Hr & <-)|(x & f & kg & r & Hb & Hf & Hk & Hr & <-)]; apply cut_below in Hb || (apply <- cut_below in Hb);
    (destruct (K2 _ _ Hr) as (r' & Hr' & <-) || destruct (K1 _ _ Hr) as (r' & Hr' & <-)); [left|right|left|right]; try (by exists x, r');
    exists x, f, kg, r'; rewrite ?cut_fn in *; done.
Qed.
Lemma cut_base x b : base_of h1 x b -> base_of h x b.
Proof. induction 1 as [x Hx|x f a b Hf Hk Hi _ IH]; [constructor; by rewrite cut_view in Hx|]. rewrite cut_fn in Hf. by eapply base_view. Qed.
Hypothesis Hfit : cut_fits h1 t.
Lemma cut_window x f : below h1 t x -> fn_of h1 x = Some f -> open h1 t x \/ is_view h1 x /\ tracked h1 x -> node_ok h1 t x (gf_kind f) (gf_in f).
Proof.
  intros Hb%cut_below Hf Hor. pose proof (Hfit x f (proj2 (cut_below t x) Hb) Hf) as Hin. rewrite cut_fn in Hf. pose proof (tr_node _ _ Hgr x f Hb Hf) as Hn.
  assert (gf_kind f = NoBack \/ gf_kind f = DivBack -> forall a, a ∈ gf_in f -> tracked h1 a) as Hin'.
  { intros Hk. apply Hin. destruct Hor as [Ho|((f' & Hf' & Hk') & Tx)].
    - destruct Hk as [Hk|Hk]; [left|by right]. split; [done|]. destruct (decide (x = t)) as [->|Hne].
      + destruct cut_root as (r & f' & Hr & _ & Hg & _). by exists r.
      + destruct Ho as (_ & _ & Ho). destruct (Ho x) as (r & f' & Hr & _ & Hg & _); [by rewrite cut_below|constructor|done|by exists r].
    - rewrite cut_fn in Hf'. assert (f' = f) as -> by congruence. left. done. }
  clear Hin Hor. unfold node_ok in *. destruct (gf_kind f) as [ | | | | | | | |dim|kg].
  9: { destruct Hn as (a0 & ins' & H1 & H2 & H3 & H4). exists a0, ins'. rewrite !cut_shape, cut_lay. split; [done|]. split; [done|]. split.
       - eapply Forall_impl; [exact H3|]. intros a Ha. cbn beta. by rewrite cut_shape.
       - rewrite H4. do 2 f_equal. f_equal. apply map_ext. intros; by rewrite cut_shape. }
  all: destruct (gf_in f) as [|a [|b [|]]]; try done; rewrite ?cut_shape, ?cut_lay; try done.
  - destruct Hn as (H1 & H2 & H3 & H4 & _ & _ & H7). split_and!; try done; [apply Hin'; [auto|set_solver]..|]. intros idx Hi. rewrite !cut_value. by apply H7.
  - destruct Hn as [_ Hn]. split; [apply Hin'; [auto|set_solver]|]. intros idx Hi. by apply Hn.
  - destruct Hn as ((r & Hr & Hh) & H2). split; [|done]. exists (off kg r). rewrite cut_ten, Hr. split; [done|]. by apply cut_holds.
Qed.
Lemma cut_ready : grad_base h1 t.
Proof.
  assert (forall x r, below h t x -> x <> t -> tracked h x -> ~ is_view h x -> h_ten h !! x = Some r -> t_grad r = None \/ exists s, has_grad h x s) as Hg0.
  { intros x r Hb Hne Tx Hv Hr. destruct (gb_grad _ _ Hgb x r Hb Hne Tx Hv Hr) as [?|(s & ? & _)]; [by left|right; by exists s]. }
  assert (forall x s, below h t x -> x <> t -> tracked h x -> has_grad h1 x s -> has_grad h x s) as Hg1.
  { intros x s Hb Hne Tx Hs. pose proof Tx as (r & Hr & _). eapply cut_has_inv; [exact Hr| |exact Hs].
    destruct (decide (is_view h x)) as [Hv|Hv]; [|by eapply Hg0]. right.
    destruct (some_base x Hb) as (b & Hbs).
    destruct (gb_view _ _ Hgb x b Hb Hne Tx Hv Hbs) as (s' & ? & _). by exists s'. }
  split.
  - destruct cut_root as (r & f & ? & ? & ? & _). by exists r, f.
  - intros x r' Hb%cut_below (r & Hr & ->)%cut_inv. destruct (gb_data _ _ Hgb x r Hb Hr) as [Hh Hs]. split; [by apply cut_holds|]. destruct (off_same x r) as (-> & E & _). unfold shape. by rewrite E.
  - intros x f kg rk' Hb%cut_below Hf Hk (rk & Hrk & ->)%cut_inv. rewrite cut_fn in Hf. apply cut_holds. eapply (gb_slope h t Hgb); eassumption.
  - intros x f Hb Tx Hf Hk. apply cut_window; [done..|]. right. split; [by exists f|done].
  - intros x Hb%cut_below [Tx _]%cut_tracked Hv. rewrite cut_lay, cut_shape. apply (gb_dense _ _ Hgb); [done|done|]. by rewrite cut_view in Hv.
  - intros x r' Hb%cut_below Hne [Tx _]%cut_tracked Hv (r & Hr & ->)%cut_inv. rewrite cut_view in Hv. destruct (off_same x r) as (-> & -> & _ & -> & _).
    destruct (gb_grad _ _ Hgb x r Hb Hne Tx Hv Hr) as [?|(s & Hs & Hor)]; [by left|right]. exists s. split; [by apply cut_has|].
    unfold raw_buffer, num_buffer in *. rewrite cut_sto, cut_node. done.
  - intros x b Hb%cut_below Hne Tx Hv Hbase%cut_base. rewrite cut_view in Hv. apply cut_tracked in Tx as [Tx _]. destruct (gb_view _ _ Hgb x b Hb Hne Tx Hv Hbase) as (s & ? & ?). exists s. split; by apply cut_has.
  - intros x y s Hx%cut_below Hy%cut_below Nx Ny Vx Vy [Tx _]%cut_tracked [Ty _]%cut_tracked Gx%Hg1 Gy%Hg1; try done. rewrite cut_view in Vx, Vy. by eapply (gb_sep _ _ Hgb).
  - intros x s Hx%cut_below Nx [Tx _]%cut_tracked Gx%Hg1; try done. rewrite cut_data. by eapply (gb_apart _ _ Hgb).
Qed.
End cut.
