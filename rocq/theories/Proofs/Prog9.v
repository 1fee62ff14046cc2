(** What backward() adds is the derivative of the computation, as a limit. *)
From Verif.Proofs Require Export Prog8 Calculus.
From Verif.Spec Require Export Slope.
From Verif.Model Require Export Exact Api.
#[local] Existing Instance Exact.
#[local] Existing Instance is_view_dec.
Open Scope Z_scope.

Section perturb.
Variables (h : heap) (t : nat).
Hypothesis Hinv : tinv h.
Hypothesis Hgr : grad_ready h t.
Hypothesis Hnf : forall x f, below h t x -> fn_of h x = Some f -> node_fact h x (gf_kind f) (gf_in f).

(** ** the values can be computed anew *)
Definition recompute (v : nat -> list Z -> Qc) (x : nat) (k : bkind) (ins : list nat) (idx : list Z) : Qc :=
  let S := shape_of h in
  match k, ins with
  | AddBack, [a; b] => (v a (bidx (S a) idx) + v b (bidx (S b) idx))%Qc
  | SubBack, [a; b] => (v a (bidx (S a) idx) - v b (bidx (S b) idx))%Qc
  | MulBack, [a; b] => (v a (bidx (S a) idx) * v b (bidx (S b) idx))%Qc
  | DivBack, [a; b] => (v a (bidx (S a) idx) / v b (bidx (S b) idx))%Qc
  | SumBack, [a] => sum_over (S a) (v a)
  | MeanBack, [a] => (sum_over (S a) (v a) / qc_of_Z (size_prod (S a)))%Qc
  | CloneBack, [a] => v a idx
  | NoBack, [a] => match list_find (fun i => pos (lay_of h x) idx = pos (lay_of h a) i) (indices (S a)) with Some (_, i) => v a i | None => 0%Qc end
  | CatBack dim, _ =>
      let dm := Z.to_nat dim in
      let '(k, j) := owner (map (fun a => nth dm (S a) 0) ins) (nth dm idx 0) in
      match ins !! k with Some a => v a (<[dm := j]> idx) | None => 0%Qc end
  | KnownGradBack kg, [a] =>
      if decide (S x = S a) then qabs (v a idx)
      else best_of (bool_decide (Forall (fun idx => (value h a idx <= value h x [])%Qc) (indices (S a)))) (map (v a) (indices (S a)))
  | _, _ => 0%Qc
  end.
Lemma recompute_ext v v' x k ins idx : (forall a, a ∈ ins -> forall i, v a i = v' a i) -> recompute v x k ins idx = recompute v' x k ins idx.
Proof.
  intros H. unfold recompute. destruct k as [ | | | | | | | |dim|kg].
  9: { destruct (owner _ _) as [k j]. destruct (ins !! k) as [a|] eqn:Ea; [|done]. apply H. by eapply elem_of_list_lookup_2. }
  all: destruct ins as [|a [|b [|]]]; try done; assert (forall i, v a i = v' a i) as Ha by (apply H; mem).
  1-4: assert (forall i, v b i = v' b i) as Hb by (apply H; mem); by rewrite ?Ha, ?Hb.
  1,2: by rewrite (sum_over_ext _ (v a) (v' a)) by done.
  - by destruct (list_find _ _) as [[? ?]|].
  - done.
  - rewrite Ha. case_decide; [done|]. f_equal. apply map_ext. done.
Qed.
Lemma recompute_ok v x k ins : below h t x -> (forall a, a ∈ ins -> below h t a) -> node_ok h t x k ins -> computes h (value h) x k ins ->
  (k = NoBack -> forall a i j, ins = [a] -> in_range (shape_of h a) i -> in_range (shape_of h a) j -> pos (lay_of h a) i = pos (lay_of h a) j -> v a i = v a j) ->
  (forall idx, v x idx = recompute v x k ins idx) -> computes h v x k ins.
Proof.
  intros Hx Hins Hn Hc Hv Hd. destruct k as [ | | | | | | | |dim|kg].
  9: { intros idx Hi dm. destruct (cat_in_range h t Hgr x dim ins idx Hx Hins Hn Hi) as (k & j & a & Eo & Ea & _). fold dm in Eo. rewrite Eo, Ea, Hd. unfold recompute. fold dm. by rewrite Eo, Ea. }
  all: destruct ins as [|a [|b [|]]]; try (by destruct Hn); unfold computes; try (intros idx Hi; rewrite Hd; done); try (by rewrite Hd).
  - intros idx idx' Hi Hi' E. rewrite Hd. unfold recompute.
    destruct (list_find _ _) as [[m i]|] eqn:Ef.
    + apply list_find_Some in Ef as (E1 & E2 & _). apply elem_of_list_lookup_2, elem_of_indices in E1. apply (Hv eq_refl a i idx' eq_refl); [done..|congruence].
    + exfalso. apply list_find_None in Ef. rewrite Forall_forall in Ef. apply (Ef idx'); [by apply elem_of_indices|done].
  - cbn [computes] in Hc. destruct Hc as [[Hc _]|(Hc1 & Hc2 & Hc)]; [left|right].
    + split; [done|]. intros idx Hi. rewrite Hd. unfold recompute. by rewrite decide_True.
    + split; [done|]. split; [done|]. rewrite Hd. unfold recompute. rewrite (decide_False (P := shape_of h x = shape_of h a)) by congruence.
      assert (indices (shape_of h a) <> []) as Hne.
      { assert (exists i, in_range (shape_of h a) i) as [i Hi%elem_of_indices]. { case_decide; destruct Hc as [(i & Hi & _) _]; by exists i. }
        intros E. rewrite E in Hi. by apply elem_of_nil in Hi. }
      destruct (best_greatest _ (v a) Hne) as [K1 K2]. case_decide as Hdd; [by rewrite bool_decide_eq_true_2|by rewrite bool_decide_eq_false_2].
Qed.
Lemma computes_unique v v' x k ins : below h t x -> (forall a, a ∈ ins -> below h t a) -> node_ok h t x k ins ->
  (forall a i, a ∈ ins -> in_range (shape_of h a) i -> v a i = v' a i) -> computes h v x k ins -> computes h v' x k ins ->
  forall idx, in_range (shape_of h x) idx -> v x idx = v' x idx.
Proof.
  intros Hx Hins Hn Ha Hr Hr' idx Hi. destruct k as [ | | | | | | | |dim|kg].
  9: { destruct (cat_in_range h t Hgr x dim ins idx Hx Hins Hn Hi) as (k & j & a & Eo & Ea & Hin). specialize (Hr idx Hi). specialize (Hr' idx Hi). cbv zeta in Hr, Hr'.
       rewrite Eo, Ea in Hr, Hr'. rewrite Hr, Hr'. apply Ha; [by eapply elem_of_list_lookup_2|done]. }
  all: destruct ins as [|a [|b [|]]]; try (by destruct Hn); pose proof (fun i => Ha a i ltac:(mem)) as H1; try pose proof (fun i => Ha b i ltac:(mem)) as H2.
  all: try (unfold computes in Hr, Hr'; rewrite Hr, Hr' by done; destruct Hn as (Es & Hc & _); rewrite Es in Hi;
    rewrite H1 by (by eapply bidx_in_l); rewrite H2 by (by eapply bidx_in_r); done).
  all: cbn [computes] in Hr, Hr'.
  - assert (idx = []) as -> by (rewrite Hn in Hi; by apply in_range_nil_inv in Hi). rewrite Hr, Hr'. by apply sum_over_ext.
  - assert (idx = []) as -> by (rewrite Hn in Hi; by apply in_range_nil_inv in Hi). rewrite Hr, Hr'. f_equal. by apply sum_over_ext.
  - destruct Hn as [_ Hn]. destruct (Hn idx Hi) as (i & Hi' & E). rewrite (Hr idx i), (Hr' idx i) by done. by apply H1.
  - rewrite Hr, Hr' by done. apply H1. by rewrite <- Hn.
  - destruct Hr as [[Es Hr]|(Es & Hne & Hr)], Hr' as [[Es' Hr']|(Es' & Hne' & Hr')]; try congruence.
    + rewrite Hr, Hr' by done. f_equal. apply H1. by rewrite <- Es.
    + rewrite Es in Hi. apply in_range_nil_inv in Hi as ->. case_decide.
      * eapply greatest_unique; [|exact Hr']. by eapply greatest_ext.
      * eapply least_unique; [|exact Hr']. by eapply least_ext.
Qed.

Section value.
Variable e : nat -> list Z -> Qc.
Definition node_value (v : nat -> list Z -> Qc) (x : nat) (idx : list Z) : Qc :=
  match fn_of h x with Some f => recompute v x (gf_kind f) (gf_in f) idx | None => e x idx end.
Fixpoint vtab (n : nat) : list (list Z -> Qc) :=
  match n with O => [] | Datatypes.S m => vtab m ++ [node_value (fun a => nth a (vtab m) (fun _ => 0%Qc)) m] end.
Definition val_of : nat -> list Z -> Qc := fun x => nth x (vtab (Datatypes.S x)) (fun _ => 0%Qc).
Lemma vtab_length n : length (vtab n) = n.
Proof. induction n; [done|]. cbn [vtab]. rewrite app_length, IHn. simpl. lia. Qed.
Lemma vtab_nth n x : (x < n)%nat -> nth x (vtab n) (fun _ => 0%Qc) = val_of x.
Proof.
  induction n; [lia|]. intros Hx. destruct (decide (x = n)) as [->|Hne]; [done|]. cbn [vtab]. rewrite app_nth1 by (rewrite vtab_length; lia). apply IHn. lia.
Qed.
Lemma val_eq x idx : val_of x idx = node_value val_of x idx.
Proof.
  unfold val_of at 1. cbn [vtab]. rewrite app_nth2; rewrite vtab_length; [|lia]. rewrite Nat.sub_diag. cbn [nth]. unfold node_value.
  destruct (fn_of h x) as [f|] eqn:Ef; [|done]. apply recompute_ext. intros a Ha i. destruct (tinv_inputs h x f Hinv Ef) as (_ & _ & _ & _ & Hin).
  rewrite vtab_nth; [done|]. by apply Hin.
Qed.
Lemma val_same x : below h t x -> tracked h x -> forall i j, in_range (shape_of h x) i -> in_range (shape_of h x) j ->
  pos (lay_of h x) i = pos (lay_of h x) j -> val_of x i = val_of x j.
Proof.
  intros Hb Ht i j Hi Hj E. destruct (decide (is_view h x)) as [(f & Hf & Hk)|Hv].
  - rewrite !val_eq. unfold node_value. rewrite Hf, Hk. pose proof (gr_node _ _ Hgr x f Hb Hf) as Hn. rewrite Hk in Hn.
    destruct (gf_in f) as [|a [|]] eqn:Ei; try done. unfold recompute. by rewrite E.
  - destruct (gr_dense _ _ Hgr x Hb Ht Hv) as [_ Hj']. by rewrite (Hj' i j Hi Hj E).
Qed.
Lemma val_computes x f : below h t x -> fn_of h x = Some f -> computes h val_of x (gf_kind f) (gf_in f).
Proof.
  intros Hb Hf. apply recompute_ok; [done| |by apply (gr_node _ _ Hgr)|by apply Hnf| |].
  - intros a Ha. eapply below_in; [exact Hb|]. unfold inputs. by rewrite Hf.
  - intros Hk a i j Ei Hi Hj E. pose proof (gr_node _ _ Hgr x f Hb Hf) as Hn. rewrite Hk, Ei in Hn. destruct Hn as [Ht _].
    apply (val_same a); [|done..]. eapply below_in; [exact Hb|]. unfold inputs. rewrite Hf, Ei. mem.
  - intros idx. rewrite val_eq. unfold node_value. by rewrite Hf.
Qed.
Lemma val_leaf x idx : ~ is_node h x -> val_of x idx = e x idx.
Proof. intros Hn. rewrite val_eq. unfold node_value. destruct (fn_of h x) as [f|] eqn:Ef; [destruct Hn; by exists f|done]. Qed.
End value.
Lemma perturbed_exists a i : exists v, forall s, perturbed h t a i s (v s).
Proof.
  exists (fun s => val_of (fun x idx => (value h x idx + if decide (x = a /\ idx = i) then s else 0)%Qc)). intros s. split.
  - intros x idx _ Hn. by apply val_leaf.
  - intros x f Hb Hf. by apply val_computes.
Qed.
Lemma perturbed_unique a i s v v' : perturbed h t a i s v -> perturbed h t a i s v' ->
  forall x idx, below h t x -> in_range (shape_of h x) idx -> v x idx = v' x idx.
Proof.
  intros [Hl Hn] [Hl' Hn'] x. induction (lt_wf x) as [x _ IH]. intros idx Hb Hi. destruct (fn_of h x) as [f|] eqn:Ef.
  - destruct (tinv_inputs h x f Hinv Ef) as (_ & _ & _ & _ & Hin).
    assert (forall a, a ∈ gf_in f -> below h t a) as Hbi by (intros b Hb'; eapply below_in; [exact Hb|]; unfold inputs; by rewrite Ef).
    eapply computes_unique; [exact Hb|exact Hbi|by apply (gr_node _ _ Hgr)| |by apply Hn|by apply Hn'|done].
    intros b j Hb' Hj. apply IH; [by apply Hin|by apply Hbi|done].
  - assert (~ is_node h x) as Hx by (intros [? ?]; congruence). by rewrite Hl, Hl'.
Qed.
Lemma value_perturbed a i : perturbed h t a i 0%Qc (value h).
Proof. split; [intros x idx _ _; case_decide; ring|]. intros x f Hb Hf. by apply Hnf. Qed.

(** ** its rate of change *)
Lemma perturbed_fd a i v d : regular h t -> tracked h a -> (forall s, perturbed h t a i s (v s)) -> obeys h t d ->
  (forall x idx, below h t x -> ~ is_node h x -> tracked h x -> d x idx = if decide (x = a /\ idx = i) then 1%Qc else 0%Qc) ->
  forall x idx, below h t x -> in_range (shape_of h x) idx -> fd (fun s => v s x idx) (d x idx).
Proof.
  intros Hreg Ta Hp [Hr Hu] Hd.
  assert (forall x idx, below h t x -> in_range (shape_of h x) idx -> v 0%Qc x idx = value h x idx) as V0.
  { intros x idx. apply (perturbed_unique a i 0%Qc); [apply Hp|apply value_perturbed]. }
  intros x. induction (lt_wf x) as [x _ IH]. intros idx Hb Hi. destruct (fn_of h x) as [f|] eqn:Ef.
  2:{ assert (~ is_node h x) as Hx by (intros [? ?]; congruence).
      assert (d x idx = if decide (x = a /\ idx = i) then 1%Qc else 0%Qc) as ->.
      { destruct (h_ten h !! x) as [r|] eqn:Er.
        - destruct (t_rg r) eqn:Eg; [apply Hd; [done|done|by exists r]|]. rewrite Hu; [|done|intros (r' & ? & ?); congruence]. rewrite decide_False; [done|].
          intros [-> _]. destruct Ta as (r' & ? & ?). congruence.
        - rewrite Hu; [|done|intros (r' & ? & ?); congruence]. rewrite decide_False; [done|]. intros [-> _]. destruct Ta as (r' & ? & ?). congruence. }
      case_decide as E.
      - eapply fd_ext; [|apply (fd_move (value h x idx) 1%Qc)]. apply near_all. intros s. simpl. rewrite (pt_leaf _ _ _ _ _ _ (Hp s)) by done. rewrite decide_True by done. ring.
      - eapply fd_ext; [|apply (fd_const (value h x idx))]. apply near_all. intros s. simpl. rewrite (pt_leaf _ _ _ _ _ _ (Hp s)) by done. rewrite decide_False by done. ring. }
  destruct (tinv_inputs h x f Hinv Ef) as (_ & _ & _ & _ & Hin).
  assert (forall b, b ∈ gf_in f -> below h t b) as Hbi by (intros b Hb'; eapply below_in; [exact Hb|]; unfold inputs; by rewrite Ef).
  assert (forall b j, b ∈ gf_in f -> in_range (shape_of h b) j -> fd (fun s => v s b j) (d b j)) as IH' by (intros b j Hb' Hj; apply IH; [by apply Hin|by apply Hbi|done]).
  assert (forall b j, b ∈ gf_in f -> in_range (shape_of h b) j -> v 0%Qc b j = value h b j) as V0' by (intros b j Hb' Hj; apply V0; [by apply Hbi|done]).
  pose proof (gr_node _ _ Hgr x f Hb Ef) as Hn. pose proof (Hr x f Hb Ef) as Hru. pose proof (fun s => pt_node _ _ _ _ _ _ (Hp s) x f Hb Ef) as Hc.
  pose proof (Hreg x f Hb Ef) as Hrg. destruct (Hnf x f Hb Ef) as (_ & _ & Hkg). clear IH V0. destruct f as [k ins acc]. cbn [gf_kind gf_in] in *. destruct k as [ | | | | | | | |dim|kg].
  9: { destruct (cat_in_range h t Hgr x dim ins idx Hb Hbi Hn Hi) as (k & j & b & Eo & Ea & Hj). specialize (Hru idx Hi). cbv zeta in Hru. rewrite Eo, Ea in Hru. rewrite Hru.
       eapply fd_ext; [|apply (IH' b); [by eapply elem_of_list_lookup_2|exact Hj]]. apply near_all. intros s. specialize (Hc s idx Hi). cbv zeta in Hc. by rewrite Eo, Ea in Hc. }
  all: destruct ins as [|b [|c [|]]]; try (by destruct Hn).
  1-4: destruct Hn as (Es & Hcc & Hn); pose proof Hi as Hi'; rewrite Es in Hi';
    assert (in_range (shape_of h b) (bidx (shape_of h b) idx)) as I1 by (by eapply bidx_in_l);
    assert (in_range (shape_of h c) (bidx (shape_of h c) idx)) as I2 by (by eapply bidx_in_r);
    pose proof (IH' b _ ltac:(mem) I1) as F1; pose proof (IH' c _ ltac:(mem) I2) as F2;
    pose proof (V0' b _ ltac:(mem) I1) as E1; pose proof (V0' c _ ltac:(mem) I2) as E2;
    cbn [rule] in Hru; rewrite (Hru idx Hi).
  - eapply fd_ext; [|apply (fd_add _ _ _ _ F1 F2)]. apply near_all. intros s. symmetry. by apply (Hc s).
  - eapply fd_ext; [|apply (fd_sub _ _ _ _ F1 F2)]. apply near_all. intros s. symmetry. by apply (Hc s).
  - rewrite <- E1, <- E2. eapply fd_ext; [|apply (fd_mul _ _ _ _ F1 F2)]. apply near_all. intros s. symmetry. by apply (Hc s).
  - rewrite <- E1, <- E2. eapply fd_ext; [|apply (fd_div _ _ _ _ F1 F2)]; [|rewrite E2; by apply Hrg]. apply near_all. intros s. symmetry. by apply (Hc s).
  - assert (idx = []) as -> by (rewrite Hn in Hi; by apply in_range_nil_inv in Hi). cbn [rule] in Hru. rewrite Hru.
    eapply fd_ext; [|unfold sum_over; apply (fd_sum (fun s => v s b) (d b)); intros j Hj%elem_of_indices; apply (IH' b j ltac:(mem) Hj)]. apply near_all. intros s. symmetry. by apply (Hc s).
  - assert (idx = []) as -> by (rewrite Hn in Hi; by apply in_range_nil_inv in Hi). cbn [rule] in Hru. rewrite Hru.
    unfold Qcdiv. rewrite (Qcmult_comm (sum_over _ _)).
    eapply fd_ext; [|apply fd_scale; unfold sum_over; apply (fd_sum (fun s => v s b) (d b)); intros j Hj%elem_of_indices; apply (IH' b j ltac:(mem) Hj)].
    apply near_all. intros s. symmetry. pose proof (Hc s) as Hc'. cbn [computes] in Hc'. rewrite Hc'. unfold Qcdiv. by rewrite Qcmult_comm.
  - destruct Hn as [_ Hn]. destruct (Hn idx Hi) as (j & Hj & E). cbn [rule] in Hru. rewrite (Hru idx j Hi Hj E).
    eapply fd_ext; [|apply (IH' b j ltac:(mem) Hj)]. apply near_all. intros s. symmetry. by apply (Hc s).
  - assert (in_range (shape_of h b) idx) as Hj by (by rewrite <- Hn). cbn [rule] in Hru. rewrite (Hru idx Hi).
    eapply fd_ext; [|apply (IH' b idx ltac:(mem) Hj)]. apply near_all. intros s. symmetry. by apply (Hc s).
  - cbn [rule] in Hru. cbn [computes] in Hc. destruct (Hkg kg b eq_refl eq_refl) as [[Es Hk]|(Es & best & Hbest & Eb & Hk)].
    + rewrite decide_True in Hru by done. rewrite decide_True in Hrg by done. assert (in_range (shape_of h b) idx) as Hj by (by rewrite <- Es). rewrite (Hru idx Hi).
      rewrite (Hk idx Hj). rewrite <- (V0' b idx ltac:(mem) Hj).
      eapply fd_ext; [|apply (fd_abs _ _ (IH' b idx ltac:(mem) Hj))]; [|rewrite (V0' b idx ltac:(mem) Hj); by apply Hrg].
      apply near_all. intros s. symmetry. destruct (Hc s) as [[_ Hc']|(Hc1 & Hc2 & _)]; [by apply Hc'|congruence].
    + rewrite decide_False in Hru by done. rewrite decide_False in Hrg by done.
      assert (shape_of h x = []) as Ex by (destruct (Hc 0%Qc) as [[? _]|(? & _)]; done). rewrite Ex in Hi. apply in_range_nil_inv in Hi as ->. rewrite Hru.
      assert (sum_over (shape_of h b) (fun idx => value h kg idx * d b idx)%Qc = d b best) as ->.
      { unfold sum_over. rewrite (sumq_one _ _ best).
        - rewrite Hk by done. rewrite decide_True by done. ring.
        - by apply NoDup_indices.
        - by apply elem_of_indices.
        - intros j Hj%elem_of_indices Hne. rewrite Hk by done. rewrite decide_False by done. ring. }
      assert (forall j, in_range (shape_of h b) j -> j <> best -> value h b j <> value h b best) as Hlt.
      { intros j Hj Hne E. apply Hne. apply Hrg; [done|done|congruence|done]. }
      destruct (Hnf x _ Hb Ef) as (_ & Hc0 & _). cbn [computes gf_kind gf_in] in Hc0. destruct Hc0 as [[? _]|(_ & _ & Hc0)]; [congruence|].
      destruct (decide (Forall (fun idx => (value h b idx <= value h x [])%Qc) (indices (shape_of h b)))) as [Hdd|Hdd].
      * apply (fd_greatest (shape_of h b) (fun j s => v s b j) (d b) best); [done|by intros; apply IH'; [mem|]| |].
        -- intros j Hj Hne. rewrite !V0' by (mem || done). destruct Hc0 as [_ Hc0]. pose proof (Hc0 j Hj) as L. rewrite <- Eb in L. apply Qcle_lt_or_eq in L as [L|L]; [done|].
           by destruct (Hlt j Hj Hne).
        -- intros s. destruct (Hc s) as [[? _]|(_ & _ & Hc')]; [congruence|]. done.
      * apply (fd_least (shape_of h b) (fun j s => v s b j) (d b) best); [done|by intros; apply IH'; [mem|]| |].
        -- intros j Hj Hne. rewrite !V0' by (mem || done). destruct Hc0 as [_ Hc0]. pose proof (Hc0 j Hj) as L. rewrite <- Eb in L. apply Qcle_lt_or_eq in L as [L|L]; [done|].
           by destruct (Hlt j Hj Hne).
        -- intros s. destruct (Hc s) as [[? _]|(_ & _ & Hc')]; [congruence|]. done.
Qed.
End perturb.

Lemma first_in_range h t : Forall (fun n => 0 <= n) (shape_of h t) -> size_prod (shape_of h t) = 1 -> in_range (shape_of h t) (first_index h t).
Proof.
  intros Hn H1. unfold first_index. pose proof (size_prod_one _ Hn H1) as Ho. clear - Ho. induction Ho as [|x ss -> Ho IH]; constructor; [lia|done].
Qed.
Lemma program_slope ops H T h t : program ops H T h -> may_backward h H T t -> regular h t ->
  exists h', exec (OBackward (Some t)) h = (Ok RUnit, h') /\
    forall a i, below h t a -> ~ is_node h a -> tracked h a -> in_range (shape_of h a) i ->
      (exists v, forall s, perturbed h t a i s (v s)) /\
      forall v, (forall s, perturbed h t a i s (v s)) ->
        v 0%Qc t (first_index h t) = value h t (first_index h t) /\
        slope (fun s => v s t (first_index h t)) (grad_value h' a i - grad_value h a i)%Qc.
Proof.
  intros Hp Hb Hreg. destruct (program_backward _ _ _ _ _ Hp Hb) as (h' & E & _ & K). exists h'. split; [done|]. intros a i Ha1 Ha2 Ha3 Hi.
  pose proof (program_ready _ _ _ _ _ Hp Hb) as Hgr. destruct (program_facts _ _ _ _ Hp) as (Hinv & Hver & Hsz). destruct (program_GI _ _ _ _ Hp) as (D & G & HD).
  assert (forall x f, below h t x -> fn_of h x = Some f -> node_fact h x (gf_kind f) (gf_in f)) as Hnf.
  { intros x f Hx Hf. apply (g_node _ _ _ G); [|done]. eapply below_D; [apply (g_in _ _ _ G)|apply HD, Hb|exact Hx]. }
  assert (in_range (shape_of h t) (first_index h t)) as Hft. { apply first_in_range; [apply (below_sizes h t Hgr); constructor|apply Hb]. }
  split; [by apply perturbed_exists|]. intros v Hv. split.
  - eapply (perturbed_unique h t Hinv Hgr a i 0%Qc); [done|by apply value_perturbed|constructor|done].
  - destruct (K a i Ha1 Ha2 Ha3 Hi) as (q & (d & Hd1 & Hd2 & Eq) & _ & ->). replace (grad_value h a i + q - grad_value h a i)%Qc with q by ring. rewrite Eq.
    apply fd_slope. apply (perturbed_fd h t Hinv Hgr Hnf a i v d); try done. constructor.
Qed.
