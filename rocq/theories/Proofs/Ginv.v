(** The gradients during backward(): which buffers they live on, and the sum that every
    iteration leaves unchanged. *)
From Verif.Proofs Require Export Catgeom Order4 Create Creation.
From Verif.Model Require Export Exact Api.
#[local] Existing Instance Exact.

(** ** gradient buffers *)
Definition gsto (h : heap) (x : nat) : option nat :=
  match h_ten h !! x with
  | Some r => match t_grad r with
              | Some g => match h_ten h !! g with Some gr => Some (t_sto gr) | None => None end
              | None => None end
  | None => None end.
Definition cell_num (c : cell) : Qc := match c with Some v => num v | None => 0%Qc end.
Definition gcells (h : heap) (s : nat) : list Qc :=
  match h_sto h !! s with
  | Some st => match sto_blob st with Some cs => map cell_num cs | None => [] end
  | None => [] end.
Lemma has_grad_gsto h x s : has_grad h x s -> gsto h x = Some s.
Proof. intros (r & g & gr & H1 & H2 & H3 & _ & _ & _ & H4). unfold gsto. by rewrite H1, H2, H3, H4. Qed.
Lemma has_grad_fun h x s s' : has_grad h x s -> has_grad h x s' -> s = s'.
Proof. intros H1%has_grad_gsto H2%has_grad_gsto. congruence. Qed.
Lemma vf_nums qs : map cell_num (vf qs) = qs.
Proof. unfold vf. rewrite map_map. simpl. apply map_id. Qed.
Lemma num_buffer_cells h s dt lay qs : num_buffer h s dt lay qs -> gcells h s = qs.
Proof. intros [H _]. unfold gcells. rewrite H. simpl. apply vf_nums. Qed.
Lemma raw_buffer_cells h s dt lay : raw_buffer h s dt lay -> gcells h s = [].
Proof. intros H. unfold gcells. by rewrite H. Qed.
Lemma base_fun h x b b' : base_of h x b -> base_of h x b' -> b = b'.
Proof.
  intros H. revert b'. induction H as [x Hv|x f a b Hf Hk Hi H IH]; intros b' H'; inversion H'; subst; try done.
  - destruct Hv. by eexists.
  - exfalso. match goal with Hn : ~ is_view _ _ |- _ => apply Hn end. by eexists.
  - apply IH. congruence.
Qed.
Lemma base_not_view h x b : base_of h x b -> ~ is_view h b.
Proof. by induction 1. Qed.
Lemma is_view_dec h x : Decision (is_view h x).
Proof.
  unfold is_view. destruct (fn_of h x) as [f|] eqn:Ef.
  - destruct (gf_kind f) eqn:Ek; try (right; intros (f' & [= <-] & E); congruence). left. by exists f.
  - right. by intros (f' & ? & _).
Qed.

(** ** allocating and clearing *)
Lemma sto_zero_at h s dt b cs : floating dt = true -> h_sto h !! s = Some (Sto dt b (Some cs)) ->
  sto_zero s h = (Ok tt, put h s (Sto dt b (Some (vf (replicate (length cs) 0%Qc))))).
Proof.
  intros Hf Hs. unfold sto_zero. erewrite bind_ok by (by apply get_sto_ok). simpl. unfold set_sto, put. do 5 f_equal.
  unfold zero_val. rewrite is_int_floating, Hf. clear Hs. unfold vf. induction cs as [|c cs IH]; [done|]. simpl. f_equal. apply IH.
Qed.
Lemma sto_alloc_zero h s dt b : floating dt = true -> b <= alloc_max -> h_sto h !! s = Some (Sto dt b None) ->
  (sto_alloc s ;;; sto_zero s) h = (Ok tt, put h s (Sto dt b (Some (vf (replicate (Z.to_nat (b / size_of dt)) 0%Qc))))).
Proof.
  intros Hf Hb Hs. unfold sto_alloc. rewrite bind_assoc. erewrite bind_ok by (by apply get_sto_ok). simpl. unfold new_blob.
  rewrite (proj2 (Z.leb_le _ _)) by done. rewrite bind_assoc, bind_lift. erewrite bind_ok by reflexivity.
  fold (put h s (Sto dt b (Some (fresh_cells dt b)))). rewrite (sto_zero_at _ s dt b (fresh_cells dt b)); [|done|by eapply put_lookup].
  rewrite put_put. unfold fresh_cells. by rewrite replicate_length.
Qed.
Lemma fn_part h a r (e : gradfn -> gradfn) : h_ten h !! a = Some r ->
  exists h1, match t_fn r with Some _ => upd_fn a e | None => mret tt end h = (Ok tt, h1) /\ h_sto h1 = h_sto h /\
  (exists o, h_ten h1 !! a = Some (with_fn r o)) /\
  (forall y ry, h_ten h !! y = Some ry -> exists o, h_ten h1 !! y = Some (with_fn ry o)).
Proof.
  intros Hr. destruct (t_fn r) as [f|] eqn:Ef.
  - destruct (upd_fn_state h a f e) as (h1 & E1 & S1 & _ & T1); [unfold fn_of; by rewrite Hr|].
    assert (forall y ry, h_ten h !! y = Some ry -> exists o, h_ten h1 !! y = Some (with_fn ry o)) as K.
    { intros y ry Hy. rewrite T1, Hy. by eexists. }
    exists h1. split; [done|]. split; [done|]. split; [by apply K|done].
  - assert (forall y ry, h_ten h !! y = Some ry -> exists o, h_ten h !! y = Some (with_fn ry o)) as K.
    { intros y ry Hy. exists (t_fn ry). by rewrite with_fn_id. }
    exists h. split; [done|]. split; [done|]. split; [by apply K|done].
Qed.
Lemma wsum_zero n w : wsum (replicate n 0%Qc) w = 0%Qc.
Proof. apply wsum_from_zero. Qed.

(** the rules at the tracked views below [t], and no change of what is not tracked *)
Definition views_obey (h : heap) (t : nat) (d : tangent) : Prop :=
  (forall x f, below h t x -> tracked h x -> fn_of h x = Some f -> gf_kind f = NoBack -> rule h d x (gf_kind f) (gf_in f)) /\
  (forall x idx, below h t x -> ~ tracked h x -> d x idx = 0%Qc).
(** the rule for [x] with [e] in place of its own rate of change *)
Definition rule2 (h : heap) (d : tangent) (e : list Z -> Qc) (x : nat) (k : bkind) (ins : list nat) : Prop :=
  let S := shape_of h in
  match k, ins with
  | AddBack, [a; b] => forall idx, in_range (S x) idx -> e idx = (d a (bidx (S a) idx) + d b (bidx (S b) idx))%Qc
  | SubBack, [a; b] => forall idx, in_range (S x) idx -> e idx = (d a (bidx (S a) idx) - d b (bidx (S b) idx))%Qc
  | MulBack, [a; b] => forall idx, in_range (S x) idx ->
      e idx = (d a (bidx (S a) idx) * value h b (bidx (S b) idx) + value h a (bidx (S a) idx) * d b (bidx (S b) idx))%Qc
  | DivBack, [a; b] => forall idx, in_range (S x) idx ->
      e idx = (d a (bidx (S a) idx) / value h b (bidx (S b) idx)
               - value h a (bidx (S a) idx) * d b (bidx (S b) idx) / (value h b (bidx (S b) idx) * value h b (bidx (S b) idx)))%Qc
  | SumBack, [a] => e [] = sum_over (S a) (d a)
  | MeanBack, [a] => e [] = (sum_over (S a) (d a) / qc_of_Z (size_prod (S a)))%Qc
  | CloneBack, [a] => forall idx, in_range (S x) idx -> e idx = d a idx
  | CatBack dim, _ => forall idx, in_range (S x) idx ->
      let dm := Z.to_nat dim in
      let '(k, j) := owner (map (fun a => nth dm (S a) 0) ins) (nth dm idx 0) in
      match ins !! k with Some a => e idx = d a (<[dm := j]> idx) | None => False end
  | KnownGradBack kg, [a] =>
      if decide (S x = S a)
      then forall idx, in_range (S x) idx -> e idx = (value h kg idx * d a idx)%Qc
      else e [] = sum_over (S a) (fun idx => value h kg idx * d a idx)%Qc
  | _, _ => True
  end.
Lemma rule_rule2 h d x k ins : rule h d x k ins -> rule2 h d (d x) x k ins.
Proof. destruct k, ins as [|a [|b [|]]]; done. Qed.

#[global] Instance is_mean_dec h x : Decision (is_mean h x).
Proof.
  unfold is_mean. destruct (fn_of h x) as [f|] eqn:E; [|right; by intros (? & ? & _)].
  destruct (gf_kind f) eqn:Ek; try (right; intros (f' & ? & ?); congruence). left. by exists f.
Defined.
(** what [grad_ready] (Spec/Deriv.v) says, but of the root only that it is a tracked node *)
Record grad_core (h : heap) (t : nat) : Prop := GradCore {
  gc_root : exists r f, h_ten h !! t = Some r /\ t_fn r = Some f /\ t_rg r = true;
  gc_new : untraversed h t;
  gc_data : forall x r, below h t x -> h_ten h !! x = Some r ->
    holds h r (contents h r) /\ size_of (t_dt r) * size_prod (shape r) <= alloc_max;
  gc_node : forall x f, below h t x -> fn_of h x = Some f -> node_ok h t x (gf_kind f) (gf_in f);
  gc_dense : forall x, below h t x -> tracked h x -> ~ is_view h x ->
    lay_in (lay_of h x) (size_prod (shape_of h x)) /\ lay_inj (lay_of h x);
  gc_grad : forall x r, below h t x -> x <> t -> tracked h x -> ~ is_view h x -> h_ten h !! x = Some r ->
    t_grad r = None \/ exists s, has_grad h x s /\
      (raw_buffer h s (t_dt r) (t_lay r) \/ ~ is_node h x /\ exists qs, num_buffer h s (t_dt r) (t_lay r) qs);
  gc_view : forall x b, below h t x -> x <> t -> is_view h x -> base_of h x b -> exists s, has_grad h x s /\ has_grad h b s;
  gc_sep : forall x y s, below h t x -> below h t y -> x <> t -> y <> t -> ~ is_view h x -> ~ is_view h y ->
    tracked h x -> tracked h y -> has_grad h x s -> has_grad h y s -> x = y;
  gc_apart : forall x s, below h t x -> x <> t -> tracked h x -> has_grad h x s -> ~ data_sto h t s
}.
Lemma ready_core h t : grad_ready h t -> grad_core h t.
Proof.
  intros [(r & f & H1 & H2 & H3 & _) G2 G3 G4 G5 G6 G7 G8 G9]. split; try done; [by exists r, f|]. intros x b Hb _. by apply G7.
Qed.
Coercion ready_core : grad_ready >-> grad_core.
#[global] Hint Extern 0 (grad_core _ _) => apply ready_core; assumption : core.
(** the same where some nodes are not tracked any more: what the loop of backward() needs of all
    tensors below the root, whether it passes them or not *)
Record grad_base (h : heap) (t : nat) : Prop := GradBase {
  gb_root : exists r f, h_ten h !! t = Some r /\ t_fn r = Some f /\ t_rg r = true;
  gb_data : forall x r, below h t x -> h_ten h !! x = Some r ->
    holds h r (contents h r) /\ size_of (t_dt r) * size_prod (shape r) <= alloc_max;
  gb_slope : forall x f kg rk, below h t x -> fn_of h x = Some f -> gf_kind f = KnownGradBack kg -> h_ten h !! kg = Some rk ->
    holds h rk (contents h rk);
  gb_window : forall x f, below h t x -> tracked h x -> fn_of h x = Some f -> gf_kind f = NoBack -> node_ok h t x (gf_kind f) (gf_in f);
  gb_dense : forall x, below h t x -> tracked h x -> ~ is_view h x ->
    lay_in (lay_of h x) (size_prod (shape_of h x)) /\ lay_inj (lay_of h x);
  gb_grad : forall x r, below h t x -> x <> t -> tracked h x -> ~ is_view h x -> h_ten h !! x = Some r ->
    t_grad r = None \/ exists s, has_grad h x s /\
      (raw_buffer h s (t_dt r) (t_lay r) \/ ~ is_node h x /\ exists qs, num_buffer h s (t_dt r) (t_lay r) qs);
  gb_view : forall x b, below h t x -> x <> t -> tracked h x -> is_view h x -> base_of h x b -> exists s, has_grad h x s /\ has_grad h b s;
  gb_sep : forall x y s, below h t x -> below h t y -> x <> t -> y <> t -> ~ is_view h x -> ~ is_view h y ->
    tracked h x -> tracked h y -> has_grad h x s -> has_grad h y s -> x = y;
  gb_apart : forall x s, below h t x -> x <> t -> tracked h x -> has_grad h x s -> ~ data_sto h t s
}.
Lemma core_base h t : grad_core h t -> grad_base h t.
Proof.
  intros [G1 G2 G3 G4 G5 G6 G7 G8 G9]. split; try done; [| |by eauto].
  - intros x f kg rk Hb Hf Hk Hrk. pose proof (G4 x f Hb Hf) as Hn. rewrite Hk in Hn. simpl in Hn. destruct (gf_in f) as [|c [|]]; try done.
    destruct Hn as ((rk' & Hrk' & Hh) & _). by assert (rk' = rk) as -> by congruence.
  - intros x f Hb _ Hf _. by apply G4.
Qed.
Coercion core_base : grad_core >-> grad_base.
Lemma core_live h t x : grad_core h t -> region h t x -> tracked h x.
Proof.
  intros Hgr [Bx [f Hf]]. unfold fn_of in Hf. destruct (h_ten h !! x) as [r|] eqn:Hr; [|done].
  exists r. split; [done|]. by destruct (gc_new _ _ Hgr x r f Bx Hr Hf).
Qed.
#[global] Hint Extern 0 (grad_base _ _) => apply core_base; assumption : core.
#[global] Hint Extern 0 (grad_base _ _) => apply core_base, ready_core; assumption : core.

Section ginv.
Variables (h0 : heap) (t : nat) (d : tangent) (B : list nat).
Hypothesis Hinv : tinv h0.
Hypothesis Hgr : grad_base h0 t.
Hypothesis Hob : views_obey h0 t d.
(** the tracked tensors below the root that are no views *)
Definition base (b : nat) : Prop := below h0 t b /\ tracked h0 b /\ ~ is_view h0 b.
Hypothesis HdB : NoDup B.
Hypothesis HB : forall b, b ∈ B <-> base b.
(** a tensor that gets a gradient *)
Definition live (a : nat) : Prop := below h0 t a /\ tracked h0 a.

Lemma live_rec a : live a -> exists r, h_ten h0 !! a = Some r /\ t_rg r = true /\ floating (t_dt r) = true /\
  lay_of h0 a = t_lay r /\ shape_of h0 a = shape r /\ allocable (t_dt r) (shape r) /\ lay_ok (t_lay r) /\ holds h0 r (contents h0 r).
Proof.
  intros [Hb (r & Hr & Hg)]. exists r. split; [done|]. split; [done|].
  split; [rewrite <- is_float_floating; by apply (ok_rg _ _ _ (Hinv a r Hr))|].
  assert (lay_of h0 a = t_lay r) as El by (unfold lay_of; by rewrite Hr). split; [done|]. split; [unfold shape_of; by rewrite El|].
  destruct (gb_data _ _ Hgr a r Hb Hr) as [Hh Ha]. pose proof Hh as [(cs & _ & Hok & _) _]. split; [split; [apply Hok|done]|]. done.
Qed.
Lemma base_live b : base b -> live b.
Proof. intros (? & ? & _). done. Qed.
(** every live tensor has a base, on whose gradient its own is a window *)
Lemma base_ex a : live a -> exists b, base_of h0 a b /\ base b /\ (b <= a)%nat /\
  (exists r rb, h_ten h0 !! a = Some r /\ h_ten h0 !! b = Some rb /\ t_dt r = t_dt rb) /\
  forall idx, in_range (shape_of h0 a) idx -> exists idx', in_range (shape_of h0 b) idx' /\
    pos (lay_of h0 a) idx = pos (lay_of h0 b) idx' /\ d a idx = d b idx'.
Proof.
  induction (lt_wf a) as [a _ IH]. intros La. destruct (is_view_dec h0 a) as [Hv|Hv].
  - destruct Hv as (f & Hf & Hk). destruct (tinv_inputs h0 a f Hinv Hf) as (r & Hr & Hf' & Hfit & Hin).
    rewrite Hk in Hfit. destruct (gf_in f) as [|c [|]] eqn:Ei; try done. simpl in Hfit. destruct Hfit as (rc & Hrc & Ed & Es).
    destruct La as [Ba Ta]. assert (below h0 t c) as Bc.
    { eapply below_in; [exact Ba|]. unfold inputs. rewrite Hf, Ei. apply elem_of_list_here. }
    pose proof (gb_window _ _ Hgr a f Ba Ta Hf Hk) as Hn. rewrite Hk, Ei in Hn. simpl in Hn. destruct Hn as [Tc Hpos].
    assert (c < a)%nat as Hlt by (apply Hin; apply elem_of_list_here).
    destruct (IH c Hlt (conj Bc Tc)) as (b & Hbc & Hb & Hle & (rc' & rb & Hrc' & Hrb & Edt) & Hmap).
    exists b. split; [by eapply base_view|]. split; [done|]. split; [lia|]. split.
    { exists r, rb. split; [done|]. split; [done|]. congruence. }
    intros idx Hi. destruct (Hpos idx Hi) as (j & Hj & Ej). destruct (Hmap j Hj) as (k & Hk' & Ek & Dk).
    exists k. split; [done|]. split; [congruence|]. rewrite <- Dk. destruct Hob as [Hr' _]. specialize (Hr' a f Ba Ta Hf Hk).
    rewrite Hk, Ei in Hr'. simpl in Hr'. by apply Hr'.
  - exists a. split; [by constructor|]. split; [by destruct La|]. split; [done|]. destruct (live_rec a La) as (r & Hr & _).
    split; [by exists r, r|]. intros idx Hi. by exists idx.
Qed.

Definition buffer (h : heap) (b s : nat) : Prop :=
  exists r, h_ten h !! b = Some r /\ (raw_buffer h s (t_dt r) (t_lay r) \/ exists qs, num_buffer h s (t_dt r) (t_lay r) qs).
(** a storage that holds no gradient of these tensors, except an old one of the root *)
Definition outside (s : nat) : Prop := is_Some (h_sto h0 !! s) /\ forall b, base b -> b <> t -> ~ has_grad h0 b s.
Lemma data_exists s : data_sto h0 t s -> is_Some (h_sto h0 !! s).
Proof.
  intros [(x & r & Hb & Hr & <-)|(x & f & kg & rk & Hb & Hf & Hk & Hrk & <-)].
  - destruct (gb_data _ _ Hgr x r Hb Hr) as [Hh _]. destruct (holds_some _ _ _ Hh) as [y Hy]. by exists y.
  - pose proof (gb_slope _ _ Hgr x f kg rk Hb Hf Hk Hrk) as Hh. destruct (holds_some _ _ _ Hh) as [y Hy]. by exists y.
Qed.
Lemma data_outside s : data_sto h0 t s -> outside s.
Proof.
  intros Hd. split; [by apply data_exists|]. intros b (Bb & Tb & _) Hne Hg. by apply (gb_apart _ _ Hgr b s).
Qed.
Record ginv (P U : list nat) (h : heap) : Prop := Ginv {
  gi_rec : forall y r0, h_ten h0 !! y = Some r0 -> exists r, h_ten h !! y = Some r /\ same_data r0 r /\ t_rg r = t_rg r0;
  gi_data : forall s x, outside s -> h_sto h0 !! s = Some x -> h_sto h !! s = Some x;
  gi_base : forall b r, base b -> b ∉ P -> h_ten h !! b = Some r -> t_grad r = None \/ exists s, has_grad h b s /\ buffer h b s;
  gi_view : forall y b, live y -> is_view h0 y -> y ∉ P -> base_of h0 y b -> exists s, has_grad h y s /\ has_grad h b s;
  gi_sep : forall x y s, base x -> base y -> x ∉ P -> y ∉ P -> has_grad h x s -> has_grad h y s -> x = y;
  gi_apart : forall x s, base x -> x ∉ P -> has_grad h x s -> ~ outside s;
  gi_used : forall y, y ∈ U -> y ∉ P -> live y -> exists s b rb qs, base_of h0 y b /\ has_grad h y s /\ has_grad h b s /\
    h_ten h !! b = Some rb /\ num_buffer h s (t_dt rb) (t_lay rb) qs
}.
Definition upclosed (P : list nat) : Prop := forall p c, p ∈ P -> region h0 t c -> is_view h0 c -> p ∈ inputs h0 c -> c ∈ P.
Lemma base_notin P a b : upclosed P -> live a -> a ∉ P -> base_of h0 a b -> b ∉ P.
Proof.
  intros Hup La Ha Hb. revert La Ha. induction Hb as [x Hv|x f a b Hf Hk Hi H IH]; intros Lx Hx; [done|].
  assert (a ∈ inputs h0 x) as Hin by (unfold inputs; rewrite Hf, Hi; apply elem_of_list_here).
  destruct Lx as [Bx Tx]. apply IH.
  - split; [by eapply below_in|]. pose proof (gb_window _ _ Hgr x f Bx Tx Hf Hk) as Hn. rewrite Hk, Hi in Hn. by destruct Hn.
  - intros Ha. apply Hx. eapply Hup; [exact Ha| | |done]; [split; [done|by eexists]|by exists f].
Qed.
(** a live tensor's gradient in a good state *)
Lemma cur_grad P U h a : ginv P U h -> upclosed P -> live a -> a ∉ P -> exists b r, base_of h0 a b /\ base b /\ b ∉ P /\ h_ten h !! a = Some r /\
  ((a = b /\ t_grad r = None) \/ exists s, has_grad h a s /\ has_grad h b s /\ buffer h b s).
Proof.
  intros G Hup La Ha. destruct (base_ex a La) as (b & Hb & Bb & Hle & _). destruct (live_rec a La) as (r0 & Hr0 & _).
  destruct (gi_rec _ _ _ G a r0 Hr0) as (r & Hr & _). exists b, r. split; [done|]. split; [done|].
  pose proof (base_notin P a b Hup La Ha Hb) as HbP. split; [done|]. split; [done|].
  destruct (is_view_dec h0 a) as [Hv|Hv].
  - destruct (gi_view _ _ _ G a b La Hv Ha Hb) as (s & G1 & G2). right. exists s. split; [done|]. split; [done|].
    destruct (live_rec b (base_live b Bb)) as (rb0 & Hrb0 & _). destruct (gi_rec _ _ _ G b rb0 Hrb0) as (rb & Hrb & _).
    destruct (gi_base _ _ _ G b rb Bb HbP Hrb) as [Hn|(s' & G3 & Hbuf)].
    + destruct G2 as (rb' & g & gr & E1 & E2 & _). congruence.
    + by rewrite (has_grad_fun _ _ _ _ G2 G3).
  - assert (a = b) as <- by (eapply base_fun; [by apply base_self|done]).
    destruct (gi_base _ _ _ G a r Bb Ha Hr) as [Hn|(s & G3 & Hbuf)]; [by left|right]. by exists s.
Qed.
Lemma buffer_some h b s : buffer h b s -> is_Some (h_sto h !! s).
Proof. intros (r & _ & [H|(qs & H & _)]); [by eexists|by eexists]. Qed.

(** ** changes that keep the invariant *)
Definition rsim (P : list nat) (h h' : heap) : Prop :=
  forall y r, h_ten h !! y = Some r -> exists r', h_ten h' !! y = Some r' /\ same_data r r' /\ t_rg r' = t_rg r /\
    (y ∉ P -> t_grad r' = t_grad r).
Lemma rsim_has_grad P h h' y s : rsim P h h' -> y ∉ P -> has_grad h y s -> has_grad h' y s.
Proof.
  intros K Hy (r & g & gr & H1 & H2 & H3 & H4 & H5 & H6 & H7).
  destruct (K y r H1) as (r' & K1 & (D1 & D2 & D3) & K2 & K3). destruct (K g gr H3) as (gr' & L1 & (F1 & F2 & F3) & L2 & _).
  exists r', g, gr'. split_and!; try done; try congruence. by rewrite K3.
Qed.
Lemma rsim_back P U P' h h' y s : ginv P U h -> upclosed P -> rsim P' h h' -> live y -> y ∉ P -> y ∉ P' -> has_grad h' y s -> has_grad h y s.
Proof.
  intros G Hup K Ly Hy Hy' Hg. destruct (cur_grad P U h y G Hup Ly Hy) as (b & r & _ & _ & _ & Hr & [(-> & Hn)|(s' & Hs & _)]).
  - exfalso. destruct Hg as (r' & g & gr & H1 & H2 & _). destruct (K b r Hr) as (r'' & K1 & _ & _ & K3).
    assert (r'' = r') as -> by congruence. rewrite K3 in H2 by done. congruence.
  - pose proof (rsim_has_grad _ _ _ _ _ K Hy' Hs) as Hs'. by rewrite (has_grad_fun _ _ _ _ Hg Hs').
Qed.
Lemma rsim_rec P h h' y r0 : rsim P h h' -> (exists r, h_ten h !! y = Some r /\ same_data r0 r /\ t_rg r = t_rg r0) ->
  exists r, h_ten h' !! y = Some r /\ same_data r0 r /\ t_rg r = t_rg r0.
Proof.
  intros K (r & Hr & D & R). destruct (K y r Hr) as (r' & Hr' & D' & R' & _). exists r'. split; [done|].
  split; [by eapply same_data_trans|congruence].
Qed.
Lemma raw_keep h h' s dt lay : (forall x, h_sto h !! s = Some x -> h_sto h' !! s = Some x) -> raw_buffer h s dt lay -> raw_buffer h' s dt lay.
Proof. intros K H. by apply K. Qed.
Lemma num_keep h h' s dt lay qs : (forall x, h_sto h !! s = Some x -> h_sto h' !! s = Some x) -> num_buffer h s dt lay qs -> num_buffer h' s dt lay qs.
Proof. intros K [H L]. split; [by apply K|done]. Qed.
(** records keep their data; a storage changes only if it is a gradient buffer, and stays one *)
Definition ssim (P' : list nat) (h h' : heap) : Prop :=
  forall s x, h_sto h !! s = Some x -> h_sto h' !! s = Some x \/
    exists b r qs, base b /\ b ∉ P' /\ has_grad h b s /\ h_ten h' !! b = Some r /\ num_buffer h' s (t_dt r) (t_lay r) qs.
Lemma ginv_step P P' U h h' : ginv P U h -> upclosed P -> upclosed P' -> P ⊆ P' -> rsim P' h h' -> ssim P' h h' -> ginv P' U h'.
Proof.
  intros G Hup Hup' Hsub K HS.
  assert (forall y s, live y -> y ∉ P' -> has_grad h' y s -> has_grad h y s) as Hback.
  { intros y s Ly Hy. eapply rsim_back; eauto. }
  assert (forall y s, y ∉ P' -> has_grad h y s -> has_grad h' y s) as Hfwd by (intros; by eapply rsim_has_grad).
  assert (forall b s, base b -> b ∉ P' -> has_grad h b s -> buffer h b s -> buffer h' b s) as Hbuf.
  { intros b s Bb Hb Hg (r & Hr & Hbb). destruct (K b r Hr) as (r' & Hr' & (D1 & D2 & D3) & _). exists r'. split; [done|].
    assert (is_Some (h_sto h !! s)) as [x Hx] by (apply (buffer_some h b s); by exists r).
    destruct (HS s x Hx) as [E|(b' & rb & qs & B1 & B2 & B3 & B4 & B5)].
    - rewrite <- D1, <- D2. assert (forall y, h_sto h !! s = Some y -> h_sto h' !! s = Some y) as Ke by (intros y Hy; congruence).
      destruct Hbb as [Hbb|(qs & Hbb)]; [left; by eapply raw_keep|right; exists qs; by eapply num_keep].
    - assert (b = b') as <- by (eapply (gi_sep _ _ _ G b b' s); eauto). assert (rb = r') as -> by congruence. right. by exists qs. }
  split.
  - intros y r0 Hr0. eapply rsim_rec; [done|]. by apply (gi_rec _ _ _ G).
  - intros s x Hd Hx. pose proof (gi_data _ _ _ G s x Hd Hx) as Hx'. destruct (HS s x Hx') as [?|(b & _ & _ & B1 & B2 & B3 & _)]; [done|].
    exfalso. eapply (gi_apart _ _ _ G b s); [done|by auto|done|done].
  - intros b r' Bb Hb Hr'. destruct (live_rec b (base_live b Bb)) as (r0 & Hr0 & _). destruct (gi_rec _ _ _ G b r0 Hr0) as (r & Hr & _).
    destruct (K b r Hr) as (r'' & Hr'' & _ & _ & Kg). assert (r'' = r') as -> by congruence. rewrite (Kg Hb).
    destruct (gi_base _ _ _ G b r Bb ltac:(auto) Hr) as [Hn|(s & G1 & G2)]; [by left|right]. exists s. split; [by apply Hfwd|]. by apply Hbuf.
  - intros y b Ly Hv Hy Hb. destruct (gi_view _ _ _ G y b Ly Hv ltac:(auto) Hb) as (s & G1 & G2). exists s. split; [by apply Hfwd|].
    apply Hfwd; [|done]. by eapply base_notin.
  - intros x y s Bx By Hx Hy G1 G2. eapply (gi_sep _ _ _ G x y s); [done|done|by auto|by auto| |]; apply Hback; try done; by apply base_live.
  - intros x s Bx Hx G1. eapply (gi_apart _ _ _ G x s); [done|by auto|]. apply Hback; try done. by apply base_live.
  - intros y Hu Hy Ly. destruct (gi_used _ _ _ G y Hu ltac:(auto) Ly) as (s & b & rb & qs & U1 & U2 & U3 & U4 & U5).
    assert (b ∉ P') as Hb by (by eapply base_notin). destruct (base_ex y Ly) as (b' & U1' & Bb & _).
    assert (b' = b) as -> by (by eapply base_fun).
    destruct (K b rb U4) as (rb' & Hr' & (D1 & D2 & D3) & _).
    assert (exists qs', num_buffer h' s (t_dt rb') (t_lay rb') qs') as (qs' & Hq).
    { pose proof U5 as [Hx _]. destruct (HS s _ Hx) as [E|(b' & r2 & qs' & B1 & B2 & B3 & B4 & B5)].
      - exists qs. rewrite <- D1, <- D2. eapply num_keep; [|exact U5]. intros z Hz. congruence.
      - assert (b = b') as <- by (eapply (gi_sep _ _ _ G b b' s); eauto). assert (r2 = rb') as -> by congruence. by exists qs'. }
    exists s, b, rb', qs'. split; [done|]. split; [by apply Hfwd|]. split; [by apply Hfwd|]. done.
Qed.
(** the first gradient of [a] *)
Lemma ginv_new P U h h' a r s0 qs : ginv P U h -> upclosed P -> base a -> a ∉ P -> h_ten h !! a = Some r -> t_grad r = None ->
  rsim [a] h h' -> has_grad h' a s0 -> h_sto h !! s0 = None -> num_buffer h' s0 (t_dt r) (t_lay r) qs ->
  (forall s x, h_sto h !! s = Some x -> h_sto h' !! s = Some x) -> ginv P U h'.
Proof.
  intros G Hup Ba Ha Hr Hn K Hg0 Hs0 Hq HS.
  assert (forall b s, base b -> b ∉ P -> has_grad h b s -> is_Some (h_sto h !! s)) as Hex.
  { intros b s Bb Hb Hg. destruct (live_rec b (base_live b Bb)) as (rb0 & Hrb0 & _). destruct (gi_rec _ _ _ G b rb0 Hrb0) as (rb & Hrb & _).
    destruct (gi_base _ _ _ G b rb Bb Hb Hrb) as [Hnb|(s' & G1 & G2)].
    - destruct Hg as (rb' & g & gr & E1 & E2 & _). congruence.
    - rewrite (has_grad_fun _ _ _ _ Hg G1). by eapply buffer_some. }
  assert (forall y s, y <> a -> has_grad h y s -> has_grad h' y s) as Hfwd.
  { intros y s Hy. eapply rsim_has_grad; [exact K|]. by rewrite elem_of_list_singleton. }
  assert (forall s, ~ has_grad h a s) as Hna.
  { intros s (r' & g & gr & E1 & E2 & _). congruence. }
  assert (forall y s, live y -> y ∉ P -> has_grad h' y s -> has_grad h y s \/ y = a /\ s = s0) as Hback.
  { intros y s Ly Hy Hg. destruct (decide (y = a)) as [->|Hne]; [right; split; [done|by eapply has_grad_fun]|left].
    eapply rsim_back; eauto. by rewrite elem_of_list_singleton. }
  assert (forall b s, buffer h b s -> buffer h' b s) as Hbuf.
  { intros b s (rb & Hrb & Hbb). destruct (K b rb Hrb) as (rb' & Hrb' & (D1 & D2 & D3) & _). exists rb'. split; [done|]. rewrite <- D1, <- D2.
    destruct Hbb as [Hbb|(q & Hbb)]; [left; exact (raw_keep h h' s _ _ (HS s) Hbb)|right; exists q; exact (num_keep h h' s _ _ _ (HS s) Hbb)]. }
  split.
  - intros y r0 Hr0. eapply rsim_rec; [done|]. by apply (gi_rec _ _ _ G).
  - intros s x Hd Hx. by apply HS, (gi_data _ _ _ G).
  - intros b r' Bb Hb Hr'. destruct (live_rec b (base_live b Bb)) as (r0 & Hr0 & _). destruct (gi_rec _ _ _ G b r0 Hr0) as (rb & Hrb & _).
    destruct (K b rb Hrb) as (r'' & Hr'' & (D1 & D2 & D3) & _ & Kg). assert (r'' = r') as -> by congruence.
    destruct (decide (b = a)) as [->|Hne].
    + right. exists s0. split; [done|]. exists r'. split; [done|]. assert (rb = r) as -> by congruence. rewrite <- D1, <- D2. right. by exists qs.
    + rewrite Kg by (by rewrite elem_of_list_singleton). destruct (gi_base _ _ _ G b rb Bb Hb Hrb) as [Hnb|(s & G1 & G2)]; [by left|right].
      exists s. split; [by apply Hfwd|]. by apply Hbuf.
  - intros y b Ly Hv Hy Hb. destruct (gi_view _ _ _ G y b Ly Hv Hy Hb) as (s & G1 & G2). exists s.
    assert (forall z, has_grad h z s -> z <> a) as Hz by (intros z Hz ->; by eapply Hna). split; apply Hfwd; eauto.
  - intros x y s Bx By Hx Hy G1 G2. destruct (Hback x s (base_live x Bx) Hx G1) as [G1'|[-> ->]];
      [destruct (Hback y s (base_live y By) Hy G2) as [G2'|[-> ->]]|destruct (Hback y s0 (base_live y By) Hy G2) as [G2'|[-> _]]]; [| | |done].
    + by eapply (gi_sep _ _ _ G).
    + destruct (Hex x s0 Bx Hx G1') as [? ?]. congruence.
    + destruct (Hex y s0 By Hy G2') as [? ?]. congruence.
  - intros x s Bx Hx G1 Hd. destruct (Hback x s (base_live x Bx) Hx G1) as [G1'|[-> ->]]; [by eapply (gi_apart _ _ _ G)|].
    destruct Hd as [[y Hy] Hd']. rewrite (gi_data _ _ _ G s0 y (conj (ex_intro _ y Hy) Hd') Hy) in Hs0. done.
  - intros y Hu Hy Ly. destruct (gi_used _ _ _ G y Hu Hy Ly) as (s & b & rb & q & U1 & U2 & U3 & U4 & U5).
    assert (forall z, has_grad h z s -> z <> a) as Hz by (intros z Hz ->; by eapply Hna).
    destruct (K b rb U4) as (rb' & Hr' & (D1 & D2 & D3) & _). exists s, b, rb', q. rewrite <- D1, <- D2.
    split_and!; eauto. exact (num_keep h h' s _ _ _ (HS s) U5).
Qed.
Lemma ginv_use P U h a s b rb qs : ginv P U h -> base_of h0 a b -> has_grad h a s -> has_grad h b s -> h_ten h !! b = Some rb ->
  num_buffer h s (t_dt rb) (t_lay rb) qs -> ginv P (a :: U) h.
Proof.
  intros G H1 H2 H3 H4 H5. destruct G. split; try done. intros y [->|Hy]%elem_of_cons ? ?; [|auto]. by exists s, b, rb, qs.
Qed.

(** ** the conserved sum *)
Definition gpot (h : heap) (b : nat) : Qc :=
  match gsto h b with Some s => wsum (gcells h s) (tcell (lay_of h0 b) (d b)) | None => 0%Qc end.
Definition phi (P : list nat) (h : heap) : Qc := sumq (map (fun b => if decide (b ∈ P) then 0%Qc else gpot h b) B).
Lemma gpot_num h b s qs dt lay : has_grad h b s -> num_buffer h s dt lay qs -> gpot h b = wsum qs (tcell (lay_of h0 b) (d b)).
Proof. intros H1%has_grad_gsto H2%num_buffer_cells. unfold gpot. by rewrite H1, H2. Qed.
Lemma gpot_raw h b s dt lay : has_grad h b s -> raw_buffer h s dt lay -> gpot h b = 0%Qc.
Proof. intros H1%has_grad_gsto H2%raw_buffer_cells. unfold gpot. by rewrite H1, H2. Qed.
Lemma gpot_none h b r : h_ten h !! b = Some r -> t_grad r = None -> gpot h b = 0%Qc.
Proof. intros H1 H2. unfold gpot, gsto. by rewrite H1, H2. Qed.
Lemma gpot_same h h' b : gsto h' b = gsto h b -> (forall s, gsto h b = Some s -> h_sto h' !! s = h_sto h !! s) -> gpot h' b = gpot h b.
Proof. intros H1 H2. unfold gpot, gcells. rewrite H1. destruct (gsto h b) as [s|]; [|done]. by rewrite (H2 s eq_refl). Qed.
Lemma phi_same P h h' : (forall b, base b -> b ∉ P -> gpot h' b = gpot h b) -> phi P h' = phi P h.
Proof. intros H. apply sumq_ext. intros b Hb%HB. case_decide; [done|]. by apply H. Qed.
Lemma phi_one P h h' a : base a -> a ∉ P -> (forall b, base b -> b ∉ P -> b <> a -> gpot h' b = gpot h b) ->
  phi P h' = (phi P h + (gpot h' a - gpot h a))%Qc.
Proof.
  intros Ba Ha H. unfold phi. rewrite (sumq_change (fun b => if decide (b ∈ P) then 0%Qc else gpot h b) _ B a HdB); [|by apply HB|].
  - by rewrite !decide_False by done.
  - intros b Bb%HB Hne. case_decide; [done|]. by apply H.
Qed.
Lemma phi_drop P h x : base x -> x ∉ P -> phi (P ++ [x]) h = (phi P h - gpot h x)%Qc.
Proof.
  intros Bx Hx. unfold phi. rewrite (sumq_change (fun b => if decide (b ∈ P) then 0%Qc else gpot h b) _ B x HdB); [|by apply HB|].
  - rewrite decide_True by set_solver. rewrite decide_False by done. ring.
  - intros b Bb Hne. destruct (decide (b ∈ P)); [rewrite decide_True by set_solver; done|]. rewrite decide_False by set_solver. done.
Qed.
Lemma phi_keep P h x : ~ base x -> phi (P ++ [x]) h = phi P h.
Proof.
  intros Bx. apply sumq_ext. intros b Bb%HB. assert (b <> x) by (by intros ->).
  destruct (decide (b ∈ P)); [rewrite decide_True by set_solver; done|]. rewrite decide_False by set_solver. done.
Qed.
(** ** adding to the gradient of [a] *)
(** between [h] and [h'] only the gradient of [a] changed *)
Record moved (a : nat) (h h' : heap) : Prop := Moved {
  mv_rec : forall y r, h_ten h !! y = Some r -> exists r', h_ten h' !! y = Some r' /\ same_data r r' /\ t_rg r' = t_rg r /\
    (y <> a \/ t_grad r <> None -> t_grad r' = t_grad r);
  mv_sto : forall s x, h_sto h !! s = Some x -> ~ has_grad h a s -> h_sto h' !! s = Some x;
  mv_new : forall s, has_grad h' a s -> has_grad h a s \/ h_sto h !! s = None;
  mv_dom : forall s, h_sto h' !! s = None -> h_sto h !! s = None
}.
Lemma moved_trans a h1 h2 h3 : moved a h1 h2 -> moved a h2 h3 -> moved a h1 h3.
Proof.
  intros M N. split.
  - intros y r Hr. destruct (mv_rec _ _ _ M y r Hr) as (r2 & Hr2 & D2 & R2 & G2). destruct (mv_rec _ _ _ N y r2 Hr2) as (r3 & Hr3 & D3 & R3 & G3).
    exists r3. split; [done|]. split; [by eapply same_data_trans|]. split; [congruence|]. intros K. rewrite G3, G2; [done|done|].
    rewrite (G2 K). done.
  - intros s x Hx Hn. assert (h_sto h2 !! s = Some x) as Hx2 by (by eapply mv_sto). eapply (mv_sto _ _ _ N); [done|].
    intros [?|?]%(mv_new _ _ _ M); [done|congruence].
  - intros s [H|H]%(mv_new _ _ _ N); [by apply (mv_new _ _ _ M)|right; by apply (mv_dom _ _ _ M)].
  - intros s H%(mv_dom _ _ _ N). by apply (mv_dom _ _ _ M).
Qed.
Lemma moved_has_grad a h h' y s : moved a h h' -> has_grad h y s -> has_grad h' y s.
Proof.
  intros M (r & g & gr & H1 & H2 & H3 & H4 & H5 & H6 & H7).
  destruct (mv_rec _ _ _ M y r H1) as (r' & Hr' & (D1 & D2 & _) & _ & G'). destruct (mv_rec _ _ _ M g gr H3) as (gr' & Hg' & (F1 & F2 & F3) & R3 & _).
  exists r', g, gr'. split; [done|]. split; [rewrite G'; [done|right; congruence]|]. split; [done|]. split_and!; congruence.
Qed.
Lemma moved_same P U h h' a : ginv P U h -> upclosed P -> live a -> a ∉ P -> rsim [] h h' ->
  (forall s x, h_sto h !! s = Some x -> (h_sto h' !! s = Some x \/ has_grad h a s /\ is_Some (h_sto h' !! s))) -> moved a h h'.
Proof.
  intros G Hup La Ha K HS. split.
  - intros y r Hr. destruct (K y r Hr) as (r' & H1 & H2 & H3 & H4). exists r'. split_and!; try done. intros _. apply H4. apply not_elem_of_nil.
  - intros s x Hx Hn. by destruct (HS s x Hx) as [?|[? _]].
  - intros s H. left. eapply rsim_back; eauto. apply not_elem_of_nil.
  - intros s H. destruct (h_sto h !! s) as [x|] eqn:E; [|done]. destruct (HS s x E) as [?|[_ [y Hy]]]; congruence.
Qed.
Lemma gpot_keep P U P' h h' b : ginv P U h -> base b -> b ∉ P -> rsim P' h h' -> b ∉ P' ->
  (forall s, has_grad h b s -> h_sto h' !! s = h_sto h !! s) -> gpot h' b = gpot h b.
Proof.
  intros G Bb Hb K Hb' HS. destruct (live_rec b (base_live b Bb)) as (r0 & Hr0 & _). destruct (gi_rec _ _ _ G b r0 Hr0) as (r & Hr & _).
  destruct (gi_base _ _ _ G b r Bb Hb Hr) as [Hn|(s & G1 & G2)].
  - rewrite (gpot_none h b r) by done. destruct (K b r Hr) as (r' & Hr' & _ & _ & Hg). eapply gpot_none; [done|]. by rewrite Hg.
  - pose proof (rsim_has_grad _ _ _ _ _ K Hb' G1) as G1'. unfold gpot. rewrite (has_grad_gsto _ _ _ G1), (has_grad_gsto _ _ _ G1').
    unfold gcells. by rewrite HS.
Qed.
Lemma rsim_nil P h h' : rsim [] h h' -> rsim P h h'.
Proof. intros K y r Hr. destruct (K y r Hr) as (r' & H1 & H2 & H3 & H4). exists r'. split_and!; try done. intros _. apply H4, not_elem_of_nil. Qed.
(** nothing but counters, or new tensors and storages *)
Lemma ginv_grow P U h h' : ginv P U h -> upclosed P -> rsim [] h h' -> (forall s x, h_sto h !! s = Some x -> h_sto h' !! s = Some x) ->
  ginv P U h' /\ phi P h' = phi P h.
Proof.
  intros G Hup K HS. split.
  - eapply ginv_step; eauto. { by apply rsim_nil. } intros s x Hx. left. by apply HS.
  - apply phi_same. intros b Bb Hb. eapply gpot_keep; eauto. { apply not_elem_of_nil. }
    intros s Hs. destruct (live_rec b (base_live b Bb)) as (r0 & Hr0 & _). destruct (gi_rec _ _ _ G b r0 Hr0) as (r & Hr & _).
    destruct (gi_base _ _ _ G b r Bb Hb Hr) as [Hn|(s' & G1 & G2)].
    + destruct Hs as (r' & g & gr & H1 & H2 & _). congruence.
    + rewrite (has_grad_fun _ _ _ _ Hs G1). destruct (buffer_some _ _ _ G2) as [x Hx]. rewrite Hx. by apply HS.
Qed.
(** the storage of one base changes *)
Lemma ginv_buf P U h b s r qs : ginv P U h -> upclosed P -> base b -> b ∉ P -> has_grad h b s -> h_ten h !! b = Some r ->
  Z.of_nat (length qs) = size_prod (sizes (t_lay r)) -> is_Some (h_sto h !! s) ->
  let h' := put h s (Sto (t_dt r) (size_of (t_dt r) * size_prod (sizes (t_lay r))) (Some (vf qs))) in
  ginv P U h' /\ phi P h' = (phi P h + (wsum qs (tcell (lay_of h0 b) (d b)) - gpot h b))%Qc /\
  num_buffer h' s (t_dt r) (t_lay r) qs.
Proof.
  intros G Hup Bb Hb Hg Hr Hl [x0 Hx0] h'.
  assert (num_buffer h' s (t_dt r) (t_lay r) qs) as Hq by (split; [by eapply put_lookup|done]).
  assert (rsim [] h h') as K. { intros y ry Hy. exists ry. split; [done|]. split; [apply same_data_refl|done]. }
  assert (forall s', s' <> s -> h_sto h' !! s' = h_sto h !! s') as Hne by (intros; by apply put_lookup_ne).
  split; [|split; [|done]].
  - eapply ginv_step; eauto. { by apply rsim_nil. } intros s' x Hx. destruct (decide (s' = s)) as [->|Hs]; [|left; by rewrite Hne].
    right. by exists b, r, qs.
  - assert (gpot h' b = wsum qs (tcell (lay_of h0 b) (d b))) as <-.
    { eapply gpot_num; [|done]. eapply rsim_has_grad; eauto. apply not_elem_of_nil. }
    apply phi_one; [done|done|]. intros c Bc Hc Hcb. eapply gpot_keep; eauto. { apply not_elem_of_nil. }
    intros s' Hs'. apply Hne. intros ->. apply Hcb. by eapply (gi_sep _ _ _ G).
Qed.
Lemma upd_ok P U h a : ginv P U h -> upclosed P -> live a -> a ∉ P ->
  exists h', try_accumulate_update a h = (Ok tt, h') /\ ginv P (a :: U) h' /\ phi P h' = phi P h /\ moved a h h'.
Proof.
  intros G Hup La Ha. destruct (live_rec a La) as (r0 & Hr0 & Rg & Hf & El & Es & Hal & Hlo & _).
  destruct (gi_rec _ _ _ G a r0 Hr0) as (r & Hr & (D1 & D2 & D3) & Rr). unfold try_accumulate_update.
  erewrite bind_ok by (by apply get_ten_ok). rewrite Rr, Rg. change (negb true) with false. cbv iota.
  destruct (fn_part h a r (fun g => gf_with_acc g (gf_acc g + 1)) Hr) as (h1 & E1 & S1 & (o & T1) & T2).
  erewrite bind_ok by exact E1.
  assert (rsim [] h h1) as K1.
  { intros y ry Hy. destruct (T2 y ry Hy) as (oy & Hy'). eexists. split; [exact Hy'|]. split; [done|]. split; [done|done]. }
  destruct (ginv_grow P U h h1 G Hup K1) as [G1 F1]; [by rewrite S1|].
  assert (moved a h h1) as M1. { eapply moved_same; eauto. intros s x Hx. left. by rewrite S1. }
  destruct (cur_grad P U h1 a G1 Hup La Ha) as (b & r' & Hab & Bb & Hb & Hr' & Hcase).
  assert (r' = with_fn r o) as -> by congruence.
  destruct Hcase as [[-> Hn]|(s & Ga & Gb & (rb & Hrb & Hbuf))].
  - simpl in Hn. rewrite Hn.
    assert (allocable (t_dt r) (sizes (t_lay r))) as Hal' by (rewrite <- D1, <- D2; done).
    erewrite bind_ok by (by apply create_ok). set (n := Z.to_nat (size_prod (sizes (t_lay r)))).
    set (h2 := alloc_heap h1 _ _ _ _ _). set (g := length (h_ten h1)). set (s0 := length (h_sto h1)).
    assert (b < g)%nat as Hbg by (by eapply lookup_lt_Some).
    assert (h_ten h2 !! b = Some (with_fn r o)) as Hr2 by (by apply alloc_ten_old).
    erewrite bind_ok by (by apply get_ten_ok). erewrite bind_ok by apply set_ten_eq.
    set (h3 := Hp _ _ _). set (rn := with_grad _ _) in h3.
    assert (h_ten h3 !! b = Some rn) as Hb3. { apply list_lookup_insert. by eapply lookup_lt_Some. }
    assert (forall y, y <> b -> h_ten h3 !! y = h_ten h2 !! y) as Hy3 by (intros; by apply list_lookup_insert_ne).
    assert (h_ten h3 !! g = Some (fresh_rec h1 (t_dt r) (t_lay r) false None)) as Hg3. { rewrite Hy3 by lia. apply alloc_ten. }
    erewrite bind_ok by (by apply get_ten_ok). change (t_sto (fresh_rec h1 (t_dt r) (t_lay r) false None)) with s0.
    assert (h_sto h3 !! s0 = Some (Sto (t_dt r) (size_of (t_dt r) * size_prod (sizes (t_lay r))) (Some (replicate n None)))) as Hs3 by apply alloc_sto.
    rewrite (sto_zero_at h3 s0 (t_dt r) _ _ ltac:(by rewrite <- D1) Hs3). rewrite replicate_length. set (h4 := put _ _ _).
    assert (num_buffer h4 s0 (t_dt r) (t_lay r) (replicate n 0%Qc)) as Hq.
    { split; [by eapply put_lookup|]. rewrite replicate_length. unfold n. pose proof (allocable_prod _ _ Hal'). lia. }
    assert (h_sto h1 !! s0 = None) as Hnone by (by apply lookup_ge_None_2).
    assert (forall s x, h_sto h1 !! s = Some x -> h_sto h4 !! s = Some x) as HS4.
    { intros s x Hx. assert (s <> s0) by congruence. unfold h4. rewrite put_lookup_ne by done. by apply alloc_sto_old. }
    assert (has_grad h4 b s0) as Hg4. { exists rn, g, (fresh_rec h1 (t_dt r) (t_lay r) false None). done. }
    assert (forall y ry, h_ten h1 !! y = Some ry -> exists ry', h_ten h4 !! y = Some ry' /\ same_data ry ry' /\ t_rg ry' = t_rg ry /\
      (y <> b -> t_grad ry' = t_grad ry)) as K4.
    { intros y ry Hy. change (h_ten h4) with (h_ten h3). destruct (decide (y = b)) as [->|Hyb].
      - exists rn. split; [done|]. assert (ry = with_fn r o) as -> by congruence. done.
      - exists ry. rewrite Hy3 by done. split; [by apply alloc_ten_old|]. split; [apply same_data_refl|done]. }
    assert (rsim [b] h1 h4) as K4'.
    { intros y ry Hy. destruct (K4 y ry Hy) as (ry' & ? & ? & ? & Hgy). exists ry'. split_and!; try done. intros Hni. apply Hgy. intros ->. apply Hni. apply elem_of_list_here. }
    assert (ginv P U h4) as G4.
    { eapply (ginv_new P U h1 h4 b (with_fn r o) s0); eauto. }
    exists h4. split; [done|]. split; [|split].
    + eapply ginv_use; [done|done|done|done|done|exact Hq].
    + rewrite <- F1. rewrite (phi_one P h1 h4 b); [|done|done|]; cycle 1.
      { intros c Bc Hc Hcb. eapply gpot_keep; eauto. { by rewrite elem_of_list_singleton. } intros s Hs.
        destruct (live_rec c (base_live c Bc)) as (rc0 & Hrc0 & _). destruct (gi_rec _ _ _ G1 c rc0 Hrc0) as (rc & Hrc & _).
        destruct (gi_base _ _ _ G1 c rc Bc Hc Hrc) as [Hnc|(s' & Gc1 & Gc2)].
        - destruct Hs as (rc' & gc & grc & C1 & C2 & _). congruence.
        - rewrite (has_grad_fun _ _ _ _ Hs Gc1). destruct (buffer_some _ _ _ Gc2) as [xx Hxx]. rewrite Hxx. by apply HS4. }
      rewrite (gpot_num _ _ _ _ _ _ Hg4 Hq), wsum_zero, (gpot_none h1 b (with_fn r o)) by done. ring.
    + eapply moved_trans; [exact M1|]. split.
      * intros y ry Hy. destruct (K4 y ry Hy) as (ry' & ? & ? & ? & Hgy). exists ry'. split_and!; try done.
        intros [?|Hgn]; [by apply Hgy|]. destruct (decide (y = b)) as [->|?]; [|by apply Hgy]. assert (ry = with_fn r o) as -> by congruence. done.
      * intros s x Hx _. by apply HS4.
      * intros s Hs. right. by rewrite (has_grad_fun _ _ _ _ Hs Hg4).
      * intros s Hs. destruct (h_sto h1 !! s) eqn:E; [|done]. rewrite (HS4 _ _ E) in Hs. done.
  - pose proof Ga as (ra & g & gr & A1 & A2 & A3 & A4 & A5 & A6 & A7). assert (ra = with_fn r o) as -> by congruence. simpl in A2. rewrite A2.
    erewrite bind_ok by (by apply get_ten_ok). rewrite A7.
    destruct (live_rec b (base_live b Bb)) as (rb0 & Hrb0 & _ & Hfb & Elb & Esb & Halb & _).
    destruct (gi_rec _ _ _ G1 b rb0 Hrb0) as (rb' & Hrb' & (B1 & B2 & B3) & _). assert (rb' = rb) as -> by congruence.
    destruct Hbuf as [Hraw|(qs & Hnum)].
    + unfold sto_is_alloc. rewrite bind_assoc. erewrite bind_ok by (by apply get_sto_ok). simpl. rewrite bind_ret.
      pose proof (allocable_prod _ _ Halb) as Hpr. pose proof (size_of_pos (t_dt rb)) as Hsz.
      assert (size_of (t_dt rb) * size_prod (sizes (t_lay rb)) <= alloc_max) as Hle by (rewrite <- B1, <- B2; apply Halb).
      rewrite (sto_alloc_zero h1 s (t_dt rb) _ ltac:(by rewrite <- B1) Hle Hraw). rewrite Z.mul_comm, Z.div_mul by lia. rewrite Z.mul_comm.
      destruct (ginv_buf P U h1 b s rb (replicate (Z.to_nat (size_prod (sizes (t_lay rb)))) 0%Qc)) as (G4 & F4 & Q4); try done.
      { rewrite replicate_length, Z2Nat.id; [done|]. rewrite <- B2. apply Hpr. }
      cbv zeta in G4, F4, Q4. set (h4 := put _ _ _) in *.
      assert (rsim [] h1 h4) as K4. { intros y ry Hy. exists ry. split; [done|]. split; [apply same_data_refl|done]. }
      assert (forall y, has_grad h1 y s -> has_grad h4 y s) as Hfw. { intros y. eapply rsim_has_grad; [done|]. apply not_elem_of_nil. }
      exists h4. split; [done|]. split; [|split].
      * eapply ginv_use; [done|done|by apply Hfw|by apply Hfw|exact Hrb|exact Q4].
      * rewrite F4, <- F1, wsum_zero, (gpot_raw h1 b s (t_dt rb) (t_lay rb)) by done. ring.
      * eapply moved_trans; [exact M1|]. eapply moved_same; eauto. intros s' x Hx. destruct (decide (s' = s)) as [->|Hs].
        -- right. split; [done|]. destruct Q4 as [Q4 _]. by eexists.
        -- left. unfold h4. by rewrite put_lookup_ne.
    + pose proof Hnum as [Hs1 _]. unfold sto_is_alloc. rewrite bind_assoc. erewrite bind_ok by (by apply get_sto_ok). simpl. rewrite bind_ret.
      exists h1. split; [done|]. split; [|split; [done|done]]. eapply ginv_use; [done|done|exact Ga|done|done|exact Hnum].
Qed.
(** the gradient of [a], ready to be added to *)
Lemma grad_open P U h a : ginv P U h -> upclosed P -> live a -> a ∉ P -> a ∈ U -> exists r g gr n bytes,
  h_ten h !! a = Some r /\ t_grad r = Some g /\ h_ten h !! g = Some gr /\ t_rg gr = false /\ t_dt gr = t_dt r /\ t_lay gr = lay_of h0 a /\
  floating (t_dt gr) = true /\ lay_ok (t_lay gr) /\ lay_in (t_lay gr) (Z.of_nat n) /\ Z.of_nat n < two63 /\ is_Some (h_sto h !! t_sto gr) /\
  has_grad h a (t_sto gr) /\
  forall m rg term Pi, adds h gr bytes n m rg term Pi -> (forall idx, in_range rg idx -> in_range (shape_of h0 a) (Pi idx)) ->
    exists h', m h = (Ok tt, h') /\ ginv P U h' /\ phi P h' = (phi P h + sum_over rg (fun idx => term idx * d a (Pi idx)))%Qc /\ moved a h h'.
Proof.
  intros G Hup La Ha Hu. destruct (gi_used _ _ _ G a Hu Ha La) as (s & b & rb & qs & U1 & U2 & U3 & U4 & U5).
  destruct (base_ex a La) as (b' & Hb' & Bb & Hle & (ra & rb0 & Hra & Hrb0 & Edt) & Hmap). assert (b' = b) as -> by (by eapply base_fun).
  destruct (live_rec a La) as (ra' & Hra' & _ & Hfa & Ela & Esa & Hala & Hloa & _). assert (ra' = ra) as -> by congruence.
  destruct (live_rec b (base_live b Bb)) as (rb' & Hrb' & _ & Hfb & Elb & Esb & Halb & Hlob & _). assert (rb' = rb0) as -> by congruence.
  destruct (gi_rec _ _ _ G b rb0 Hrb0) as (rb' & Hrb'' & (B1 & B2 & B3) & _). assert (rb' = rb) as -> by congruence. clear Hrb' Hrb'' Hra'.
  pose proof U2 as (r & g & gr & A1 & A2 & A3 & A4 & A5 & A6 & A7).
  destruct (gi_rec _ _ _ G a ra Hra) as (r' & Hr' & (D1 & D2 & D3) & _). assert (r' = r) as -> by congruence.
  destruct (gb_dense _ _ Hgr b) as [Hdi Hdj]; [apply Bb|apply Bb|apply Bb|]. pose proof U5 as [Hs Hlen].
  assert (b ∉ P) as Hb by (by eapply base_notin).
  assert (t_lay gr = lay_of h0 a) as Elg by congruence.
  exists r, g, gr, (length qs), (size_of (t_dt rb) * size_prod (sizes (t_lay rb))). rewrite A7.
  split; [done|]. split; [done|]. split; [done|]. split; [done|]. split; [done|]. split; [done|].
  split; [congruence|]. split; [congruence|].
  assert (lay_in (t_lay gr) (Z.of_nat (length qs))) as Hli.
  { rewrite Elg, Hlen, <- B2. intros idx Hi. destruct (Hmap idx Hi) as (k & Hk & -> & _). rewrite <- Elb. by apply Hdi. }
  split; [done|]. split.
  { rewrite Hlen, <- B2. eapply allocable_lt63. exact Halb. }
  split; [by eexists|]. split; [done|].
  intros m rg term Pi Hm HP. destruct (Hm qs eq_refl) as (qs' & Em & Hl' & Hw).
  assert (t_dt gr = t_dt rb) as Edg by congruence.
  assert (buf h gr (size_of (t_dt rb) * size_prod (sizes (t_lay rb))) qs = h) as Ebuf.
  { unfold buf. rewrite A7, Edg. apply put_id. exact Hs. }
  rewrite Ebuf in Em. exists (buf h gr (size_of (t_dt rb) * size_prod (sizes (t_lay rb))) qs'). split; [done|].
  unfold buf. rewrite A7, Edg.
  destruct (ginv_buf P U h b s rb qs') as (G4 & F4 & Q4); try done. { by rewrite Hl'. }
  cbv zeta in G4, F4, Q4. split; [done|]. split.
  - rewrite F4, (gpot_num _ _ _ _ _ _ U3 U5), Hw.
    assert (sum_over rg (fun idx => term idx * tcell (lay_of h0 b) (d b) (pos (t_lay gr) (Pi idx)))%Qc =
            sum_over rg (fun idx => term idx * d a (Pi idx))%Qc) as ->; [|ring].
    apply sum_over_ext. intros idx Hi. rewrite Elg. destruct (Hmap (Pi idx) (HP idx Hi)) as (k & Hk & -> & ->). f_equal.
    by apply tcell_pos.
  - set (h4 := put _ _ _). eapply moved_same; eauto.
    { intros y ry Hy. exists ry. split; [done|]. split; [apply same_data_refl|done]. }
    intros s' x Hx. destruct (decide (s' = s)) as [->|Hns]; [right; split; [done|]; destruct Q4 as [Q4 _]; by eexists|].
    left. unfold h4. by rewrite put_lookup_ne.
Qed.

(** ** what the steps read *)
Definition free (h : heap) (a : nat) (r : tensor) : Prop := forall s, has_grad h a s -> s <> t_sto r.
Definition reads (h : heap) (a w : nat) (r : tensor) (v : list Z -> val) : Prop :=
  h_ten h !! w = Some r /\ holds h r v /\ free h a r.
Lemma moved_refl a h : moved a h h.
Proof. split; try done; [|auto]. intros y r Hr. exists r. split; [done|]. split; [apply same_data_refl|done]. Qed.
Lemma reads_moved a h h' w r v : moved a h h' -> reads h a w r v -> exists r', reads h' a w r' v /\ same_data r r'.
Proof.
  intros M (H1 & H2 & H3). destruct (mv_rec _ _ _ M w r H1) as (r' & Hr' & D & _). exists r'. split; [|done]. split; [done|].
  destruct (holds_some _ _ _ H2) as [x Hx]. assert (~ has_grad h a (t_sto r)) as Hn by (by intros Hn%H3).
  split.
  - eapply holds_same; [exact D|]. eapply holds_sto; [|exact H2]. rewrite Hx. by eapply mv_sto.
  - intros s Hs E. destruct D as (_ & _ & D3). apply (mv_new _ _ _ M) in Hs as [Hs|Hs]; [apply H3 in Hs|]; congruence.
Qed.
Lemma data_read P U h y r0 : ginv P U h -> upclosed P -> below h0 t y -> h_ten h0 !! y = Some r0 ->
  exists r, same_data r0 r /\ forall a, live a -> a ∉ P -> reads h a y r (contents h0 r0).
Proof.
  intros G Hup By Hr0. destruct (gi_rec _ _ _ G y r0 Hr0) as (r & Hr & D & _). exists r. split; [done|]. intros a La Ha.
  destruct (gb_data _ _ Hgr y r0 By Hr0) as [Hh _]. destruct (holds_some _ _ _ Hh) as [x Hx].
  assert (outside (t_sto r0)) as Hds by (apply data_outside; left; eauto).
  split; [done|]. split.
  - eapply holds_same; [exact D|]. eapply holds_sto; [|exact Hh]. rewrite Hx. by apply (gi_data _ _ _ G).
  - intros s Hs ->. destruct (cur_grad P U h a G Hup La Ha) as (b & ra & _ & Bb & Hb & Hra & [[-> Hn]|(s & G1 & G2 & _)]).
    + destruct Hs as (ra' & g & gr & E1 & E2 & _). congruence.
    + rewrite (has_grad_fun _ _ _ _ G1 Hs) in G2. eapply (gi_apart _ _ _ G b); eauto. destruct D as (_ & _ & <-). done.
Qed.
(** the gradient of the node being processed *)
Definition own (h : heap) (x g : nat) (v : list Z -> val) : Prop := exists rx gr,
  h_ten h !! x = Some rx /\ t_grad rx = Some g /\ h_ten h !! g = Some gr /\ floating (t_dt gr) = true /\ t_lay gr = lay_of h0 x /\ t_dt gr = t_dt rx /\
  holds h gr v /\ has_grad h x (t_sto gr) /\ gpot h x = sum_over (shape_of h0 x) (fun idx => num (v idx) * d x idx)%Qc.
Lemma own_ex P U h x : ginv P U h -> base x -> x ∉ P -> x ∈ U -> exists g v, own h x g v.
Proof.
  intros G Bx Hx Hu. destruct (gi_used _ _ _ G x Hu Hx (base_live x Bx)) as (s & b & rb & qs & U1 & U2 & U3 & U4 & U5).
  assert (x = b) as <- by (eapply base_fun; [apply base_self, Bx|done]).
  destruct (live_rec x (base_live x Bx)) as (r0 & Hr0 & _ & Hf & El & Es & Hal & Hlo & _).
  destruct (gi_rec _ _ _ G x r0 Hr0) as (r & Hr & (D1 & D2 & D3) & _). assert (r = rb) as -> by congruence.
  pose proof U2 as (r & g & gr & A1 & A2 & A3 & A4 & A5 & A6 & A7). assert (r = rb) as -> by congruence.
  destruct (gb_dense _ _ Hgr x) as [Hdi Hdj]; [apply Bx|apply Bx|apply Bx|]. pose proof U5 as [Hs Hlen].
  assert (t_lay gr = lay_of h0 x) as Elg by congruence.
  assert (lay_in (lay_of h0 x) (Z.of_nat (length qs))) as Hli by (rewrite Hlen, <- D2; exact Hdi || (rewrite <- El; exact Hdi)).
  set (v := fun idx => @VF Exact (default 0%Qc (qs !! Z.to_nat (pos (lay_of h0 x) idx)))).
  exists g, v, rb, gr. split; [done|]. split; [done|]. split; [done|]. split; [congruence|]. split; [done|]. split; [done|]. split; [|split].
  - assert (backed h gr (vf qs)) as Hbk.
    { split. { eexists. rewrite A7, A4. exact Hs. } rewrite vf_length, Elg. split; [by rewrite El|]. split; [done|].
      rewrite Hlen, <- D2. by eapply allocable_lt63. }
    split; [by exists (vf qs)|]. rewrite Elg. intros idx Hi. specialize (Hli idx Hi). split.
    + apply elem_lookup. exists (vf qs). split; [by eapply backed_cells|]. rewrite Elg. split; [lia|].
      apply vf_lookup. destruct (qs !! Z.to_nat (pos (lay_of h0 x) idx)) eqn:E; [done|]. apply lookup_ge_None in E. lia.
    + assert (t_dt gr = t_dt r0) as -> by congruence. by apply has_ty_float.
  - by rewrite A7.
  - rewrite (gpot_num _ _ _ _ _ _ U2 U5). by rewrite wsum_tcell.
Qed.
Lemma own_reads P U h x g v a : ginv P U h -> upclosed P -> base x -> x ∉ P -> live a -> a ∉ P -> (a < x)%nat -> own h x g v ->
  exists gr, reads h a g gr v /\ floating (t_dt gr) = true /\ t_lay gr = lay_of h0 x.
Proof.
  intros G Hup Bx Hx La Ha Hlt (rx & gr & H1 & H2 & H3 & H4 & H5 & H5' & H6 & H7 & H8). exists gr. split; [|done]. split; [done|]. split; [done|].
  intros s Hs ->. destruct (base_ex a La) as (b' & Hb' & _ & Hle & _).
  destruct (cur_grad P U h a G Hup La Ha) as (b & ra & Hb & Bb & HbP & Hra & [[-> Hn]|(s & G1 & G2 & _)]).
  - destruct Hs as (ra' & g' & gr' & E1 & E2 & _). congruence.
  - rewrite (has_grad_fun _ _ _ _ G1 Hs) in G2. assert (b' = b) as -> by (by eapply base_fun).
    assert (b = x) as -> by (eapply (gi_sep _ _ _ G); eauto). lia.
Qed.
Lemma own_moved P U h h' x g v a : ginv P U h -> upclosed P -> base x -> x ∉ P -> live a -> a ∉ P -> (a < x)%nat -> moved a h h' ->
  own h x g v -> own h' x g v.
Proof.
  intros G Hup Bx Hx La Ha Hlt M Ho. destruct (own_reads P U h x g v a G Hup Bx Hx La Ha Hlt Ho) as (gr & R & Hf & El).
  destruct Ho as (rx & gr' & H1 & H2 & H3 & H4 & H5 & H5' & H6 & H7 & H8). assert (gr' = gr) as -> by (destruct R; congruence).
  destruct (reads_moved _ _ _ _ _ _ M R) as (gr' & (R1 & R2 & R3) & (D1 & D2 & D3)).
  destruct (mv_rec _ _ _ M x rx H1) as (rx' & Hx' & (X1 & X2 & X3) & _ & Hg). exists rx', gr'. split; [done|]. split; [rewrite Hg; [done|left; lia]|].
  split; [done|]. split; [congruence|]. split; [congruence|]. split; [congruence|]. split; [done|].
  pose proof (moved_has_grad _ _ _ _ _ M H7) as H7'. split; [congruence|]. rewrite <- H8.
  unfold gpot. rewrite (has_grad_gsto _ _ _ H7), (has_grad_gsto _ _ _ H7'). unfold gcells.
  destruct (holds_some _ _ _ H6) as [y Hy]. rewrite Hy. rewrite (mv_sto _ _ _ M _ _ Hy); [done|].
  intros Hs. by eapply R.
Qed.

(** ** accumulating *)
Lemma below_rec a : below h0 t a -> exists r, h_ten h0 !! a = Some r.
Proof.
  intros Ba. destruct (gb_root _ _ Hgr) as (r & f & Hr & _). pose proof (below_le h0 t Hinv a Ba). apply lookup_lt_Some in Hr.
  apply lookup_lt_is_Some. lia.
Qed.
Lemma untracked_rg P U h a r0 : ginv P U h -> h_ten h0 !! a = Some r0 -> ~ tracked h0 a -> exists r, h_ten h !! a = Some r /\ t_rg r = false.
Proof.
  intros G Hr Hn. destruct (gi_rec _ _ _ G a r0 Hr) as (r & Hr' & _ & R). exists r. split; [done|]. rewrite R.
  destruct (t_rg r0) eqn:E; [|done]. destruct Hn. by exists r0.
Qed.
Lemma tracked_dec a : Decision (tracked h0 a).
Proof.
  unfold tracked. destruct (h_ten h0 !! a) as [r|]; [|right; by intros (? & ? & _)].
  destruct (t_rg r) eqn:E; [left; by exists r|right; intros (? & [= <-] & ?); congruence].
Qed.
Lemma ginv_untracked P U h a : ginv P U h -> ~ tracked h0 a -> ginv P (a :: U) h.
Proof. intros G Hn. destruct G as [G1 G2 G3 G4 G5 G6 G7]. split; try done. intros y [->|Hy]%elem_of_cons H1 H2; [by destruct H2|by apply G7]. Qed.
Definition acc_done (P U : list nat) (h : heap) (a : nat) (m : E unit) (q : Qc) : Prop :=
  exists h', m h = (Ok tt, h') /\ ginv P (a :: U) h' /\ phi P h' = (phi P h + q)%Qc /\
    (tracked h0 a -> moved a h h') /\ (~ tracked h0 a -> extends h h').
Lemma acc_skip P U h a w o q : ginv P U h -> below h0 t a -> ~ tracked h0 a -> q = 0%Qc -> acc_done P U h a (try_accumulate_grad a w o) q.
Proof.
  intros G Ba Hn ->. destruct (below_rec a Ba) as (r0 & Hr0). destruct (untracked_rg P U h a r0 G Hr0 Hn) as (r & Hr & Rg).
  exists h. split. { unfold try_accumulate_grad. erewrite bind_ok by (by apply get_ten_ok). by rewrite Rg. }
  split; [by apply ginv_untracked|]. split; [ring|]. split; [done|intros _; apply extends_refl].
Qed.
Lemma acc_add P U h a w wr v rg q : ginv P U h -> upclosed P -> below h0 t a -> a ∉ P ->
  (live a -> reads h a w wr v) -> bmax (shape_of h0 a) (sizes (t_lay wr)) = rg -> Forall (fun n => 0 <= n) rg ->
  covers rg (shape_of h0 a) -> covers rg (sizes (t_lay wr)) ->
  q = sum_over rg (fun idx => num (v (bidx (sizes (t_lay wr)) idx)) * d a (bidx (shape_of h0 a) idx))%Qc ->
  acc_done P U h a (try_accumulate_grad a (Some w) None) q.
Proof.
  intros G Hup Ba Ha HR Erg Hnn Ca Cw ->. destruct (tracked_dec a) as [Ta|Ta].
  2: { apply acc_skip; [done|done|done|]. apply sumq_zero. intros idx _. rewrite (proj2 Hob) by done. ring. }
  pose proof (conj Ba Ta : live a) as La. specialize (HR La). destruct (live_rec a La) as (r0 & Hr0 & Rg & _).
  destruct (gi_rec _ _ _ G a r0 Hr0) as (r & Hr & D & Rr). unfold acc_done, try_accumulate_grad.
  erewrite bind_ok by (by apply get_ten_ok). rewrite Rr, Rg. change (negb true) with false. cbv iota.
  destruct (upd_ok P U h a G Hup La Ha) as (h1 & E1 & G1 & F1 & M1). erewrite bind_ok by exact E1.
  destruct (grad_open P (a :: U) h1 a G1 Hup La Ha) as (r1 & g & gr & n & bytes & A1 & A2 & A3 & A4 & A5 & A6 & A7 & A8 & A9 & A10 & A11 & A12 & Hdo).
  { apply elem_of_list_here. }
  erewrite bind_ok by (by apply get_ten_ok). rewrite A2. simpl deref. rewrite bind_ret.
  destruct (reads_moved _ _ _ _ _ _ M1 HR) as (wr' & (R1 & R2 & R3) & (D1 & D2 & D3)). rewrite D2 in *.
  assert (sizes (t_lay gr) = shape_of h0 a) as Esg by (by rewrite A6).
  destruct (Hdo (op_addeq g w) rg (fun idx => num (v (bidx (sizes (t_lay wr')) idx))) (bidx (shape_of h0 a))) as (h2 & E2 & G2 & F2 & M2).
  - rewrite <- Esg. eapply (addeq_adds h1 gr bytes n A7 A8 A9 A10 A11 g w wr' v rg); try done; try by rewrite Esg.
    intros E. by apply (R3 _ A12).
  - intros idx Hi. by apply Ca.
  - exists h2. split; [done|]. split; [done|]. split; [by rewrite F2, F1|]. split; [by intros _; eapply moved_trans|done].
Qed.
Lemma acc_mul P U h a w wr v o orr vo rg q : ginv P U h -> upclosed P -> below h0 t a -> a ∉ P ->
  (live a -> reads h a w wr v) -> (live a -> reads h a o orr vo) ->
  (floating (t_dt wr) = true -> bmax (bmax (shape_of h0 a) (sizes (t_lay wr))) (sizes (t_lay orr)) = rg) ->
  (floating (t_dt wr) = false -> floating (t_dt orr) = true /\ bmax (bmax (shape_of h0 a) (sizes (t_lay orr))) (sizes (t_lay wr)) = rg) ->
  Forall (fun n => 0 <= n) rg -> covers rg (shape_of h0 a) -> covers rg (sizes (t_lay wr)) -> covers rg (sizes (t_lay orr)) ->
  q = sum_over rg (fun idx => num (v (bidx (sizes (t_lay wr)) idx)) * num (vo (bidx (sizes (t_lay orr)) idx)) * d a (bidx (shape_of h0 a) idx))%Qc ->
  acc_done P U h a (try_accumulate_grad a (Some w) (Some o)) q.
Proof.
  intros G Hup Ba Ha HR HRo Erg1 Erg2 Hnn Ca Cw Co ->. destruct (tracked_dec a) as [Ta|Ta].
  2: { apply acc_skip; [done|done|done|]. apply sumq_zero. intros idx _. rewrite (proj2 Hob) by done. ring. }
  pose proof (conj Ba Ta : live a) as La. specialize (HR La). specialize (HRo La). destruct (live_rec a La) as (r0 & Hr0 & Rg & _).
  destruct (gi_rec _ _ _ G a r0 Hr0) as (r & Hr & D & Rr). unfold acc_done, try_accumulate_grad.
  erewrite bind_ok by (by apply get_ten_ok). rewrite Rr, Rg. change (negb true) with false. cbv iota.
  destruct (upd_ok P U h a G Hup La Ha) as (h1 & E1 & G1 & F1 & M1). erewrite bind_ok by exact E1. simpl (deref (Some w)). rewrite bind_ret.
  destruct (grad_open P (a :: U) h1 a G1 Hup La Ha) as (r1 & g & gr & n & bytes & A1 & A2 & A3 & A4 & A5 & A6 & A7 & A8 & A9 & A10 & A11 & A12 & Hdo).
  { apply elem_of_list_here. }
  destruct (reads_moved _ _ _ _ _ _ M1 HR) as (wr' & (R1 & R2 & R3) & (D1 & D2 & D3)). rewrite D1, D2 in *.
  destruct (reads_moved _ _ _ _ _ _ M1 HRo) as (or' & (O1 & O2 & O3) & (D4 & D5 & D6)). rewrite D4, D5 in *.
  erewrite bind_ok by (by apply get_ten_ok).
  erewrite bind_ok by (by apply get_ten_ok). rewrite A2. simpl (deref (Some g)). rewrite bind_ret.
  assert (sizes (t_lay gr) = shape_of h0 a) as Esg by (by rewrite A6).
  assert (forall idx, in_range rg idx -> in_range (shape_of h0 a) (bidx (shape_of h0 a) idx)) as Hi by (intros idx Hi; by apply Ca).
  destruct (is_float (t_dt wr')) eqn:Efl; rewrite is_float_floating in Efl; unfold tensor_mul_add_f.
  - erewrite bind_ok by (by apply get_ten_ok). erewrite bind_ok by (by apply get_ten_ok). erewrite bind_ok by (by apply get_ten_ok).
    unfold dispatch_ffi. rewrite !is_float_floating, A7, Efl. simpl andb. cbv iota. rewrite bind_ret.
    destruct (Hdo (tensor_mul_acc_f (t_dt gr) (t_dt wr') (t_dt or') gr wr' or') rg
      (fun idx => num (v (bidx (sizes (t_lay wr')) idx)) * num (vo (bidx (sizes (t_lay or')) idx)))%Qc (bidx (shape_of h0 a))) as (h2 & E2 & G2 & F2 & M2); [|done|].
    + rewrite <- Esg. eapply mul_acc_adds; try done; try by rewrite Esg.
      * intros E. by apply (R3 _ A12).
      * intros E. by apply (O3 _ A12).
      * rewrite Esg. by apply Erg1.
    + exists h2. split; [done|]. split; [done|]. split; [by rewrite F2, F1|]. split; [by intros _; eapply moved_trans|done].
  - destruct (Erg2 Efl) as [Efo Erg]. erewrite bind_ok by (by apply get_ten_ok). erewrite bind_ok by (by apply get_ten_ok). erewrite bind_ok by (by apply get_ten_ok).
    unfold dispatch_ffi. rewrite !is_float_floating, A7, Efo. simpl andb. cbv iota. rewrite bind_ret.
    destruct (Hdo (tensor_mul_acc_f (t_dt gr) (t_dt or') (t_dt wr') gr or' wr') rg
      (fun idx => num (vo (bidx (sizes (t_lay or')) idx)) * num (v (bidx (sizes (t_lay wr')) idx)))%Qc (bidx (shape_of h0 a))) as (h2 & E2 & G2 & F2 & M2); [|done|].
    + rewrite <- Esg. eapply mul_acc_adds; try done; try by rewrite Esg.
      * intros E. by apply (O3 _ A12).
      * intros E. by apply (R3 _ A12).
    + exists h2. split; [done|]. split; [done|]. split; [|split; [by intros _; eapply moved_trans|done]]. rewrite F2, F1. f_equal. apply sum_over_ext. intros idx _. ring.
Qed.
Lemma acc_none P U h a : ginv P U h -> upclosed P -> below h0 t a -> a ∉ P -> acc_done P U h a (try_accumulate_grad a None None) 0%Qc.
Proof.
  intros G Hup Ba Ha. destruct (tracked_dec a) as [Ta|Ta]; [|by apply acc_skip].
  pose proof (conj Ba Ta : live a) as La. destruct (live_rec a La) as (r0 & Hr0 & Rg & _).
  destruct (gi_rec _ _ _ G a r0 Hr0) as (r & Hr & D & Rr). unfold acc_done, try_accumulate_grad.
  erewrite bind_ok by (by apply get_ten_ok). rewrite Rr, Rg. change (negb true) with false. cbv iota.
  destruct (upd_ok P U h a G Hup La Ha) as (h1 & E1 & G1 & F1 & M1). erewrite bind_ok by exact E1.
  exists h1. split; [done|]. split; [done|]. split; [rewrite F1; ring|]. split; [done|done].
Qed.
(** ** new tensors *)
Definition newly (h h' : heap) (w : nat) (wr : tensor) (v : list Z -> val) : Prop :=
  extends h h' /\ h_ten h' !! w = Some wr /\ holds h' wr v /\ h_sto h !! t_sto wr = None.
Lemma extends_rsim h h' : extends h h' -> rsim [] h h'.
Proof. intros [_ He] y r Hr. exists r. split; [by apply He|]. split; [apply same_data_refl|done]. Qed.
Lemma newly_ginv P U h h' w wr v : ginv P U h -> upclosed P -> newly h h' w wr v -> ginv P U h' /\ phi P h' = phi P h /\
  forall a, live a -> a ∉ P -> reads h' a w wr v.
Proof.
  intros G Hup (He & Hw & Hh & Hn). destruct (ginv_grow P U h h' G Hup (extends_rsim _ _ He)) as [G' F']; [apply He|].
  split; [done|]. split; [done|]. intros a La Ha. split; [done|]. split; [done|]. intros s Hs ->.
  assert (has_grad h a (t_sto wr)) as Hg by exact (rsim_back P U [] h h' a _ G Hup (extends_rsim _ _ He) La Ha (not_elem_of_nil a) Hs).
  destruct (cur_grad P U h a G Hup La Ha) as (b & ra & _ & Bb & Hb & Hra & [[-> Hna]|(s & G1 & G2 & G3)]).
  - destruct Hg as (ra' & g & gr & E1 & E2 & _). congruence.
  - rewrite (has_grad_fun _ _ _ _ G1 Hg) in G3. apply buffer_some in G3 as [? ?]. congruence.
Qed.
Lemma own_grow h h' x g v : extends h h' -> own h x g v -> own h' x g v.
Proof.
  intros He (rx & gr & H1 & H2 & H3 & H4 & H5 & H5' & H6 & H7 & H8). exists rx, gr. split; [by apply He|]. split; [done|]. split; [by apply He|].
  split; [done|]. split; [done|]. split; [done|]. split; [by eapply holds_extends|].
  assert (has_grad h' x (t_sto gr)) as H7'. { eapply rsim_has_grad; [by apply extends_rsim|apply not_elem_of_nil|done]. }
  split; [done|]. rewrite <- H8. unfold gpot. rewrite (has_grad_gsto _ _ _ H7), (has_grad_gsto _ _ _ H7'). unfold gcells.
  destruct (holds_some _ _ _ H6) as [y Hy]. destruct He as [He _]. by rewrite (He _ _ Hy), Hy.
Qed.
Lemma alloc_newly h dt ss v : allocable dt ss -> (forall idx, in_range ss idx -> has_ty dt (v idx)) ->
  newly h (alloc_heap h dt (contig ss) (rm_cells ss v) false None) (length (h_ten h)) (fresh_rec h dt (contig ss) false None) v.
Proof.
  intros Ha Hv. split; [apply alloc_extends|]. split; [apply alloc_ten|]. split; [by apply alloc_holds|]. simpl. by apply lookup_ge_None_2.
Qed.
Lemma newly_trans h1 h2 h3 w wr v : extends h1 h2 -> newly h2 h3 w wr v -> newly h1 h3 w wr v.
Proof.
  intros He (H1 & H2 & H3 & H4). split; [by eapply extends_trans|]. split; [done|]. split; [done|].
  destruct (h_sto h1 !! t_sto wr) eqn:E; [|done]. apply He in E. congruence.
Qed.
Lemma scalar_newly h : exists h' w wr v, create_scalar I32 (VI (-1)) h = (Ok w, h') /\ newly h h' w wr v /\ sizes (t_lay wr) = [] /\
  t_dt wr = I32 /\ num (v []) = (- 1)%Qc.
Proof.
  rewrite create_scalar_ok. eexists _, _, _, _. split; [done|]. split; [apply alloc_newly; [apply allocable_nil|done]|].
  split; [done|]. split; [done|]. by apply Qc_is_canon.
Qed.
Lemma scalar_len h nt v : Datatypes.S (length (h_ten h)) = length (h_ten (scalar_heap h nt v)).
Proof. unfold scalar_heap. simpl. rewrite app_length. simpl. lia. Qed.
Lemma ones_newly h a r : h_ten h !! a = Some r -> allocable (t_dt r) (shape r) -> exists h' w wr v, ones_like a h = (Ok w, h') /\ newly h h' w wr v /\
  t_lay wr = contig (shape r) /\ t_dt wr = t_dt r /\ t_rg wr = false /\ forall idx, num (v idx) = 1%Qc.
Proof.
  intros Hr Ha. unfold ones_like. erewrite bind_ok by (by apply get_ten_ok). rewrite ones_eq, fill_scalar_ok by done. rewrite cpp_cvt_one, (scalar_len h I8 (VI 1)).
  eexists _, _, _, _. split; [done|]. split.
  { eapply newly_trans; [|apply alloc_newly]; [apply alloc_extends|done|]. intros idx _. destruct (floating (t_dt r)) eqn:Ef.
    - by apply has_ty_float.
    - apply has_ty_int. split; [done|]. by destruct (t_dt r). }
  split; [done|]. split; [done|]. split; [done|]. intros idx. destruct (floating (t_dt r)); simpl; by apply Qc_is_canon.
Qed.
Lemma full_newly h ss q dt : floating dt = true -> allocable dt ss -> exists h' w wr v, full_double ss q dt h = (Ok w, h') /\ newly h h' w wr v /\
  t_lay wr = contig ss /\ t_dt wr = dt /\ forall idx, num (v idx) = q.
Proof.
  intros Hf Ha. unfold full_double. rewrite fill_scalar_ok by done. rewrite (scalar_len h F64 (VF q)).
  assert (cpp_cvt F64 dt (VF q) = Some (VF q)) as -> by (unfold cpp_cvt; by destruct dt).
  eexists _, _, _, _. split; [done|]. split.
  { eapply newly_trans; [|apply alloc_newly]; [apply alloc_extends|done|]. intros idx _. by apply has_ty_float. }
  done.
Qed.

(** ** one step *)
Lemma ginv_sub P U U' h : ginv P U h -> U' ⊆ U -> ginv P U' h.
Proof. intros [G1 G2 G3 G4 G5 G6 G7] H. split; try done. intros y Hy. apply G7. by apply H. Qed.
(** the step of [x] adds what the gradient of [x] pairs to with [e] *)
Definition step_done (e : list Z -> Qc) (P U : list nat) (h : heap) (x : nat) (ins : list nat) (m : E unit) : Prop :=
  exists h', m h = (Ok tt, h') /\ ginv P (ins ++ U) h' /\
    if is_view_dec h0 x then phi P h' = phi P h
    else exists g v, own h' x g v /\ phi P h' = (phi P h + sum_over (shape_of h0 x) (fun idx => num (v idx) * e idx))%Qc.
(** a mean below the root adds this on its own account *)
Definition gain (x : nat) : Qc := if decide (x <> t /\ is_mean h0 x) then mean_rate h0 d x else 0%Qc.
Definition step_gain (e : list Z -> Qc) (P U : list nat) (h : heap) (x : nat) (ins : list nat) (m : E unit) : Prop :=
  exists h', m h = (Ok tt, h') /\ ginv P (ins ++ U) h' /\
    if is_view_dec h0 x then phi P h' = (phi P h + gain x)%Qc
    else exists g v, own h' x g v /\ phi P h' = (phi P h + sum_over (shape_of h0 x) (fun idx => num (v idx) * e idx) + gain x)%Qc.
Lemma input_facts x a : region h0 t x -> a ∈ inputs h0 x -> below h0 t a /\ (a < x)%nat.
Proof. intros [Bx Nx] Hi. split; [by eapply below_in|]. by destruct (inputs_node h0 Hinv x Nx a Hi). Qed.
Lemma own_acc P U h h' x g v a : ginv P U h -> upclosed P -> base x -> x ∉ P -> a ∉ P -> (a < x)%nat -> below h0 t a ->
  (tracked h0 a -> moved a h h') -> (~ tracked h0 a -> extends h h') -> own h x g v -> own h' x g v.
Proof.
  intros G Hup Bx Hx Ha Hlt Ba M Hs Ho. destruct (tracked_dec a) as [Ta|Ta]; [|eapply own_grow; [by apply Hs|done]].
  eapply (own_moved P U h); eauto. done.
Qed.
Lemma acc_pre {A} P U h h1 a (m0 : E A) w k q : ginv P U h -> upclosed P -> below h0 t a -> a ∉ P -> m0 h = (Ok w, h1) -> extends h h1 ->
  acc_done P U h1 a (k w) q -> acc_done P U h a (bind m0 k) q.
Proof.
  intros G Hup Ba Ha E0 He (h2 & E2 & G2 & F2 & M2 & S2). pose proof (extends_rsim _ _ He) as K.
  destruct (ginv_grow P U h h1 G Hup K) as [G1 F1]; [apply He|].
  exists h2. split; [by erewrite bind_ok by exact E0|]. split; [done|]. split; [by rewrite F2, F1|]. split.
  - intros Ta. eapply moved_trans; [|by apply M2]. eapply moved_same; eauto. { done. } intros s y Hy. left. by apply He.
  - intros Ta. eapply extends_trans; [done|by apply S2].
Qed.
Lemma shape_nonneg x : below h0 t x -> Forall (fun n => 0 <= n) (shape_of h0 x).
Proof.
  intros Bx. destruct (below_rec x Bx) as (r & Hr). destruct (gb_data _ _ Hgr x r Bx Hr) as [Hh _]. apply holds_shape in Hh.
  unfold shape_of, lay_of. rewrite Hr. eapply Forall_impl; [exact Hh|]. simpl. lia.
Qed.
(** two additions *)
Lemma two_steps e P U h x g v a b m1 m2 q1 q2 : ginv P U h -> upclosed P -> base x -> x ∉ P -> below h0 t a -> a ∉ P -> (a < x)%nat ->
  below h0 t b -> b ∉ P -> (b < x)%nat -> own h x g v ->
  acc_done P U h a m1 q1 -> (forall h1 U1, ginv P U1 h1 -> own h1 x g v -> acc_done P U1 h1 b m2 q2) ->
  (q1 + q2)%Qc = sum_over (shape_of h0 x) (fun idx => num (v idx) * e idx)%Qc ->
  step_done e P U h x [a; b] (m1 ;;; m2).
Proof.
  intros G Hup Bx Hx Ba Ha La Bb Hb Lb Ho (h1 & E1 & G1 & F1 & M1 & S1) H2 Hq.
  assert (own h1 x g v) as Ho1 by exact (own_acc P U h h1 x g v a G Hup Bx Hx Ha La Ba M1 S1 Ho).
  destruct (H2 h1 (a :: U) G1 Ho1) as (h2 & E2 & G2 & F2 & M2 & S2). assert (own h2 x g v) as Ho2 by exact (own_acc P (a :: U) h1 h2 x g v b G1 Hup Bx Hx Hb Lb Bb M2 S2 Ho1).
  exists h2. split; [by erewrite bind_ok by exact E1|]. split. { eapply ginv_sub; [exact G2|]. set_solver. }
  destruct (is_view_dec h0 x) as [Hv|_]; [by destruct Bx as (_ & _ & ?)|]. exists g, v. split; [done|]. rewrite F2, F1, <- Hq. ring.
Qed.
Lemma one_step e P U h x g v a m q : ginv P U h -> upclosed P -> base x -> x ∉ P -> below h0 t a -> a ∉ P -> (a < x)%nat -> own h x g v ->
  acc_done P U h a m q -> q = sum_over (shape_of h0 x) (fun idx => num (v idx) * e idx)%Qc -> step_done e P U h x [a] m.
Proof.
  intros G Hup Bx Hx Ba Ha La Ho (h1 & E1 & G1 & F1 & M1 & S1) ->.
  assert (own h1 x g v) as Ho1 by exact (own_acc P U h h1 x g v a G Hup Bx Hx Ha La Ba M1 S1 Ho).
  exists h1. split; [done|]. split; [done|]. destruct (is_view_dec h0 x) as [Hv|_]; [by destruct Bx as (_ & _ & ?)|]. by exists g, v.
Qed.
Lemma one_gain e P U h x g v a m q : ginv P U h -> upclosed P -> base x -> x ∉ P -> below h0 t a -> a ∉ P -> (a < x)%nat -> own h x g v ->
  acc_done P U h a m q -> q = (sum_over (shape_of h0 x) (fun idx => num (v idx) * e idx) + gain x)%Qc -> step_gain e P U h x [a] m.
Proof.
  intros G Hup Bx Hx Ba Ha La Ho (h1 & E1 & G1 & F1 & M1 & S1) ->.
  assert (own h1 x g v) as Ho1 by exact (own_acc P U h h1 x g v a G Hup Bx Hx Ha La Ba M1 S1 Ho).
  exists h1. split; [done|]. split; [done|]. destruct (is_view_dec h0 x) as [Hv|_]; [by destruct Bx as (_ & _ & ?)|]. exists g, v. split; [done|].
  rewrite F1. ring.
Qed.
Lemma step_no_gain e P U h x ins m : gain x = 0%Qc -> step_done e P U h x ins m -> step_gain e P U h x ins m.
Proof.
  intros Hg (h' & E1 & G1 & F1). exists h'. split; [done|]. split; [done|]. destruct (is_view_dec h0 x) as [Hv|Hv].
  - rewrite F1, Hg. ring.
  - destruct F1 as (g & v & Ho & F). exists g, v. split; [done|]. rewrite F, Hg. ring.
Qed.
(** with the tensor's own rate of change its share of the sum moves to its operands *)
Lemma step_drop e P U h x ins m : step_gain e P U h x ins m -> live x -> x ∉ P ->
  (forall idx, in_range (shape_of h0 x) idx -> e idx = d x idx) ->
  exists h', m h = (Ok tt, h') /\ ginv P (ins ++ U) h' /\ phi (P ++ [x]) h' = (phi P h + gain x)%Qc.
Proof.
  intros (h' & E1 & G1 & F1) Lx Hx He. exists h'. split; [done|]. split; [done|]. destruct (is_view_dec h0 x) as [Hv|Hv].
  - rewrite phi_keep; [done|]. by intros (_ & _ & ?).
  - destruct Lx as [Bx Tx]. rewrite phi_drop by done. destruct F1 as (g & v & Ho & ->).
    destruct Ho as (? & ? & _ & _ & _ & _ & _ & _ & _ & _ & ->).
    assert (sum_over (shape_of h0 x) (fun idx => num (v idx) * e idx)%Qc = sum_over (shape_of h0 x) (fun idx => num (v idx) * d x idx)%Qc) as ->; [|ring].
    apply sum_over_ext. intros idx Hi. by rewrite He.
Qed.
Lemma step_keep e P U h x ins m : step_gain e P U h x ins m -> (forall idx, e idx = 0%Qc) ->
  exists h', m h = (Ok tt, h') /\ ginv P (ins ++ U) h' /\ phi P h' = (phi P h + gain x)%Qc.
Proof.
  intros (h' & E1 & G1 & F1) He. exists h'. split; [done|]. split; [done|]. destruct (is_view_dec h0 x) as [Hv|Hv]; [done|].
  destruct F1 as (g & v & Ho & ->). unfold sum_over. rewrite sumq_zero; [ring|]. intros idx _. rewrite He. ring.
Qed.
Lemma out_grad_ok h x g v : own h x g v -> out_grad x h = (Ok g, h).
Proof. intros (rx & gr & H1 & H2 & _). unfold out_grad. erewrite bind_ok by (by apply get_ten_ok). by rewrite H2. Qed.
Lemma bind_out_grad {A} h x g v (k : nat -> E A) : own h x g v -> bind (out_grad x) k h = k g h.
Proof. intros Ho. by erewrite bind_ok by (by eapply out_grad_ok). Qed.
Lemma sum_over_add ss f g : (sum_over ss f + sum_over ss g)%Qc = sum_over ss (fun idx => f idx + g idx)%Qc.
Proof. unfold sum_over. by rewrite sumq_add. Qed.

Lemma bind_input {A} ins i a (k : nat -> E A) h : ins !! i = Some a -> bind (input ins i) k h = k a h.
Proof. intros Hi. unfold input. rewrite Hi. apply bind_ret. Qed.

Section step.
Variables (P U : list nat) (h : heap) (x : nat) (f : gradfn) (e : list Z -> Qc).
Hypothesis G : ginv P U h.
Hypothesis Hup : upclosed P.
Hypothesis Rx : region h0 t x.
Hypothesis Trx : tracked h0 x.
Hypothesis Hx : x ∉ P.
Hypothesis Hu : x ∈ U.
Hypothesis Hf : fn_of h0 x = Some f.
Hypothesis node_x : node_ok h0 t x (gf_kind f) (gf_in f).
Hypothesis Hins : forall a, a ∈ gf_in f -> a ∉ P.
Hypothesis rule_or : if decide (x <> t /\ is_mean h0 x) then e [] = 0%Qc else rule2 h0 d e x (gf_kind f) (gf_in f).
Hypothesis Hroot : x = t -> e = d t /\ gpot h t = sum_over (shape_of h0 t) (d t).
Lemma rule_x : gf_kind f <> MeanBack -> rule2 h0 d e x (gf_kind f) (gf_in f).
Proof. intros Hk. pose proof rule_or as H. rewrite decide_False in H; [done|]. intros (_ & f' & Hf' & Hk'). congruence. Qed.
Lemma gain_zero : gf_kind f <> MeanBack -> gain x = 0%Qc.
Proof. intros Hk. unfold gain. rewrite decide_False; [done|]. intros (_ & f' & Hf' & Hk'). congruence. Qed.
Lemma in_facts a : a ∈ gf_in f -> below h0 t a /\ a ∉ P /\ (a < x)%nat.
Proof. intros Hi. destruct (input_facts x a Rx) as [Ba La]; [unfold inputs; by rewrite Hf|]. split; [done|]. split; [by apply Hins|done]. Qed.
Lemma x_base : gf_kind f <> NoBack -> base x.
Proof.
  intros Hk. split; [apply Rx|]. split; [done|]. intros (f' & Hf' & Hk'). congruence.
Qed.
(** shapes of binary operations *)
Lemma bin_shapes a b : a ∈ gf_in f -> b ∈ gf_in f -> shape_of h0 x = bshape (shape_of h0 a) (shape_of h0 b) ->
  compatible (shape_of h0 a) (shape_of h0 b) -> no_zero_one (shape_of h0 a) (shape_of h0 b) ->
  let A := shape_of h0 a in let B := shape_of h0 b in let X := shape_of h0 x in
  bmax A B = X /\ bmax A X = X /\ bmax B X = X /\ bmax X A = X /\ bmax X B = X /\ bmax X X = X /\ covers X A /\ covers X B /\ covers X X /\ Forall (fun n => 0 <= n) X.
Proof.
  intros Ha Hb Es Hc Hz A B' X. pose proof (shape_nonneg a (proj1 (in_facts a Ha))) as Na. pose proof (shape_nonneg b (proj1 (in_facts b Hb))) as Nb.
  pose proof (bmax_bshape A B' Na Nb Hc Hz) as E. assert (bmax A B' = X) as E' by (unfold X; rewrite Es; done).
  assert (bmax A X = X) as E1 by (rewrite <- E'; apply bmax_abs_l). assert (bmax B' X = X) as E2 by (rewrite <- E'; apply bmax_abs_r).
  split; [done|]. split; [done|]. split; [done|]. split; [by rewrite bmax_comm|]. split; [by rewrite bmax_comm|]. split; [apply bmax_idem|].
  split; [unfold X; rewrite Es; apply covers_l|]. split; [unfold X; rewrite Es; by apply covers_r|]. split; [apply covers_self|].
  apply shape_nonneg, Rx.
Qed.
Lemma step_eq ins m m' : m h = m' h -> step_done e P U h x ins m' -> step_done e P U h x ins m.
Proof. intros E (h' & E' & K). exists h'. by rewrite E. Qed.
Lemma gain_eq ins m m' : m h = m' h -> step_gain e P U h x ins m' -> step_gain e P U h x ins m.
Proof. intros E (h' & E' & K). exists h'. by rewrite E. Qed.
Lemma acc_eq U1 h1 c m m' q : m h1 = m' h1 -> acc_done P U1 h1 c m' q -> acc_done P U1 h1 c m q.
Proof. intros E (h' & E' & K). exists h'. by rewrite E. Qed.
(** adding the node's own gradient *)
Lemma add_own g v c : gf_kind f <> NoBack -> c ∈ gf_in f -> bmax (shape_of h0 c) (shape_of h0 x) = shape_of h0 x -> covers (shape_of h0 x) (shape_of h0 c) ->
  forall h1 U1, ginv P U1 h1 -> own h1 x g v -> acc_done P U1 h1 c (try_accumulate_grad c (Some g) None)
      (sum_over (shape_of h0 x) (fun idx => num (v idx) * d c (bidx (shape_of h0 c) idx))%Qc).
Proof.
  intros Hk Hc' Sc Cc h1 U1 G1 Ho1. destruct (in_facts c Hc') as (Bc & Hcn & Lc). pose proof Ho1 as (rx & gr & _ & _ & Hgr' & _ & Elg & _).
  assert (sizes (t_lay gr) = shape_of h0 x) as Esz by (by rewrite Elg). pose proof (x_base Hk) as Bx.
  eapply (acc_add P U1 h1 c g gr v (shape_of h0 x)); try done; try by rewrite Esz.
  - intros Lvc. destruct (own_reads P U1 h1 x g v c G1 Hup Bx Hx Lvc Hcn Lc Ho1) as (gr' & R & _). assert (gr' = gr) as -> by (destruct R; congruence). done.
  - apply shape_nonneg, Rx.
  - rewrite Esz. apply covers_self.
  - apply sum_over_ext. intros idx Hi. by rewrite Esz, (bidx_self (shape_of h0 x)).
Qed.
(** adding it times another tensor, given first or second *)
Lemma mul_own g v c w wr vw rg h1 U1 : gf_kind f <> NoBack -> c ∈ gf_in f -> ginv P U1 h1 -> own h1 x g v -> (live c -> reads h1 c w wr vw) ->
  bmax (bmax (shape_of h0 c) (sizes (t_lay wr))) (shape_of h0 x) = rg -> bmax (bmax (shape_of h0 c) (shape_of h0 x)) (sizes (t_lay wr)) = rg ->
  Forall (fun n => 0 <= n) rg -> covers rg (shape_of h0 c) -> covers rg (sizes (t_lay wr)) -> covers rg (shape_of h0 x) ->
  let q := sum_over rg (fun idx => num (vw (bidx (sizes (t_lay wr)) idx)) * num (v (bidx (shape_of h0 x) idx)) * d c (bidx (shape_of h0 c) idx))%Qc in
  acc_done P U1 h1 c (try_accumulate_grad c (Some w) (Some g)) q /\ acc_done P U1 h1 c (try_accumulate_grad c (Some g) (Some w)) q.
Proof.
  intros Hk Hc' G1 Ho1 HR E1 E2 Nn C1 C2 C3 q. destruct (in_facts c Hc') as (Bc & Hcn & Lc). pose proof Ho1 as (rx & gr & _ & _ & Hgr' & Hfl & Elg & _).
  assert (sizes (t_lay gr) = shape_of h0 x) as Esz by (by rewrite Elg). pose proof (x_base Hk) as Bx.
  assert (live c -> reads h1 c g gr v) as HRg.
  { intros Lvc. destruct (own_reads P U1 h1 x g v c G1 Hup Bx Hx Lvc Hcn Lc Ho1) as (gr' & R & _). assert (gr' = gr) as -> by (destruct R; congruence). done. }
  split.
  - eapply (acc_mul P U1 h1 c w wr vw g gr v rg); try done; try by rewrite Esz. 
  - eapply (acc_mul P U1 h1 c g gr v w wr vw rg); try done; try by rewrite Esz. { rewrite Hfl. done. }
    unfold q. rewrite Esz. apply sum_over_ext. intros idx Hi. ring.
Qed.
Lemma bin_facts a b : gf_kind f <> NoBack -> gf_in f = [a; b] -> base x /\ (exists g v, own h x g v) /\ a ∈ gf_in f /\ b ∈ gf_in f /\
  (below h0 t a /\ a ∉ P /\ (a < x)%nat) /\ (below h0 t b /\ b ∉ P /\ (b < x)%nat).
Proof.
  intros Hk Ei. pose proof (x_base Hk) as Bx. split; [done|]. split; [exact (own_ex P U h x G Bx Hx Hu)|].
  assert (a ∈ gf_in f) as Ha by (rewrite Ei; apply elem_of_list_here).
  assert (b ∈ gf_in f) as Hb by (rewrite Ei; apply elem_of_list_further, elem_of_list_here).
  split; [done|]. split; [done|]. split; by apply in_facts.
Qed.
Lemma un_facts a : gf_kind f <> NoBack -> gf_in f = [a] -> base x /\ (exists g v, own h x g v) /\ a ∈ gf_in f /\
  (below h0 t a /\ a ∉ P /\ (a < x)%nat).
Proof.
  intros Hk Ei. pose proof (x_base Hk) as Bx. split; [done|]. split; [exact (own_ex P U h x G Bx Hx Hu)|].
  assert (a ∈ gf_in f) as Ha by (rewrite Ei; apply elem_of_list_here). split; [done|]. by apply in_facts.
Qed.
Lemma step_add a b : gf_kind f = AddBack -> gf_in f = [a; b] -> step_done e P U h x [a; b] (step_back x AddBack [a; b]).
Proof.
  intros Ek Ei. pose proof (rule_x ltac:(congruence)) as Hr. pose proof node_x as Hn. rewrite Ek, Ei in Hr, Hn. destruct Hn as (Es & Hc & Hz).
  assert (gf_kind f <> NoBack) as Hk by congruence.
  destruct (bin_facts a b Hk Ei) as (Bx & (g & v & Ho) & Ia & Ib & (Ba & Ha & La) & (Bb & Hb & Lb)).
  destruct (bin_shapes a b) as (S1 & S2 & S3 & S4 & S5 & S6 & C1 & C2 & C3 & Nn); [done..|].
  eapply step_eq with (m' := try_accumulate_grad a (Some g) None ;;; let! g := out_grad x in try_accumulate_grad b (Some g) None).
  { unfold step_back. rewrite !(bind_input [a; b] 0 a), !(bind_input [a; b] 1 b) by done. by erewrite bind_out_grad. }
  eapply (two_steps e P U h x g v a b); try done.
  - by apply add_own.
  - intros h1 U1 G1 Ho1. eapply acc_eq; [by erewrite bind_out_grad|]. by apply add_own.
  - rewrite sum_over_add. apply sum_over_ext. intros idx Hi. rewrite Hr by done. ring.
Qed.
Lemma step_sub a b : gf_kind f = SubBack -> gf_in f = [a; b] -> step_done e P U h x [a; b] (step_back x SubBack [a; b]).
Proof.
  intros Ek Ei. pose proof (rule_x ltac:(congruence)) as Hr. pose proof node_x as Hn. rewrite Ek, Ei in Hr, Hn. destruct Hn as (Es & Hc & Hz).
  assert (gf_kind f <> NoBack) as Hk by congruence.
  destruct (bin_facts a b Hk Ei) as (Bx & (g & v & Ho) & Ia & Ib & (Ba & Ha & La) & (Bb & Hb & Lb)).
  destruct (bin_shapes a b) as (S1 & S2 & S3 & S4 & S5 & S6 & C1 & C2 & C3 & Nn); [done..|].
  eapply step_eq with (m' := try_accumulate_grad a (Some g) None ;;; let! g := out_grad x in let! m := create_scalar I32 (VI (-1)) in try_accumulate_grad b (Some g) (Some m)).
  { unfold step_back. rewrite !(bind_input [a; b] 0 a), !(bind_input [a; b] 1 b) by done. by erewrite bind_out_grad. }
  eapply (two_steps e P U h x g v a b _ _ _ (sum_over (shape_of h0 x) (fun idx => - (1) * num (v idx) * d b (bidx (shape_of h0 b) idx))%Qc)); try done.
  - by apply add_own.
  - intros h1 U1 G1 Ho1. destruct (scalar_newly h1) as (h2 & w & wr & vw & E2 & Hnew & Esz & _ & Hv).
    destruct (newly_ginv P U1 h1 h2 w wr vw G1 Hup Hnew) as (G2 & F2 & HR). assert (own h2 x g v) as Ho2 by (eapply own_grow; [apply Hnew|done]).
    eapply acc_eq; [by erewrite bind_out_grad|]. eapply acc_pre; [done|done|done|done|exact E2|apply Hnew|].
    destruct (mul_own g v b w wr vw (shape_of h0 x) h2 U1 Hk Ib G2 Ho2) as [_ Hd]; try done.
    + intros Lv. by apply HR.
    + by rewrite Esz, bmax_nil.
    + by rewrite Esz, bmax_nil.
    + rewrite Esz. apply covers_nil.
    + cbv zeta in Hd. rewrite Esz in Hd. erewrite sum_over_ext; [exact Hd|]. intros idx Hi. cbv beta. by rewrite bidx_nil, Hv, (bidx_self (shape_of h0 x)).
  - rewrite sum_over_add. apply sum_over_ext. intros idx Hi. rewrite Hr by done. ring.
Qed.
(** reading data *)
Lemma data_of h1 U1 y : ginv P U1 h1 -> below h0 t y -> exists r vy, sizes (t_lay r) = shape_of h0 y /\
  (forall a, live a -> a ∉ P -> reads h1 a y r vy) /\ (forall idx, num (vy idx) = value h0 y idx) /\ h_ten h1 !! y = Some r /\
  holds h1 r vy /\ (exists r0, h_ten h0 !! y = Some r0 /\ same_data r0 r).
Proof.
  intros G1 By. destruct (below_rec y By) as (r0 & Hr0). destruct (data_read P U1 h1 y r0 G1 Hup By Hr0) as (r & D & HR).
  assert (live x) as Lx by (split; [apply Rx|done]). destruct (HR x Lx Hx) as (R1 & R2 & _).
  exists r, (contents h0 r0). destruct D as (D1 & D2 & D3). split; [unfold shape_of, lay_of; by rewrite Hr0, D2|]. split; [done|].
  split; [|split; [done|split; [done|by exists r0]]]. intros idx. unfold value. by rewrite Hr0.
Qed.
Lemma step_mul a b : gf_kind f = MulBack -> gf_in f = [a; b] -> step_done e P U h x [a; b] (step_back x MulBack [a; b]).
Proof.
  intros Ek Ei. pose proof (rule_x ltac:(congruence)) as Hr. pose proof node_x as Hn. rewrite Ek, Ei in Hr, Hn. destruct Hn as (Es & Hc & Hz).
  assert (gf_kind f <> NoBack) as Hk by congruence.
  destruct (bin_facts a b Hk Ei) as (Bx & (g & v & Ho) & Ia & Ib & (Ba & Ha & La) & (Bb & Hb & Lb)).
  destruct (bin_shapes a b) as (S1 & S2 & S3 & S4 & S5 & S6 & C1 & C2 & C3 & Nn); [done..|].
  eapply step_eq with (m' := try_accumulate_grad a (Some b) (Some g) ;;; let! g := out_grad x in try_accumulate_grad b (Some a) (Some g)).
  { unfold step_back. rewrite !(bind_input [a; b] 0 a), !(bind_input [a; b] 1 b) by done. by erewrite bind_out_grad. }
  eapply (two_steps e P U h x g v a b _ _
    (sum_over (shape_of h0 x) (fun idx => value h0 b (bidx (shape_of h0 b) idx) * num (v idx) * d a (bidx (shape_of h0 a) idx))%Qc)
    (sum_over (shape_of h0 x) (fun idx => value h0 a (bidx (shape_of h0 a) idx) * num (v idx) * d b (bidx (shape_of h0 b) idx))%Qc)); try done.
  - destruct (data_of h U b G Bb) as (rb & vb & Eb & HR & Hv & _).
    destruct (mul_own g v a b rb vb (shape_of h0 x) h U Hk Ia G Ho) as [Hd _]; try done; try by rewrite Eb.
    + intros Lv. by apply HR.
    + by rewrite Eb, S1.
    + by rewrite Eb, S2.
    + cbv zeta in Hd. erewrite sum_over_ext; [exact Hd|]. intros idx Hi. cbv beta. by rewrite Eb, Hv, (bidx_self (shape_of h0 x)).
  - intros h1 U1 G1 Ho1. eapply acc_eq; [by erewrite bind_out_grad|].
    destruct (data_of h1 U1 a G1 Ba) as (ra & va & Ea & HR & Hv & _).
    destruct (mul_own g v b a ra va (shape_of h0 x) h1 U1 Hk Ib G1 Ho1) as [Hd _]; try done; try by rewrite Ea.
    + intros Lv. by apply HR.
    + by rewrite Ea, (bmax_comm (shape_of h0 b)), S1.
    + by rewrite Ea, S3.
    + cbv zeta in Hd. erewrite sum_over_ext; [exact Hd|]. intros idx Hi. cbv beta. by rewrite Ea, Hv, (bidx_self (shape_of h0 x)).
  - rewrite sum_over_add. apply sum_over_ext. intros idx Hi. rewrite Hr by done. ring.
Qed.
Lemma in_range_nil_inv idx : in_range [] idx -> idx = [].
Proof. intros H. by inversion H. Qed.
Lemma sum_over_nil q : sum_over [] q = q [].
Proof. unfold sum_over. simpl. unfold sumq. simpl. ring. Qed.
Lemma sum_over_scale ss c q : (c * sum_over ss q)%Qc = sum_over ss (fun idx => c * q idx)%Qc.
Proof. unfold sum_over. by rewrite sumq_scale. Qed.
Lemma step_clone a : gf_kind f = CloneBack -> gf_in f = [a] -> step_done e P U h x [a] (step_back x CloneBack [a]).
Proof.
  intros Ek Ei. pose proof (rule_x ltac:(congruence)) as Hr. pose proof node_x as Hn. rewrite Ek, Ei in Hr, Hn. simpl in Hn.
  assert (gf_kind f <> NoBack) as Hk by congruence. destruct (un_facts a Hk Ei) as (Bx & (g & v & Ho) & Ia & (Ba & Ha & La)).
  eapply step_eq with (m' := try_accumulate_grad a (Some g) None).
  { unfold step_back. rewrite !(bind_input [a] 0 a) by done. by erewrite bind_out_grad. }
  eapply (one_step e P U h x g v a _ (sum_over (shape_of h0 x) (fun idx => num (v idx) * d a (bidx (shape_of h0 a) idx)))%Qc); try done.
  - apply add_own; try done; rewrite Hn; [apply bmax_idem|apply covers_self].
  - apply sum_over_ext. intros idx Hi. rewrite Hr, bidx_self by (try done; by rewrite <- Hn). done.
Qed.
Lemma step_sum a : gf_kind f = SumBack -> gf_in f = [a] -> step_done e P U h x [a] (step_back x SumBack [a]).
Proof.
  intros Ek Ei. pose proof (rule_x ltac:(congruence)) as Hr. pose proof node_x as Hn. rewrite Ek, Ei in Hr, Hn. simpl in Hn, Hr.
  assert (gf_kind f <> NoBack) as Hk by congruence. destruct (un_facts a Hk Ei) as (Bx & (g & v & Ho) & Ia & (Ba & Ha & La)).
  destruct (data_of h U a G Ba) as (ra & va & Ea & _ & _ & Hra & _ & (ra0 & Hra0 & (D1 & D2 & D3))).
  destruct (gb_data _ _ Hgr a ra0 Ba Hra0) as [Hh0 Hal]. pose proof (holds_shape _ _ _ Hh0) as Hsh.
  destruct (ones_newly h a ra Hra) as (h1 & w & wr & vw & E1 & Hnew & Elw & _ & _ & Hv).
  { unfold shape in *. rewrite D1, D2 in *. done. }
  destruct (newly_ginv P U h h1 w wr vw G Hup Hnew) as (G1 & F1 & HR). assert (own h1 x g v) as Ho1 by (eapply own_grow; [apply Hnew|done]).
  assert (sizes (t_lay wr) = shape_of h0 a) as Ew by (rewrite Elw; exact Ea).
  eapply step_eq with (m' := let! o := ones_like a in let! g := out_grad x in try_accumulate_grad a (Some o) (Some g)).
  { unfold step_back. by rewrite !(bind_input [a] 0 a) by done. }
  eapply (one_step e P U h x g v a _ (sum_over (shape_of h0 a) (fun idx => num (vw (bidx (sizes (t_lay wr)) idx)) * num (v (bidx (shape_of h0 x) idx)) * d a (bidx (shape_of h0 a) idx)))%Qc); try done.
  - eapply acc_pre; [done|done|done|done|exact E1|apply Hnew|]. eapply acc_eq; [by erewrite bind_out_grad|].
    destruct (mul_own g v a w wr vw (shape_of h0 a) h1 U Hk Ia G1 Ho1) as [Hd _]; try done; try rewrite Ew; try apply covers_self.
    + intros Lv. by apply HR.
    + by rewrite Hn, bmax_nil, bmax_idem.
    + by rewrite Hn, bmax_nil, bmax_idem.
    + by apply shape_nonneg.
    + rewrite Hn. apply covers_nil.
  - rewrite Ew, Hn, sum_over_nil, Hr, sum_over_scale. apply sum_over_ext. intros idx Hi. rewrite Hv, bidx_nil, bidx_self by done. ring.
Qed.
Lemma step_mean a : gf_kind f = MeanBack -> gf_in f = [a] -> step_gain e P U h x [a] (step_back x MeanBack [a]).
Proof.
  intros Ek Ei. pose proof rule_or as Hr. pose proof node_x as Hn. rewrite Ek, Ei in Hr, Hn. simpl in Hn.
  assert (gf_kind f <> NoBack) as Hk by congruence. destruct (un_facts a Hk Ei) as (Bx & (g & v & Ho) & Ia & (Ba & Ha & La)).
  destruct (data_of h U a G Ba) as (ra & va & Ea & _ & _ & Hra & _ & (ra0 & Hra0 & (D1 & D2 & D3))).
  destruct (gb_data _ _ Hgr a ra0 Ba Hra0) as [Hh0 Hal]. pose proof (holds_shape _ _ _ Hh0) as Hsh.
  assert (floating (t_dt ra) = true) as Hfa.
  { destruct (tinv_inputs h0 x f Hinv Hf) as (rx & Hrx & Hfx & Hfit & _). rewrite Ek, Ei in Hfit. destruct Hfit as (ra' & Hra' & _ & Edt).
    assert (ra' = ra0) as -> by congruence. destruct (ok_fn _ _ _ (Hinv x rx Hrx) f Hfx) as (_ & Hfl & _). rewrite Edt, D1 in Hfl.
    by destruct (t_dt ra). }
  assert (allocable (t_dt ra) (sizes (t_lay ra))) as Hal'. { unfold shape in *. rewrite D1, D2 in *. done. }
  destruct (full_newly h (sizes (t_lay ra)) (f_div FT64 (f_of_Z FT64 1) (f_of_Z FT64 (lnumel (t_lay ra)))) (t_dt ra) Hfa Hal') as (h1 & w & wr & vw & E1 & Hnew & Elw & Edw & Hv).
  destruct (newly_ginv P U h h1 w wr vw G Hup Hnew) as (G1 & F1 & HR). assert (own h1 x g v) as Ho1 by (eapply own_grow; [apply Hnew|done]).
  assert (sizes (t_lay wr) = shape_of h0 a) as Ew by (rewrite Elw; exact Ea).
  eapply gain_eq with (m' := let! fl := full_double (sizes (t_lay ra)) (f_div FT64 (f_of_Z FT64 1) (f_of_Z FT64 (lnumel (t_lay ra)))) (t_dt ra) in try_accumulate_grad a (Some fl) None).
  { unfold step_back. rewrite !(bind_input [a] 0 a) by done. by erewrite bind_ok by (by apply get_ten_ok). }
  eapply (one_gain e P U h x g v a _ (sum_over (shape_of h0 a) (fun idx => / qc_of_Z (size_prod (shape_of h0 a)) * d a idx))%Qc); try done.
  - eapply acc_pre; [done|done|done|done|exact E1|apply Hnew|].
    eapply (acc_add P U h1 a w wr vw (shape_of h0 a)); try done; try rewrite Ew; try apply covers_self.
    + intros Lv. by apply HR.
    + apply bmax_idem.
    + by apply shape_nonneg.
    + apply sum_over_ext. intros idx Hi. rewrite Hv, bidx_self by done. f_equal.
      unfold lnumel. rewrite (allocable_numel _ _ Hal'), Ea. simpl. unfold Qcdiv. 
      assert (qc_of_Z 1 = 1%Qc) as -> by (by apply Qc_is_canon). ring.
  - assert (sum_over (shape_of h0 a) (fun idx => / qc_of_Z (size_prod (shape_of h0 a)) * d a idx)%Qc =
      (sum_over (shape_of h0 a) (d a) / qc_of_Z (size_prod (shape_of h0 a)))%Qc) as ->.
    { unfold Qcdiv. rewrite Qcmult_comm, sum_over_scale. done. }
    unfold gain. case_decide as Hm.
    + rewrite Hn, sum_over_nil, Hr. unfold mean_rate, inputs. rewrite Hf, Ei. simpl. ring.
    + assert (x = t) as Ext. { destruct (decide (x = t)); [done|]. destruct Hm. split; [done|]. by exists f. }
      destruct (Hroot Ext) as [-> Hone]. destruct Ho as (rx & gr & _ & _ & _ & _ & _ & _ & _ & _ & Hp). rewrite Ext in Hp |- *.
      simpl in Hr. rewrite <- Hp, Hone, <- Ext, Hn, sum_over_nil, Ext, Hr. ring.
Qed.
Lemma step_view a : gf_kind f = NoBack -> gf_in f = [a] -> step_done e P U h x [a] (step_back x NoBack [a]).
Proof.
  intros Ek Ei. destruct (in_facts a) as (Ba & Ha & La); [rewrite Ei; apply elem_of_list_here|].
  eapply step_eq with (m' := try_accumulate_grad a None None).
  { unfold step_back. by rewrite !(bind_input [a] 0 a) by done. }
  destruct (acc_none P U h a G Hup Ba Ha) as (h1 & E1 & G1 & F1 & _). exists h1. split; [done|]. split; [done|].
  destruct (is_view_dec h0 x) as [_|[]]; [rewrite F1; ring|by exists f].
Qed.
Lemma step_known a kg : gf_kind f = KnownGradBack kg -> gf_in f = [a] -> step_done e P U h x [a] (step_back x (KnownGradBack kg) [a]).
Proof.
  intros Ek Ei. pose proof (rule_x ltac:(congruence)) as Hr. pose proof node_x as Hn. rewrite Ek, Ei in Hr, Hn. destruct Hn as ((rk0 & Hrk0 & Hh0) & Sk & Hcase).
  assert (gf_kind f <> NoBack) as Hk by congruence. destruct (un_facts a Hk Ei) as (Bx & (g & v & Ho) & Ia & (Ba & Ha & La)).
  destruct (gi_rec _ _ _ G kg rk0 Hrk0) as (rk & Hrk & D & _). destruct (holds_some _ _ _ Hh0) as [y Hy].
  assert (outside (t_sto rk0)) as Hds. { apply data_outside. right. exists x, f, kg, rk0. split; [apply Rx|done]. }
  assert (live a -> reads h a kg rk (contents h0 rk0)) as HR.
  { intros Lv. split; [done|]. split.
    - eapply holds_same; [exact D|]. eapply holds_sto; [|exact Hh0]. rewrite Hy. by apply (gi_data _ _ _ G).
    - intros s Hs ->. destruct (cur_grad P U h a G Hup Lv Ha) as (b & ra & _ & Bb & Hb & Hra & [[-> Hn]|(s & G1 & G2 & _)]).
      + destruct Hs as (ra' & g' & gr' & E1 & E2 & _). congruence.
      + rewrite (has_grad_fun _ _ _ _ G1 Hs) in G2. eapply (gi_apart _ _ _ G b); eauto. destruct D as (_ & _ & <-). done. }
  assert (sizes (t_lay rk) = shape_of h0 a) as Esk.
  { rewrite <- Sk. unfold shape_of, lay_of. rewrite Hrk0. destruct D as (_ & -> & _). done. }
  assert (forall idx, num (contents h0 rk0 idx) = value h0 kg idx) as Hv by (intros idx; unfold value; by rewrite Hrk0).
  assert (covers (shape_of h0 a) (shape_of h0 x)) as Cx by (destruct Hcase as [-> | ->]; [apply covers_self|apply covers_nil]).
  assert (bmax (shape_of h0 a) (shape_of h0 x) = shape_of h0 a) as Sx by (destruct Hcase as [-> | ->]; [apply bmax_idem|apply bmax_nil]).
  eapply step_eq with (m' := try_accumulate_grad a (Some kg) (Some g)).
  { unfold step_back. rewrite !(bind_input [a] 0 a) by done. by erewrite bind_out_grad. }
  destruct (mul_own g v a kg rk (contents h0 rk0) (shape_of h0 a) h U Hk Ia G Ho) as [Hd _]; try done; try rewrite Esk; try apply covers_self.
  { by rewrite bmax_idem. } { by rewrite Sx, bmax_idem. } { by apply shape_nonneg. }
  eapply (one_step e P U h x g v a _ (sum_over (shape_of h0 a) (fun idx => num (contents h0 rk0 (bidx (sizes (t_lay rk)) idx)) * num (v (bidx (shape_of h0 x) idx)) * d a (bidx (shape_of h0 a) idx)))%Qc); try done. rewrite Esk. simpl in Hr.
  destruct (decide (shape_of h0 x = shape_of h0 a)) as [E|E].
  - rewrite E. apply sum_over_ext. intros idx Hi. rewrite bidx_self, Hv, Hr by (by rewrite ?E). ring.
  - destruct Hcase as [?|E0]; [done|]. rewrite E0, sum_over_nil, Hr, sum_over_scale. apply sum_over_ext. intros idx Hi.
    rewrite bidx_nil, bidx_self, Hv by done. ring.
Qed.
Lemma step_div a b : gf_kind f = DivBack -> gf_in f = [a; b] -> step_done e P U h x [a; b] (step_back x DivBack [a; b]).
Proof.
  intros Ek Ei. pose proof (rule_x ltac:(congruence)) as Hr. pose proof node_x as Hn. rewrite Ek, Ei in Hr, Hn. destruct Hn as (Es & Hc & Hz & Sb & Ta & Tb & Hq).
  assert (gf_kind f <> NoBack) as Hk by congruence.
  destruct (bin_facts a b Hk Ei) as (Bx & (g & v & Ho) & Ia & Ib & (Ba & Ha & La) & (Bb & Hb & Lb)).
  destruct (bin_shapes a b) as (S1 & S2 & S3 & S4 & S5 & S6 & C1 & C2 & C3 & Nn); [done..|].
  pose proof (conj Ba Ta : live a) as Va. pose proof (conj Bb Tb : live b) as Vb.
  eapply step_eq with (m' := (try_accumulate_update a ;;; let! ar := get_ten a in let! ga := deref (t_grad ar) in let! g := out_grad x in tensor_div_back_numerator_f ga g b) ;;;
    (try_accumulate_update b ;;; let! br := get_ten b in let! me := get_ten x in dispatch_ff (t_dt br) (t_dt me) ;;;
      let! gb := deref (t_grad br) in let! g := out_grad x in let! gbr := get_ten gb in let! gr := get_ten g in
      tensor_div_back_denominator (t_dt br) (t_dt me) gbr gr me br)).
  { unfold step_back. rewrite !(bind_input [a; b] 0 a), !(bind_input [a; b] 1 b) by done. rewrite bind_assoc. unfold bind.
    destruct (try_accumulate_update a h) as [[?| | |] ?]; try done. destruct (get_ten a _) as [[?| | |] ?]; try done. 
    destruct (deref _ _) as [[?| | |] ?]; try done. destruct (out_grad x _) as [[?| | |] ?]; done. }
  eapply (two_steps e P U h x g v a b _ _
    (sum_over (shape_of h0 x) (fun idx => num (v idx) / value h0 b idx * d a (bidx (shape_of h0 a) idx))%Qc)
    (sum_over (shape_of h0 x) (fun idx => - (num (v idx) * value h0 x idx / value h0 b idx) * d b idx)%Qc)); try done.
  - destruct (upd_ok P U h a G Hup Va Ha) as (h1 & E1 & G1 & F1 & M1). unfold acc_done. erewrite bind_ok by exact E1.
    assert (own h1 x g v) as Ho1 by exact (own_moved P U h h1 x g v a G Hup Bx Hx Va Ha La M1 Ho).
    destruct (grad_open P (a :: U) h1 a G1 Hup Va Ha) as (r1 & ga & gr & n & bytes & A1 & A2 & A3 & A4 & A5 & A6 & A7 & A8 & A9 & A10 & A11 & A12 & Hdo); [apply elem_of_list_here|].
    destruct (own_reads P (a :: U) h1 x g v a G1 Hup Bx Hx Va Ha La Ho1) as (og & (O1 & O2 & O3) & Ofl & Olay).
    destruct (data_of h1 (a :: U) b G1 Bb) as (rb & vb & Eb & HR & Hv & _). destruct (HR a Va Ha) as (R1 & R2 & R3).
    erewrite bind_ok by (by apply get_ten_ok). rewrite A2. simpl (deref (Some ga)). rewrite bind_ret. erewrite bind_out_grad by done.
    unfold tensor_div_back_numerator_f. erewrite bind_ok by (by apply get_ten_ok). erewrite bind_ok by (by apply get_ten_ok). erewrite bind_ok by (by apply get_ten_ok).
    unfold dispatch_ffi. rewrite !is_float_floating, A7, Ofl. simpl andb. cbv iota. rewrite bind_ret.
    assert (sizes (t_lay gr) = shape_of h0 a) as Esg by (by rewrite A6). assert (sizes (t_lay og) = shape_of h0 x) as Eso by (by rewrite Olay).
    destruct (Hdo (tensor_div_back_numerator (t_dt gr) (t_dt og) (t_dt rb) gr og rb) (shape_of h0 x)
      (fun idx => num (v (bidx (shape_of h0 x) idx)) / num (vb (bidx (shape_of h0 b) idx)))%Qc (bidx (shape_of h0 a))) as (h2 & E2 & G2 & F2 & M2).
    + rewrite <- Esg, <- Eso, <- Eb. eapply div_num_adds; try done; rewrite ?Esg, ?Eso, ?Eb; try done.
      * intros E. by apply (O3 _ A12).
      * intros E. by apply (R3 _ A12).
    + intros idx Hi. by apply C1.
    + exists h2. split; [done|]. split; [done|]. split; [|split; [by intros _; eapply moved_trans|done]].
      rewrite F2, F1. f_equal. apply sum_over_ext. intros idx Hi. by rewrite Hv, Sb, !(bidx_self (shape_of h0 x)).
  - intros h1 U1 G1 Ho1. destruct (upd_ok P U1 h1 b G1 Hup Vb Hb) as (h2 & E2 & G2 & F2 & M2). unfold acc_done. erewrite bind_ok by exact E2.
    assert (own h2 x g v) as Ho2 by exact (own_moved P U1 h1 h2 x g v b G1 Hup Bx Hx Vb Hb Lb M2 Ho1).
    destruct (grad_open P (b :: U1) h2 b G2 Hup Vb Hb) as (r1 & gb & gr & n & bytes & A1 & A2 & A3 & A4 & A5 & A6 & A7 & A8 & A9 & A10 & A11 & A12 & Hdo); [apply elem_of_list_here|].
    destruct (own_reads P (b :: U1) h2 x g v b G2 Hup Bx Hx Vb Hb Lb Ho2) as (og & (O1 & O2 & O3) & Ofl & Olay).
    destruct (data_of h2 (b :: U1) b G2 Bb) as (rb & vb & Eb & HR & Hv & Hrb & _). destruct (HR b Vb Hb) as (R1 & R2 & R3).
    destruct (data_of h2 (b :: U1) x G2 (proj1 Rx)) as (rx & vx & Ex & HRx & Hvx & Hrx & _). destruct (HRx b Vb Hb) as (X1 & X2 & X3).
    assert (rb = r1) as -> by congruence. assert (t_dt og = t_dt rx) as Edo. { destruct Ho2 as (? & ? & ? & ? & ? & ? & ? & ? & _). congruence. }
    erewrite bind_ok by (by apply get_ten_ok). erewrite bind_ok by (by apply get_ten_ok).
    unfold dispatch_ff. rewrite !is_float_floating, <- Edo, <- A5, A7, Ofl. simpl andb. cbv iota. rewrite bind_ret.
    rewrite A2. simpl (deref (Some gb)). rewrite bind_ret. erewrite bind_out_grad by done.
    erewrite bind_ok by (by apply get_ten_ok). erewrite bind_ok by (by apply get_ten_ok).
    assert (sizes (t_lay gr) = shape_of h0 b) as Esg by (by rewrite A6). assert (sizes (t_lay og) = shape_of h0 x) as Eso by (by rewrite Olay).
    destruct (Hdo (tensor_div_back_denominator (t_dt r1) (t_dt og) gr og rx r1) (sizes (t_lay rx))
      (fun idx => - (num (v (bidx (sizes (t_lay og)) idx)) * num (vx (bidx (sizes (t_lay rx)) idx)) / num (vb (bidx (sizes (t_lay r1)) idx))))%Qc (fun idx => idx)) as (h3 & E3 & G3 & F3 & M3).
    + eapply div_den_adds; try done; rewrite ?Esg, ?Eso, ?Eb, ?Ex; try done.
      * intros E. by apply (O3 _ A12).
      * intros E. by apply (X3 _ A12).
      * intros E. by apply (R3 _ A12).
    + intros idx Hi. by rewrite Sb, <- Ex.
    + rewrite Eso, Ex, Eb in F3. rewrite A5. exists h3. split; [done|]. split; [done|]. split; [|split; [by intros _; eapply moved_trans|done]].
      rewrite F3, F2. f_equal. apply sum_over_ext. intros idx Hi. by rewrite Hv, Hvx, Sb, !(bidx_self (shape_of h0 x)).
  - rewrite sum_over_add. apply sum_over_ext. intros idx Hi. rewrite Hr, Hq, Sb, (bidx_self (shape_of h0 x)) by done.
    unfold Qcdiv. rewrite Qcinv_mult_distr. ring.
Qed.
(** one piece of a concatenation *)
Lemma grow_ten h1 r : let h2 := Hp (h_sto h1) (h_ten h1 ++ [r]) (h_ver h1) in
  new_ten r h1 = (Ok (length (h_ten h1)), h2) /\ extends h1 h2 /\ h_ten h2 !! length (h_ten h1) = Some r.
Proof.
  intros h2. split; [done|]. split; [|by apply list_lookup_middle]. split; [done|]. intros y ry Hy. by apply lookup_app_l_Some.
Qed.
Lemma cat_loop dim g v (dm := Z.to_nat dim) (len := fun a => nth dm (shape_of h0 a) 0) s0 : gf_kind f = CatBack dim -> (dm < length s0)%nat ->
  Forall (fun a => same_but dm s0 (shape_of h0 a)) (gf_in f) -> lay_of h0 x = contig (<[dm := total_len (map len (gf_in f))]> s0) ->
  forall post pre U1 h1, gf_in f = pre ++ post -> ginv P U1 h1 -> own h1 x g v -> exists h2,
    cat_back x dim post (total_len (map len pre)) h1 = (Ok tt, h2) /\ ginv P (post ++ U1) h2 /\ own h2 x g v /\
    phi P h2 = (phi P h1 + pieces dm s0 (map len post) (total_len (map len pre)) (fun idx => num (v idx) * e idx)%Qc)%Qc.
Proof.
  intros Ek Hd Hsame Elx. assert (gf_kind f <> NoBack) as Hk by congruence. pose proof (x_base Hk) as Bx.
  assert (Forall (fun n => 0 <= n) (map len (gf_in f))) as Hnn.
  { apply Forall_forall. intros n (c & <- & Hc%elem_of_list_In)%elem_of_list_In%in_map_iff. destruct (in_facts c Hc) as (Bc & _). pose proof (shape_nonneg c Bc) as Hs.
    unfold len. destruct (shape_of h0 c !! dm) as [k|] eqn:E.
    - rewrite (nth_lookup_Some _ _ _ _ E). rewrite Forall_forall in Hs. apply Hs. by eapply elem_of_list_lookup_2.
    - by rewrite nth_lookup, E. }
  set (tot := total_len (map len (gf_in f))) in *. set (ssx := <[dm := tot]> s0) in *.
  assert (ssx !! dm = Some tot) as Htot by (by apply list_lookup_insert).
  assert (length ssx = length s0) as Hlen by (apply insert_length).
  assert (shape_of h0 x = ssx) as Sx by (unfold shape_of; by rewrite Elx).
  destruct (below_rec x (proj1 Rx)) as (r0 & Hr0). destruct (gb_data _ _ Hgr x r0 (proj1 Rx) Hr0) as [Hh0 Hal].
  assert (shape r0 = ssx) as Esh. { rewrite <- Sx. unfold shape_of, lay_of. by rewrite Hr0. }
  pose proof (holds_shape _ _ _ Hh0) as Hsz. assert (size_prod ssx < two63) as H63.
  { rewrite <- Esh. eapply (allocable_lt63 (t_dt r0)). split; [|done]. done. }
  assert (tot < two64) as H64. { change (sizes (t_lay r0)) with (shape r0) in Hsz. rewrite Esh in Hsz. rewrite Forall_forall in Hsz. apply (Hsz tot). by eapply elem_of_list_lookup_2. }
  induction post as [|c post IH]; intros pre U1 h1 Ein G1 Ho.
  { exists h1. split; [done|]. split; [done|]. split; [done|]. simpl. ring. }
  assert (c ∈ gf_in f) as Hc. { rewrite Ein. apply elem_of_app. right. apply elem_of_list_here. }
  destruct (in_facts c Hc) as (Bc & Hcn & Lc). rewrite Forall_forall in Hsame. pose proof (Hsame c Hc) as Hsc.
  assert (shape_of h0 c = <[dm := len c]> ssx) as Sc by (unfold ssx; rewrite list_insert_insert; by apply same_but_insert).
  assert (shape_of h0 c = <[dm := len c]> s0) as Sc' by (by apply same_but_insert).
  set (s := total_len (map len pre)) in *.
  assert (tot = s + len c + total_len (map len post)) as Etot.
  { unfold tot, s. rewrite Ein, map_app, total_app. cbn [map total_len fold_right]. fold (total_len (map len post)). lia. }
  rewrite Ein, map_app in Hnn. apply Forall_app in Hnn as [Hn1 Hn2]. cbn [map] in Hn2. apply Forall_cons in Hn2 as [Hnc Hn3].
  pose proof (total_nonneg _ Hn1) as Hs0. fold s in Hs0. pose proof (total_nonneg _ Hn3) as Hp0.
  destruct (data_of h1 U1 c G1 Bc) as (rc & vc & Ec & _ & _ & Hrc & _).
  pose proof Ho as (rx & gr & O1 & O2 & O3 & Ofl & Olay & Odt & Oh & Ohg & Op).
  destruct (gi_rec _ _ _ G1 x r0 Hr0) as (rx' & Hrx' & (D1 & D2 & D3) & _). assert (rx' = rx) as -> by congruence.
  assert (t_lay rx = contig ssx) as Elr. { rewrite <- D2, <- Elx. unfold lay_of. by rewrite Hr0. }
  set (vr := Ten (t_dt gr) (Lay (<[dm := len c]> ssx) (contig_strides ssx) (u64 (s * nth dm (contig_strides ssx) 0))) (t_sto gr) None false false None).
  destruct (grow_ten h1 vr) as (E2 & X2 & L2). set (w := length (h_ten h1)) in *. set (h2 := Hp (h_sto h1) (h_ten h1 ++ [vr]) (h_ver h1)) in *.
  assert (holds h1 vr (fun idx => v (<[dm := nth dm idx 0 + s]> idx))) as Hvr.
  { apply (sub_view h1 gr v dm ssx tot s (len c)); try done; try lia. { by rewrite Olay. }
    apply Forall_insert; [by rewrite <- Esh|lia]. }
  pose proof (extends_rsim _ _ X2) as K. destruct (ginv_grow P U1 h1 h2 G1 Hup K) as [G2 F2]; [apply X2|].
  assert (own h2 x g v) as Ho2 by (by eapply own_grow).
  assert (acc_done P U1 h2 c (try_accumulate_grad c (Some w) None)
    (sum_over (<[dm := len c]> s0) (fun idx => num (v (<[dm := (nth dm idx 0 + s)%Z]> idx)) * e (<[dm := (nth dm idx 0 + s)%Z]> idx)))%Qc) as (h3 & E3 & G3 & F3 & M3 & S3).
  { assert (sizes (t_lay vr) = shape_of h0 c) as Esv by (by rewrite Sc).
    eapply (acc_add P U1 h2 c w vr (fun idx => v (<[dm := nth dm idx 0 + s]> idx)) (shape_of h0 c)); try done; try rewrite Esv; try apply covers_self.
    - intros Lv. split; [done|]. split; [by eapply holds_extends|].
      destruct (own_reads P U1 h2 x g v c G2 Hup Bx Hx Lv Hcn Lc Ho2) as (gr' & (R1 & R2 & R3) & _).
      assert (gr' = gr) as ->. { apply X2 in O3. congruence. } exact R3.
    - apply bmax_idem.
    - by apply shape_nonneg.
    - rewrite <- Sc'. apply sum_over_ext. intros idx Hi. rewrite (bidx_self (shape_of h0 c)) by done. f_equal.
      destruct (piece_index dm ssx tot s (len c) idx) as (I1 & I2 & I3 & I4); try lia; try done; [by rewrite <- Sc|].
      pose proof (rule_x ltac:(congruence)) as Hr. rewrite Ek in Hr. simpl in Hr. rewrite Sx in Hr. specialize (Hr _ I2). fold dm in Hr.
      rewrite (nth_lookup_Some (<[dm := nth dm idx 0 + s]> idx) dm 0 (nth dm idx 0 + s)) in Hr by (by apply list_lookup_insert).
      assert (owner (map len (gf_in f)) (nth dm idx 0 + s) = (length pre, nth dm idx 0)) as Eo.
      { rewrite Ein, map_app. cbn [map]. rewrite Z.add_comm. unfold s. rewrite owner_prefix by done. by rewrite map_length. }
      change (map (fun a => nth dm (shape_of h0 a) 0) (gf_in f)) with (map len (gf_in f)) in Hr. rewrite Eo in Hr.
      rewrite Ein, list_lookup_middle in Hr by done. rewrite Hr, list_insert_insert. f_equal. apply list_insert_id.
      destruct (lookup_lt_is_Some_2 idx dm I4) as [i Hi']. by rewrite (nth_lookup_Some _ _ _ _ Hi'). }
  assert (own h3 x g v) as Ho3 by exact (own_acc P U1 h2 h3 x g v c G2 Hup Bx Hx Hcn Lc Bc M3 S3 Ho2).
  destruct (IH (pre ++ [c]) (c :: U1) h3) as (h4 & E4 & G4 & Ho4 & F4); [by rewrite <- app_assoc|done|done|].
  exists h4. split; [|split; [|split; [done|]]].
  - cbn [cat_back]. erewrite bind_ok by (by apply get_ten_ok). erewrite bind_ok by (by apply get_ten_ok).
    rewrite O2. simpl (deref (Some g)). rewrite bind_ret. erewrite bind_ok by (by apply get_ten_ok). fold dm.
    rewrite Elr, Ec, Sc, <- Odt. cbn [contig strides]. fold vr. unfold create_view. erewrite bind_ok by exact E2. erewrite bind_ok by exact E3.
    assert (nth dm (<[dm := len c]> ssx) 0 = len c) as ->. { apply nth_lookup_Some, list_lookup_insert. lia. }
    rewrite u64_id by lia. rewrite <- E4. f_equal. rewrite map_app, total_app. cbn [map total_len fold_right]. fold s. lia.
  - eapply ginv_sub; [exact G4|]. intros y Hy. simpl in Hy. rewrite elem_of_cons, !elem_of_app in *. rewrite elem_of_cons. tauto.
  - rewrite F4, F3, F2. cbn [map pieces]. rewrite map_app, total_app. cbn [map total_len fold_right]. fold s. rewrite Z.add_0_r. ring.
Qed.
Lemma step_cat dim : gf_kind f = CatBack dim -> step_done e P U h x (gf_in f) (step_back x (CatBack dim) (gf_in f)).
Proof.
  intros Ek. pose proof node_x as Hn. rewrite Ek in Hn. destruct Hn as (a0 & ins' & Ei & Hdim & Hsame & Elx). 
  assert (gf_kind f <> NoBack) as Hk by congruence. pose proof (x_base Hk) as Bx. destruct (own_ex P U h x G Bx Hx Hu) as (g & v & Ho).
  destruct (cat_loop dim g v (shape_of h0 a0) Ek) with (post := gf_in f) (pre := @nil nat) (U1 := U) (h1 := h) as (h' & E & G' & Ho' & F); try done; [lia|].
  exists h'. split; [done|]. split; [done|]. destruct (is_view_dec h0 x) as [Hv|_]; [by destruct Bx as (_ & _ & ?)|].
  exists g, v. split; [done|]. rewrite F. f_equal. cbn [map total_len fold_right]. rewrite pieces_all.
  - assert (shape_of h0 x = <[Z.to_nat dim := total_len (map (fun a => nth (Z.to_nat dim) (shape_of h0 a) 0) (gf_in f))]> (shape_of h0 a0)) as ->
      by (unfold shape_of at 1; by rewrite Elx). done.
  - lia.
  - apply Forall_forall. intros n (c & <- & Hc%elem_of_list_In)%elem_of_list_In%in_map_iff. destruct (in_facts c Hc) as (Bc & _). pose proof (shape_nonneg c Bc) as Hs.
    destruct (shape_of h0 c !! Z.to_nat dim) as [k|] eqn:E1.
    + rewrite (nth_lookup_Some _ _ _ _ E1). rewrite Forall_forall in Hs. apply Hs. by eapply elem_of_list_lookup_2.
    + by rewrite nth_lookup, E1.
Qed.
Lemma step_ok : step_gain e P U h x (gf_in f) (step_back x (gf_kind f) (gf_in f)).
Proof.
  pose proof node_x as Hn. revert Hn. enough (forall k ins, gf_kind f = k -> gf_in f = ins -> node_ok h0 t x k ins -> step_gain e P U h x ins (step_back x k ins)) as K by (by apply K).
  intros k ins Ek Ei Hn. destruct (decide (is_mean h0 x)) as [(f' & Hf' & Hk')|Hm].
  - assert (f' = f) as -> by congruence. assert (k = MeanBack) as -> by congruence. destruct ins as [|a [|]]; try done. by apply step_mean.
  - assert (gf_kind f <> MeanBack) as Hk by (intros E; apply Hm; by exists f). apply step_no_gain; [by apply gain_zero|].
    destruct k as [ | | | | | | | | dim|kg]; [..|rewrite <- Ei; by apply step_cat|];
      destruct ins as [|a [|b [|]]]; try (by destruct Hn); try congruence.
    all: first [by apply step_add|by apply step_sub|by apply step_mul|by apply step_div|by apply step_sum|by apply step_view|by apply step_clone|by apply step_known].
Qed.
End step.
End ginv.
