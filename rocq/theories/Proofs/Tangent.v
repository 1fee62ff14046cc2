(** Every direction of the leaves extends to exactly one tangent. *)
From Verif.Proofs Require Export Grad.
From Verif.Model Require Export Exact Api.
#[local] Existing Instance Exact.
#[local] Existing Instance is_view_dec.

(** what tangents need of the tensors below the root *)
Record tan_ready (h : heap) (t : nat) : Prop := TanReady {
  tr_data : forall x r, below h t x -> h_ten h !! x = Some r ->
    holds h r (contents h r) /\ size_of (t_dt r) * size_prod (shape r) <= alloc_max;
  tr_node : forall x f, below h t x -> fn_of h x = Some f -> node_ok h t x (gf_kind f) (gf_in f);
  tr_dense : forall x, below h t x -> tracked h x -> ~ is_view h x ->
    lay_in (lay_of h x) (size_prod (shape_of h x)) /\ lay_inj (lay_of h x);
  tr_live : forall x, below h t x -> is_node h x -> tracked h x
}.
Lemma core_tan h t : grad_core h t -> tan_ready h t.
Proof. intros Hgr. split; try apply Hgr. intros x Hb Hn. by apply (core_live h t). Qed.
Coercion core_tan : grad_core >-> tan_ready.
#[global] Hint Extern 0 (tan_ready _ _) => apply core_tan; assumption : core.
#[global] Hint Extern 0 (tan_ready _ _) => apply core_tan, ready_core; assumption : core.

Section tangent.
Variables (h : heap) (t : nat).
Hypothesis Hinv : tinv h.
Hypothesis Hgr : tan_ready h t.

Lemma below_sizes x : below h t x -> Forall (fun n => 0 <= n) (shape_of h x).
Proof.
  intros Bx. unfold shape_of, lay_of. destruct (h_ten h !! x) as [r|] eqn:Hr; [|constructor].
  destruct (tr_data _ _ Hgr x r Bx Hr) as [Hh _]. apply holds_shape in Hh. eapply Forall_impl; [exact Hh|]. simpl. lia.
Qed.
Definition forward (d : tangent) (x : nat) (k : bkind) (ins : list nat) (idx : list Z) : Qc :=
  let S := shape_of h in
  match k, ins with
  | AddBack, [a; b] => (d a (bidx (S a) idx) + d b (bidx (S b) idx))%Qc
  | SubBack, [a; b] => (d a (bidx (S a) idx) - d b (bidx (S b) idx))%Qc
  | MulBack, [a; b] => (d a (bidx (S a) idx) * value h b (bidx (S b) idx) + value h a (bidx (S a) idx) * d b (bidx (S b) idx))%Qc
  | DivBack, [a; b] => (d a (bidx (S a) idx) / value h b (bidx (S b) idx)
               - value h a (bidx (S a) idx) * d b (bidx (S b) idx) / (value h b (bidx (S b) idx) * value h b (bidx (S b) idx)))%Qc
  | SumBack, [a] => sum_over (S a) (d a)
  | MeanBack, [a] => (sum_over (S a) (d a) / qc_of_Z (size_prod (S a)))%Qc
  | CloneBack, [a] => d a idx
  | NoBack, [a] => match list_find (fun i => pos (lay_of h x) idx = pos (lay_of h a) i) (indices (S a)) with Some (_, i) => d a i | None => 0%Qc end
  | CatBack dim, _ =>
      let dm := Z.to_nat dim in
      let '(k, j) := owner (map (fun a => nth dm (S a) 0) ins) (nth dm idx 0) in
      match ins !! k with Some a => d a (<[dm := j]> idx) | None => 0%Qc end
  | KnownGradBack kg, [a] => if decide (S x = S a) then (value h kg idx * d a idx)%Qc else sum_over (S a) (fun idx => value h kg idx * d a idx)%Qc
  | _, _ => 0%Qc
  end.
Lemma forward_ext d d' x k ins idx : (forall a, a ∈ ins -> forall i, d a i = d' a i) -> forward d x k ins idx = forward d' x k ins idx.
Proof.
  intros H. unfold forward. destruct k as [ | | | | | | | |dim|kg].
  9: { destruct (owner _ _) as [k j]. destruct (ins !! k) as [a|] eqn:Ea; [|done]. apply H. by eapply elem_of_list_lookup_2. }
  all: destruct ins as [|a [|b [|]]]; try done; assert (forall i, d a i = d' a i) as Ha by (apply H; set_solver).
  1-4: assert (forall i, d b i = d' b i) as Hb by (apply H; set_solver); by rewrite ?Ha, ?Hb.
  1,2: by rewrite (sum_over_ext _ (d a) (d' a)) by done.
  - by destruct (list_find _ _) as [[? ?]|].
  - done.
  - case_decide; [by rewrite Ha|]. apply sum_over_ext. intros i _. by rewrite Ha.
Qed.

Lemma cat_in_range x dim ins idx : below h t x -> (forall a, a ∈ ins -> below h t a) -> node_ok h t x (CatBack dim) ins -> in_range (shape_of h x) idx ->
  let dm := Z.to_nat dim in
  exists k j a, owner (map (fun a => nth dm (shape_of h a) 0) ins) (nth dm idx 0) = (k, j) /\ ins !! k = Some a /\ in_range (shape_of h a) (<[dm := j]> idx).
Proof.
  intros Hx Hins (a0 & ins' & Ei & Hdim & Hsame & El) Hi dm. fold dm in Hsame, El.
  assert (Forall (fun n => 0 <= n) (map (fun a => nth dm (shape_of h a) 0) ins)) as Hnn.
  { apply Forall_forall. intros n (c & <- & Hc%elem_of_list_In)%elem_of_list_In%in_map_iff.
    pose proof (below_sizes c (Hins c Hc)) as Hs. destruct (shape_of h c !! dm) as [k|] eqn:E1.
    - rewrite (nth_lookup_Some _ _ _ _ E1). rewrite Forall_forall in Hs. apply Hs. by eapply elem_of_list_lookup_2.
    - by rewrite nth_lookup, E1. }
  assert (shape_of h x = <[dm := total_len (map (fun a => nth dm (shape_of h a) 0) ins)]> (shape_of h a0)) as Esx by (unfold shape_of at 1; by rewrite El).
  rewrite Esx in Hi. assert (dm < length (shape_of h a0))%nat as Hdl by lia.
  assert (exists i, idx !! dm = Some i /\ 0 <= i < total_len (map (fun a => nth dm (shape_of h a) 0) ins)) as (i & Ei' & Hib).
  { pose proof Hi as Hi'. apply (Forall2_lookup_l _ _ _ dm (total_len (map (fun a => nth dm (shape_of h a) 0) ins))) in Hi'; [|by apply list_lookup_insert].
    destruct Hi' as (i & ? & ?). by exists i. }
  rewrite (nth_lookup_Some _ _ _ _ Ei'). destruct (owner_spec _ _ Hnn Hib) as (n & Hn & Hj & _). destruct (owner _ i) as [k j]. cbn [fst snd] in *.
  rewrite list_lookup_fmap in Hn. apply fmap_Some in Hn as (a & Ha & ->). exists k, j, a. split; [done|]. split; [done|].
  assert (same_but dm (shape_of h a0) (shape_of h a)) as [Hl Hother].
  { rewrite Forall_forall in Hsame. apply Hsame. by eapply elem_of_list_lookup_2. }
  apply Forall2_same_length_lookup. split; [rewrite insert_length, Hl; pose proof (in_range_length _ _ Hi) as Hz; rewrite insert_length in Hz; congruence|].
  intros q m y Hm Hy. destruct (decide (q = dm)) as [->|Hq].
  - rewrite list_lookup_insert in Hy by (by eapply lookup_lt_Some). injection Hy as <-. by rewrite (nth_lookup_Some _ _ _ _ Hm) in Hj.
  - rewrite list_lookup_insert_ne in Hy by done. rewrite Hother in Hm by done.
    apply (Forall2_lookup_lr _ _ _ q m y Hi); [by rewrite list_lookup_insert_ne|done].
Qed.

Lemma forward_rule d x k ins : below h t x -> (forall a, a ∈ ins -> below h t a) -> node_ok h t x k ins ->
  (k = NoBack -> forall a i j, ins = [a] -> in_range (shape_of h a) i -> in_range (shape_of h a) j -> pos (lay_of h a) i = pos (lay_of h a) j -> d a i = d a j) ->
  (forall idx, d x idx = forward d x k ins idx) -> rule h d x k ins.
Proof.
  intros Hx Hins Hn Hv Hd. destruct k as [ | | | | | | | |dim|kg].
  9: { intros idx Hi dm. destruct (cat_in_range x dim ins idx Hx Hins Hn Hi) as (k & j & a & Eo & Ea & _). fold dm in Eo. rewrite Eo, Ea, Hd. unfold forward. fold dm. by rewrite Eo, Ea. }
  all: destruct ins as [|a [|b [|]]]; try (by destruct Hn); unfold rule; try (intros idx Hi; rewrite Hd; done); try (by rewrite Hd).
  - intros idx idx' Hi Hi' E. rewrite Hd. unfold forward.
    destruct (list_find _ _) as [[m i]|] eqn:Ef.
    + apply list_find_Some in Ef as (E1 & E2 & _). apply elem_of_list_lookup_2, elem_of_indices in E1. apply (Hv eq_refl a i idx' eq_refl); [done..|congruence].
    + exfalso. apply list_find_None in Ef. rewrite Forall_forall in Ef. apply (Ef idx'); [by apply elem_of_indices|done].
  - case_decide as E; [intros idx Hi|]; rewrite Hd; unfold forward; by rewrite ?decide_True, ?decide_False by done.
Qed.
Lemma rule_unique d d' x k ins : below h t x -> (forall a, a ∈ ins -> below h t a) -> node_ok h t x k ins ->
  (forall a i, a ∈ ins -> in_range (shape_of h a) i -> d a i = d' a i) -> rule h d x k ins -> rule h d' x k ins ->
  forall idx, in_range (shape_of h x) idx -> d x idx = d' x idx.
Proof.
  intros Hx Hins Hn Ha Hr Hr' idx Hi. destruct k as [ | | | | | | | |dim|kg].
  9: { destruct (cat_in_range x dim ins idx Hx Hins Hn Hi) as (k & j & a & Eo & Ea & Hin). specialize (Hr idx Hi). specialize (Hr' idx Hi). cbv zeta in Hr, Hr'.
       rewrite Eo, Ea in Hr, Hr'. rewrite Hr, Hr'. apply Ha; [by eapply elem_of_list_lookup_2|done]. }
  all: destruct ins as [|a [|b [|]]]; try (by destruct Hn); pose proof (fun i => Ha a i ltac:(set_solver)) as H1; try pose proof (fun i => Ha b i ltac:(set_solver)) as H2.
  all: try (unfold rule in Hr, Hr'; rewrite Hr, Hr' by done; destruct Hn as (Es & Hc & _); rewrite Es in Hi;
    rewrite H1 by (by eapply bidx_in_l); rewrite H2 by (by eapply bidx_in_r); done).
  all: cbn [rule] in Hr, Hr'.
  - assert (idx = []) as -> by (rewrite Hn in Hi; by apply in_range_nil_inv in Hi). rewrite Hr, Hr'. by apply sum_over_ext.
  - assert (idx = []) as -> by (rewrite Hn in Hi; by apply in_range_nil_inv in Hi). rewrite Hr, Hr'. f_equal. by apply sum_over_ext.
  - destruct Hn as [_ Hn]. destruct (Hn idx Hi) as (i & Hi' & E). rewrite (Hr idx i), (Hr' idx i) by done. by apply H1.
  - rewrite Hr, Hr' by done. apply H1. by rewrite <- Hn.
  - destruct Hn as (_ & _ & Hn). case_decide as E.
    + rewrite Hr, Hr' by done. f_equal. apply H1. by rewrite <- E.
    + destruct Hn as [Hn|Hn]; [done|]. assert (idx = []) as -> by (rewrite Hn in Hi; by apply in_range_nil_inv in Hi). rewrite Hr, Hr'.
      apply sum_over_ext. intros i Hi'. by rewrite H1.
Qed.

(** a node whose rate of change is given is tracked, and constant if it is a view *)
Definition fixed_at (e : tangent) (kp : list nat) : Prop := forall x, x ∈ kp -> tracked h x /\ (is_view h x -> forall i, e x i = 0%Qc).
Lemma fixed_ok e kp : (forall x, x ∈ kp -> tracked h x /\ ~ is_view h x) -> fixed_at e kp.
Proof. intros H x Hx. destruct (H x Hx). split; [done|]. by intros. Qed.
Section direction.
Variables (e : tangent) (kp : list nat).
Hypothesis Hkp : fixed_at e kp.
Definition node_tangent (d : tangent) (x : nat) (idx : list Z) : Qc :=
  if decide (x ∈ kp) then e x idx else
  match fn_of h x with
  | Some f => forward d x (gf_kind f) (gf_in f) idx
  | None => match h_ten h !! x with Some r => if t_rg r then e x idx else 0%Qc | None => 0%Qc end
  end.
Fixpoint tab (n : nat) : list (list Z -> Qc) :=
  match n with O => [] | Datatypes.S m => tab m ++ [node_tangent (fun a => nth a (tab m) (fun _ => 0%Qc)) m] end.
Definition tan : tangent := fun x => nth x (tab (Datatypes.S x)) (fun _ => 0%Qc).
Lemma tab_length n : length (tab n) = n.
Proof. induction n; [done|]. cbn [tab]. rewrite app_length, IHn. simpl. lia. Qed.
Lemma tab_nth n x : (x < n)%nat -> nth x (tab n) (fun _ => 0%Qc) = tan x.
Proof.
  induction n; [lia|]. intros Hx. destruct (decide (x = n)) as [->|Hne]; [done|]. cbn [tab]. rewrite app_nth1 by (rewrite tab_length; lia). apply IHn. lia.
Qed.
Lemma tan_eq x idx : tan x idx = node_tangent tan x idx.
Proof.
  unfold tan at 1. cbn [tab]. rewrite app_nth2; rewrite tab_length; [|lia]. rewrite Nat.sub_diag. cbn [nth]. unfold node_tangent.
  case_decide; [done|]. destruct (fn_of h x) as [f|] eqn:Ef; [|done]. apply forward_ext. intros a Ha i. destruct (tinv_inputs h x f Hinv Ef) as (_ & _ & _ & _ & Hin).
  rewrite tab_nth; [done|]. by apply Hin.
Qed.
Lemma tan_same x : below h t x -> tracked h x -> forall i j, in_range (shape_of h x) i -> in_range (shape_of h x) j ->
  pos (lay_of h x) i = pos (lay_of h x) j -> tan x i = tan x j.
Proof.
  intros Hb Ht i j Hi Hj E. destruct (decide (is_view h x)) as [(f & Hf & Hk)|Hv].
  - rewrite !tan_eq. unfold node_tangent. case_decide as Hp; [destruct (Hkp x Hp) as [_ Hz]; rewrite !Hz; [done|by exists f..]|]. rewrite Hf, Hk. pose proof (tr_node _ _ Hgr x f Hb Hf) as Hn. rewrite Hk in Hn.
    destruct (gf_in f) as [|a [|]] eqn:Ei; try done. unfold forward. by rewrite E.
  - destruct (tr_dense _ _ Hgr x Hb Ht Hv) as [_ Hj']. by rewrite (Hj' i j Hi Hj E).
Qed.
Lemma tan_rule x f : below h t x -> x ∉ kp -> fn_of h x = Some f -> rule h tan x (gf_kind f) (gf_in f).
Proof.
  intros Hb Hk' Hf. apply forward_rule; [done| |by apply (tr_node _ _ Hgr)| |].
  - intros a Ha. eapply below_in; [exact Hb|]. unfold inputs. by rewrite Hf.
  - intros Hk a i j Ei Hi Hj E. pose proof (tr_node _ _ Hgr x f Hb Hf) as Hn. rewrite Hk, Ei in Hn. destruct Hn as [Ht _].
    apply (tan_same a); [|done..]. eapply below_in; [exact Hb|]. unfold inputs. rewrite Hf, Ei. set_solver.
  - intros idx. rewrite tan_eq. unfold node_tangent. by rewrite decide_False, Hf.
Qed.
Lemma tan_untracked x idx : below h t x -> ~ tracked h x -> tan x idx = 0%Qc.
Proof.
  intros Hb Hn. rewrite tan_eq. unfold node_tangent. case_decide as Hk; [by destruct (Hkp x Hk)|]. destruct (fn_of h x) as [f|] eqn:Ef.
  - exfalso. apply Hn. apply (tr_live _ _ Hgr); [done|by exists f].
  - destruct (h_ten h !! x) as [r|] eqn:Er; [|done]. destruct (t_rg r) eqn:Eg; [|done]. destruct Hn. by exists r.
Qed.
Lemma tan_leaf x idx : x ∈ kp \/ ~ is_node h x /\ tracked h x -> tan x idx = e x idx.
Proof.
  rewrite tan_eq. unfold node_tangent. case_decide as Hk; [done|]. intros [?|(Hn & r & Hr & Hg)]; [done|].
  destruct (fn_of h x) as [f|] eqn:Ef; [destruct Hn; by exists f|]. by rewrite Hr, Hg.
Qed.
End direction.
Lemma tangent_exists e : exists d, obeys h t d /\ forall x idx, ~ is_node h x -> tracked h x -> d x idx = e x idx.
Proof.
  assert (fixed_at e []) as K by (by intros x ?%elem_of_nil).
  exists (tan e []). split; [split|].
  - intros x f Hb Hf. apply tan_rule; try done. apply not_elem_of_nil.
  - intros. by apply tan_untracked.
  - intros x idx Hn Ht. apply tan_leaf; auto.
Qed.
Lemma tangent_unique_but (kp : list nat) d d' : (forall x f, below h t x -> x ∉ kp -> fn_of h x = Some f -> rule h d x (gf_kind f) (gf_in f)) ->
  (forall x f, below h t x -> x ∉ kp -> fn_of h x = Some f -> rule h d' x (gf_kind f) (gf_in f)) ->
  (forall x idx, below h t x -> ~ tracked h x -> d x idx = 0%Qc) -> (forall x idx, below h t x -> ~ tracked h x -> d' x idx = 0%Qc) ->
  (forall x idx, below h t x -> x ∈ kp \/ ~ is_node h x /\ tracked h x -> in_range (shape_of h x) idx -> d x idx = d' x idx) ->
  forall x idx, below h t x -> in_range (shape_of h x) idx -> d x idx = d' x idx.
Proof.
  intros Hr Hr' Hu Hu' Hl x. induction (lt_wf x) as [x _ IH]. intros idx Hb Hi. destruct (decide (x ∈ kp)) as [Hk|Hk]; [apply Hl; auto|].
  destruct (fn_of h x) as [f|] eqn:Ef.
  - destruct (tinv_inputs h x f Hinv Ef) as (_ & _ & _ & _ & Hin).
    assert (forall a, a ∈ gf_in f -> below h t a) as Hbi by (intros a Ha; eapply below_in; [exact Hb|]; unfold inputs; by rewrite Ef).
    eapply rule_unique; [exact Hb|exact Hbi|by apply (tr_node _ _ Hgr)| |by apply Hr|by apply Hr'|done].
    intros a i Ha Hai. apply IH; [by apply Hin|by apply Hbi|done].
  - assert (~ is_node h x) as Hn by (intros [? ?]; congruence). destruct (h_ten h !! x) as [r|] eqn:Er.
    + destruct (t_rg r) eqn:Eg; [apply Hl; [done| |done]; right; split; [done|by exists r]|]. rewrite Hu, Hu'; [done|done| |done|]; intros (r' & ? & ?); congruence.
    + rewrite Hu, Hu'; [done|done| |done|]; intros (r' & ? & ?); congruence.
Qed.
Lemma tangent_unique d d' : obeys h t d -> obeys h t d' ->
  (forall x idx, below h t x -> ~ is_node h x -> tracked h x -> in_range (shape_of h x) idx -> d x idx = d' x idx) ->
  forall x idx, below h t x -> in_range (shape_of h x) idx -> d x idx = d' x idx.
Proof.
  intros [Hr Hu] [Hr' Hu'] Hl. apply (tangent_unique_but []); auto.
  intros x idx Hb [?%elem_of_nil|[? ?]]; [done|]. by apply Hl.
Qed.
(** a rule with nothing to add up *)
Lemma rule2_zero d x k ins : below h t x -> (forall a, a ∈ ins -> below h t a) -> node_ok h t x k ins ->
  (forall a idx, a ∈ ins -> in_range (shape_of h a) idx -> d a idx = 0%Qc) -> rule2 h d (fun _ => 0%Qc) x k ins.
Proof.
  intros Hx Hins Hn Hz. destruct k as [ | | | | | | | |dim|kg].
  9: { intros idx Hi dm. destruct (cat_in_range x dim ins idx Hx Hins Hn Hi) as (k & j & a & Eo & Ea & Hin). fold dm in Eo, Hin. rewrite Eo, Ea.
       symmetry. apply Hz; [by eapply elem_of_list_lookup_2|done]. }
  all: destruct ins as [|a [|b [|]]]; try done; cbn [rule2]; pose proof (fun i => Hz a i ltac:(set_solver)) as Ha; try pose proof (fun i => Hz b i ltac:(set_solver)) as Hb.
  1-4: intros idx Hi; destruct Hn as (Es & Hc & _); rewrite Es in Hi; rewrite Ha by (by eapply bidx_in_l); rewrite Hb by (by eapply bidx_in_r); unfold Qcdiv; ring.
  - symmetry. apply sumq_zero. intros i Hi%elem_of_indices. by apply Ha.
  - unfold sum_over. rewrite sumq_zero by (intros i Hi%elem_of_indices; by apply Ha). unfold Qcdiv. ring.
  - intros idx Hi. symmetry. apply Ha. by rewrite <- Hn.
  - destruct Hn as (_ & _ & Hn). case_decide as E.
    + intros idx Hi. rewrite Ha by (by rewrite <- E). ring.
    + symmetry. apply sumq_zero. intros i Hi%elem_of_indices. rewrite Ha by done. ring.
Qed.
Lemma rule_zero x k ins : below h t x -> (forall a, a ∈ ins -> below h t a) -> node_ok h t x k ins -> rule h (fun _ _ => 0%Qc) x k ins.
Proof.
  intros Hx Hins Hn. pose proof (rule2_zero (fun _ _ => 0%Qc) x k ins Hx Hins Hn ltac:(done)) as H.
  destruct k, ins as [|a [|b [|]]]; try done; try by destruct Hn. 
Qed.
(** what lies under [u] does not change with it *)
Lemma under_zero d u a : below h t u -> (forall x f, below h t x -> x <> u -> fn_of h x = Some f -> rule h d x (gf_kind f) (gf_in f)) ->
  (forall x idx, below h t x -> ~ tracked h x -> d x idx = 0%Qc) ->
  (forall x idx, below h t x -> ~ is_node h x -> tracked h x -> x <> u -> d x idx = 0%Qc) ->
  a ∈ inputs h u -> forall x idx, below h a x -> in_range (shape_of h x) idx -> d x idx = 0%Qc.
Proof.
  intros Hu Hr Hz Hl Ha. assert (a < u)%nat as Hlt.
  { unfold inputs in Ha. destruct (fn_of h u) as [f|] eqn:Ef; [|by apply elem_of_nil in Ha]. destruct (tinv_inputs h u f Hinv Ef) as (_ & _ & _ & _ & Hin). by apply Hin. }
  assert (forall x, below h a x -> below h t x /\ (x <= a)%nat) as Hb.
  { induction 1 as [|x y Hx [IH1 IH2] Hy]; [split; [by eapply below_in|done]|]. split; [by eapply below_in|].
    unfold inputs in Hy. destruct (fn_of h x) as [f|] eqn:Ef; [|by apply elem_of_nil in Hy]. destruct (tinv_inputs h x f Hinv Ef) as (_ & _ & _ & _ & Hin).
    destruct (Hin y Hy). lia. }
  intros x. induction (lt_wf x) as [x _ IH]. intros idx Hx Hi. destruct (Hb x Hx) as [Htx Hle]. destruct (fn_of h x) as [f|] eqn:Ef.
  - destruct (tinv_inputs h x f Hinv Ef) as (_ & _ & _ & _ & Hin). pose proof (tr_node _ _ Hgr x f Htx Ef) as Hn.
    assert (forall a, a ∈ gf_in f -> a ∈ inputs h x) as Hbi by (intros c Hc; unfold inputs; by rewrite Ef).
    assert (forall a, a ∈ gf_in f -> below h t a) as Hbt by (intros c Hc; eapply below_in; [exact Htx|by apply Hbi]).
    eapply (rule_unique d (fun _ _ => 0%Qc) x (gf_kind f) (gf_in f)); [done|done|done| |apply Hr; [done|lia|done]|by apply rule_zero|done].
    intros c i Hc Hci. apply IH; [by apply Hin| |done]. eapply below_in; [exact Hx|by apply Hbi].
  - assert (~ is_node h x) as Hn by (intros [? ?]; congruence). destruct (h_ten h !! x) as [r|] eqn:Er.
    + destruct (t_rg r) eqn:Eg; [apply Hl; [done|done|by exists r|lia]|]. apply Hz; [done|]. intros (r' & ? & ?); congruence.
    + apply Hz; [done|]. intros (r' & ? & ?); congruence.
Qed.
End tangent.
