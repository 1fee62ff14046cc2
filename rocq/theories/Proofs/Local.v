(** What backward() leaves at a leaf that only one node uses: the derivative by that node, times
    the node's own. *)
From Verif.Proofs Require Export Mean.
From Verif.Model Require Export Exact Api.
#[local] Existing Instance Exact.
#[local] Existing Instance is_view_dec.

Section local.
Variables (h : heap) (t : nat).
Hypothesis Hinv : tinv h.
Hypothesis Hgr : grad_ready h t.
Variables (x a : nat).
Hypothesis Bx : below h t x.
Hypothesis Nx : is_node h x.
Hypothesis Vx : ~ is_view h x.
Hypothesis Ax : a ∈ inputs h x.
Hypothesis Na : ~ is_node h a.
Hypothesis Sole : forall y, below h t y -> a ∈ inputs h y -> y = x.

Lemma node_tracked u : below h t u -> is_node h u -> tracked h u.
Proof.
  intros Bu [f Hf]. unfold fn_of in Hf. destruct (h_ten h !! u) as [r|] eqn:Er; [|done]. exists r. split; [done|]. by destruct (Deriv.gr_new _ _ Hgr u r f Bu Er Hf).
Qed.
Definition by_at (j : list Z) : tangent := tan h (unit_at x j) [x].
Lemma by_facts j :
  (forall y f, below h t y -> y <> x -> fn_of h y = Some f -> rule h (by_at j) y (gf_kind f) (gf_in f)) /\
  (forall y idx, below h t y -> ~ tracked h y -> by_at j y idx = 0%Qc) /\
  (forall y idx, below h t y -> y = x \/ ~ is_node h y /\ tracked h y -> by_at j y idx = unit_at x j y idx).
Proof.
  assert (forall y, y ∈ [x] -> tracked h y /\ ~ is_view h y) as Hk by (intros y ->%elem_of_list_singleton; split; [by apply node_tracked|done]).
  split_and!.
  - intros y g Hb Hne Hf. apply (tan_rule h t Hinv Hgr (unit_at x j) [x] (fixed_ok _ _ _ Hk)); [done| |done]. by intros ?%elem_of_list_singleton.
  - intros y idx Hb Hn. by apply (tan_untracked h t Hinv Hgr (unit_at x j) [x] (fixed_ok _ _ _ Hk)).
  - intros y idx Hb Hor. refine (tan_leaf h t Hinv Hgr (unit_at x j) [x] y idx _). destruct Hor as [->|?]; [left; apply elem_of_list_here|by right].
Qed.
Lemma by_derivative j : derivative_at h t x j (by_at j t (map (fun _ => 0%Z) (shape_of h t))).
Proof. destruct (by_facts j) as (H1 & H2 & H3). by exists (by_at j). Qed.

Variables (d : tangent) (i : list Z).
Hypothesis Hob : obeys h t d.
Hypothesis Hd : forall y idx, below h t y -> ~ is_node h y -> tracked h y -> d y idx = if decide (y = a /\ idx = i) then 1%Qc else 0%Qc.
Definition joint (l : list (list Z)) : tangent := fun y idx => sumq (map (fun j => d x j * by_at j y idx)%Qc l).
Lemma joint_rule l y f : below h t y -> y <> x -> fn_of h y = Some f -> rule h (joint l) y (gf_kind f) (gf_in f).
Proof.
  intros Hb Hne Hf. induction l as [|j l IH].
  - unfold joint. cbn [map sumq foldr]. apply (rule_zero h t Hinv Hgr); [done| |by apply (gr_node _ _ Hgr)].
    intros c Hc. eapply below_in; [exact Hb|]. unfold inputs. by rewrite Hf.
  - eapply (rule_ext h (fun y idx => joint l y idx + d x j * by_at j y idx)%Qc); [|].
    + intros z idx. unfold joint. cbn [map sumq foldr]. unfold sumq. ring.
    + apply rule_lin; [done|]. by apply by_facts.
Qed.
Lemma joint_zero y idx l : below h t y -> y <> x -> ~ is_node h y \/ ~ tracked h y -> joint l y idx = 0%Qc.
Proof.
  intros Hb Hne Hor. apply sumq_zero. intros j _. destruct (by_facts j) as (_ & H2 & H3).
  assert (tracked h y \/ ~ tracked h y) as [Ht|Ht].
  { unfold tracked. destruct (h_ten h !! y) as [r|]; [destruct (t_rg r) eqn:E; [left; by exists r|right; intros (r' & ? & ?); congruence]|right; intros (r' & ? & _); congruence]. }
  - destruct Hor as [Hor|Hor]; [|done]. rewrite H3 by auto. unfold unit_at. rewrite decide_False by naive_solver. ring.
  - rewrite H2 by done. ring.
Qed.
Lemma joint_self idx : in_range (shape_of h x) idx -> joint (indices (shape_of h x)) x idx = d x idx.
Proof.
  intros Hi. unfold joint. rewrite (sumq_one _ _ idx).
  - destruct (by_facts idx) as (_ & _ & H3). rewrite H3 by auto. unfold unit_at. rewrite decide_True by done. ring.
  - apply NoDup_indices.
  - by apply elem_of_indices.
  - intros j _ Hj. destruct (by_facts j) as (_ & _ & H3). rewrite H3 by auto. unfold unit_at. rewrite decide_False by naive_solver. ring.
Qed.
Lemma joint_same y idx : below h t y -> y <> a -> in_range (shape_of h y) idx -> d y idx = joint (indices (shape_of h x)) y idx.
Proof.
  revert idx. induction (lt_wf y) as [y _ IH]. intros idx Hb Hya Hi. destruct (decide (y = x)) as [->|Hne]; [by rewrite joint_self|].
  destruct (fn_of h y) as [f|] eqn:Ef.
  - destruct (tinv_inputs h y f Hinv Ef) as (_ & _ & _ & _ & Hin). destruct Hob as [Hr _].
    assert (forall c, c ∈ gf_in f -> c ∈ inputs h y) as Hbi by (intros c Hc; unfold inputs; by rewrite Ef).
    assert (forall c, c ∈ gf_in f -> below h t c) as Hbt by (intros c Hc; eapply below_in; [exact Hb|by apply Hbi]).
    eapply (rule_unique h t Hinv Hgr d (joint (indices (shape_of h x))) y (gf_kind f) (gf_in f)); [done|done|by apply (gr_node _ _ Hgr)| |by apply Hr|by apply joint_rule|done].
    intros c k Hc Hk. apply IH; [by apply Hin|by apply Hbt| |done]. intros ->. apply Hne, Sole; [done|]. by apply Hbi.
  - assert (~ is_node h y) as Ny by (intros [? ?]; congruence). rewrite joint_zero by auto.
    assert (tracked h y \/ ~ tracked h y) as [Ht|Ht].
    { unfold tracked. destruct (h_ten h !! y) as [r|]; [destruct (t_rg r) eqn:E; [left; by exists r|right; intros (r' & ? & ?); congruence]|right; intros (r' & ? & _); congruence]. }
    + rewrite Hd by done. rewrite decide_False by naive_solver. done.
    + by apply Hob.
Qed.
(** the other operands do not change *)
Lemma other_zero b idx : b ∈ inputs h x -> b <> a -> in_range (shape_of h b) idx -> d b idx = 0%Qc.
Proof.
  intros Hb Hba Hi. assert (below h t b) as Bb by (by eapply below_in). rewrite joint_same by done. apply sumq_zero. intros j _. destruct (by_facts j) as (H1 & H2 & H3).
  rewrite (under_zero h t Hinv Hgr (by_at j) x b); try done; [ring| |constructor].
  intros y k By Ny Ty Hne. rewrite H3 by auto. unfold unit_at. rewrite decide_False by naive_solver. done.
Qed.
Lemma chain_root (g : list Z -> Qc) : a <> t -> (forall j, in_range (shape_of h x) j -> derivative_at h t x j (g j)) ->
  d t (map (fun _ => 0%Z) (shape_of h t)) = sum_over (shape_of h x) (fun j => g j * d x j)%Qc.
Proof.
  intros Hat Hg. rewrite joint_same; [|constructor|done|by apply root_in_range]. apply sum_over_ext. intros j Hj.
  rewrite (derivative_at_unique h t x j _ _ Hinv Hgr (Hg j Hj) (by_derivative j)). ring.
Qed.
End local.

Lemma sole_root h t a : grad_ready h t -> ~ is_node h a -> a <> t.
Proof. intros Hgr Na ->. apply Na. by apply root_node. Qed.

Section program.
Variables (ops : list op) (H : list nat) (T : nat -> Prop) (h : heap) (t x : nat) (f : gradfn) (a : nat).
Hypothesis Hp : program ops H T h.
Hypothesis Hb : may_backward h H T t.
Hypothesis Bx : below h t x.
Hypothesis Hf : fn_of h x = Some f.
Hypothesis Hk : gf_kind f <> NoBack.
Hypothesis Ax : a ∈ gf_in f.
Hypothesis Na : ~ is_node h a.
Hypothesis Ta : tracked h a.
Hypothesis Sole : forall y, below h t y -> a ∈ inputs h y -> y = x.
Lemma local_backward : exists h', exec (OBackward (Some t)) h = (Ok RUnit, h') /\
  (forall j, exists g, derivative_at h t x j g /\ forall g', derivative_at h t x j g' -> g' = g) /\
  forall i (g : list Z -> Qc), in_range (shape_of h a) i -> (forall j, in_range (shape_of h x) j -> derivative_at h t x j (g j)) ->
    exists d : tangent, rule h d x (gf_kind f) (gf_in f) /\ (forall idx, d a idx = if decide (idx = i) then 1%Qc else 0%Qc) /\
      (forall b idx, b ∈ gf_in f -> b <> a -> in_range (shape_of h b) idx -> d b idx = 0%Qc) /\
      grad_value h' a i = (grad_value h a i + sum_over (shape_of h x) (fun j => g j * d x j))%Qc.
Proof.
  pose proof (program_ready _ _ _ _ _ Hp Hb) as Hgr. destruct (program_facts _ _ _ _ Hp) as (Hinv & Hver & Hsz).
  destruct (program_backward _ _ _ _ _ Hp Hb) as (h' & E & _ & K). exists h'. split; [done|].
  assert (inputs h x = gf_in f) as Ei by (unfold inputs; by rewrite Hf). assert (is_node h x) as Nx by (by exists f).
  assert (~ is_view h x) as Vx by (intros (f' & ? & ?); congruence). assert (a ∈ inputs h x) as Ax' by (by rewrite Ei).
  assert (below h t a) as Ba by (by eapply below_in). split.
  - intros j. eexists. split; [by apply (by_derivative h t Hinv Hgr x Bx Nx Vx)|]. intros g' Hg'. eapply derivative_at_unique; [done|done|done|by apply (by_derivative h t Hinv Hgr x Bx Nx Vx)].
  - intros i g Hi Hg. destruct (K a i Ba Na Ta Hi) as (q & (d & Hob & Hd & Eq) & _ & ->). exists d. split; [by apply Hob|]. split; [|split].
    + intros idx. rewrite Hd by done. destruct (decide (idx = i)); [by rewrite decide_True|]. by rewrite decide_False by naive_solver.
    + intros b idx Hbi. eapply (other_zero h t Hinv Hgr x a Bx Nx Vx Ax' Sole d i Hob Hd). by rewrite Ei.
    + f_equal. rewrite Eq. apply (chain_root h t Hinv Hgr x a Bx Nx Vx Ax' Sole d i Hob Hd); [|done]. by eapply sole_root.
Qed.
End program.

(** ** quotients *)
Lemma numerator_grad ops H T h t x f a b : program ops H T h -> may_backward h H T t -> below h t x ->
  fn_of h x = Some f -> gf_kind f = DivBack -> gf_in f = [a; b] -> a <> b -> ~ is_node h a ->
  (forall y, below h t y -> a ∈ inputs h y -> y = x) ->
  exists h', exec (OBackward (Some t)) h = (Ok RUnit, h') /\
    (forall j, exists g, derivative_at h t x j g /\ forall g', derivative_at h t x j g' -> g' = g) /\
    forall i (g : list Z -> Qc), in_range (shape_of h a) i -> (forall j, in_range (shape_of h x) j -> derivative_at h t x j (g j)) ->
      grad_value h' a i = (grad_value h a i + sum_over (shape_of h x) (fun j => if decide (bidx (shape_of h a) j = i) then g j / value h b j else 0))%Qc.
Proof.
  intros Hp Hb Bx Hf Hk Ei Hab Na Sole. pose proof (program_ready _ _ _ _ _ Hp Hb) as Hgr. pose proof (gr_node _ _ Hgr x f Bx Hf) as Hn. rewrite Hk, Ei in Hn.
  destruct Hn as (Es & Hc & _ & Eb & Ta & Tb & _).
  destruct (local_backward ops H T h t x f a Hp Hb Bx Hf) as (h' & E & U & K); [congruence|rewrite Ei; mem|done|done|done|].
  exists h'. split; [done|]. split; [done|]. intros i g Hi Hg. destruct (K i g Hi Hg) as (d & Hr & Da & Db & ->). f_equal. rewrite Hk, Ei in Hr. cbn [rule] in Hr.
  assert (0 < 1)%nat as _ by lia. apply sum_over_ext. intros j Hj. rewrite (Hr j Hj), Da. rewrite Db; [|rewrite Ei; mem|done|].
  - assert (bidx (shape_of h b) j = j) as ->. { rewrite Eb. by apply bidx_self. }
    case_decide; unfold Qcdiv; ring.
  - rewrite Es in Hj. by eapply bidx_in_r.
Qed.
Lemma denominator_grad ops H T h t x f a b : program ops H T h -> may_backward h H T t -> below h t x ->
  fn_of h x = Some f -> gf_kind f = DivBack -> gf_in f = [a; b] -> a <> b -> ~ is_node h b ->
  (forall y, below h t y -> b ∈ inputs h y -> y = x) ->
  exists h', exec (OBackward (Some t)) h = (Ok RUnit, h') /\
    (forall j, exists g, derivative_at h t x j g /\ forall g', derivative_at h t x j g' -> g' = g) /\
    forall i g, in_range (shape_of h b) i -> derivative_at h t x i g ->
      grad_value h' b i = (grad_value h b i - g * (value h a (bidx (shape_of h a) i) / value h b i) / value h b i)%Qc.
Proof.
  intros Hp Hb Bx Hf Hk Ei Hab Nb Sole. pose proof (program_ready _ _ _ _ _ Hp Hb) as Hgr. pose proof (gr_node _ _ Hgr x f Bx Hf) as Hn. rewrite Hk, Ei in Hn.
  destruct Hn as (Es & Hc & _ & Eb & Ta & Tb & _).
  destruct (local_backward ops H T h t x f b Hp Hb Bx Hf) as (h' & E & U & K); [congruence|rewrite Ei; mem|done|done|done|].
  exists h'. split; [done|]. split; [done|]. intros i g Hi Hg.
  assert (exists G : list Z -> Qc, (forall j, in_range (shape_of h x) j -> derivative_at h t x j (G j)) /\ G i = g) as (G & HG & EG).
  { destruct (program_facts _ _ _ _ Hp) as (Hinv & _). assert (is_node h x) as Nx by (by exists f). assert (~ is_view h x) as Vx by (intros (f' & ? & ?); congruence).
    exists (fun j => by_at h x j t (map (fun _ => 0%Z) (shape_of h t))). split; [intros; by apply by_derivative|].
    eapply derivative_at_unique; [done|done|by apply by_derivative|done]. }
  destruct (K i G Hi HG) as (d & Hr & Da & Db & ->). unfold Qcminus. f_equal. rewrite Hk, Ei in Hr. cbn [rule] in Hr.
  assert (in_range (shape_of h x) i) as Hxi by (by rewrite <- Eb).
  unfold sum_over. rewrite (sumq_one _ _ i).
  - rewrite (Hr i Hxi). rewrite (bidx_self (shape_of h b) i Hi), Da, decide_True by done. rewrite Db; [|rewrite Ei; mem|done|rewrite Es in Hxi; by eapply bidx_in_l].
    rewrite EG. unfold Qcdiv, Qcminus. rewrite Qcinv_mult_distr. ring.
  - apply NoDup_indices.
  - by apply elem_of_indices.
  - intros j Hj%elem_of_indices Hne. assert (in_range (shape_of h b) j) as Hjb by (by rewrite Eb). rewrite (Hr j Hj), (bidx_self (shape_of h b) j Hjb), Da, decide_False by done.
    rewrite Db; [|rewrite Ei; mem|done|rewrite Es in Hj; by eapply bidx_in_l]. unfold Qcdiv, Qcminus. ring.
Qed.

(** ** max and min *)
Lemma extremum_grad ops H T h t x f kg a : program ops H T h -> may_backward h H T t -> below h t x ->
  fn_of h x = Some f -> gf_kind f = KnownGradBack kg -> gf_in f = [a] -> shape_of h x <> shape_of h a -> ~ is_node h a -> tracked h a ->
  (forall y, below h t y -> a ∈ inputs h y -> y = x) ->
  exists h' g best, exec (OBackward (Some t)) h = (Ok RUnit, h') /\ shape_of h x = [] /\
    derivative_at h t x [] g /\ (forall g', derivative_at h t x [] g' -> g' = g) /\
    in_range (shape_of h a) best /\ value h x [] = value h a best /\
    ((forall i, in_range (shape_of h a) i -> (value h a i <= value h a best)%Qc) \/ (forall i, in_range (shape_of h a) i -> (value h a best <= value h a i)%Qc)) /\
    forall i, in_range (shape_of h a) i -> grad_value h' a i = (grad_value h a i + if decide (i = best) then g else 0)%Qc.
Proof.
  intros Hp Hb Bx Hf Hk Ei Hne Na Ta Sole. pose proof (program_ready _ _ _ _ _ Hp Hb) as Hgr. pose proof (gr_node _ _ Hgr x f Bx Hf) as Hn. rewrite Hk, Ei in Hn.
  destruct Hn as (_ & _ & [?|Es]); [done|].
  destruct (program_GI _ _ _ _ Hp) as (D & G & HD). assert (D x) as Dx by (eapply below_D; [apply (g_in _ _ _ G)|apply HD, Hb|done]).
  destruct (g_node _ _ _ G x f Dx Hf) as (_ & Hc & Hg). destruct (Hg kg a Hk Ei) as [[? _]|(_ & best & Hbest & Vb & Vk)]; [done|].
  rewrite Hk, Ei in Hc. cbn [computes] in Hc. destruct Hc as [[? _]|(_ & _ & Hc)]; [done|].
  destruct (local_backward ops H T h t x f a Hp Hb Bx Hf) as (h' & E & U & K); [congruence|rewrite Ei; mem|done|done|done|].
  destruct (U []) as (g & Hdg & Ug). exists h', g, best. split_and!; try done.
  - rewrite Vb. case_decide; destruct Hc as [_ Hc]; [by left|by right].
  - intros i Hi. destruct (K i (fun _ => g) Hi) as (d & Hr & Da & _ & ->).
    { intros j Hj. rewrite Es in Hj. by apply in_range_nil_inv in Hj as ->. }
    f_equal. rewrite Hk, Ei in Hr. cbn [rule] in Hr. rewrite decide_False in Hr by done. rewrite Es. unfold sum_over at 1. cbn [indices map sumq foldr].
    rewrite Hr. unfold sum_over. rewrite (sumq_one _ _ i).
    + rewrite Da, decide_True, Vk by done. destruct (decide (i = best)); ring.
    + apply NoDup_indices.
    + by apply elem_of_indices.
    + intros j _ Hj. rewrite Da, decide_False by done. ring.
Qed.
