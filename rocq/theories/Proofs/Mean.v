(** What backward() adds to the gradients when means lie below the root: the derivative, except
    that every mean counts as if the root depended on it with derivative 1. *)
From Verif.Proofs Require Export Retained.
From Verif.Model Require Export Exact Api.
#[local] Existing Instance Exact.
#[local] Existing Instance is_view_dec.

Lemma sum_over_lin ss c (f g : list Z -> Qc) : sum_over ss (fun i => f i + c * g i)%Qc = (sum_over ss f + c * sum_over ss g)%Qc.
Proof. unfold sum_over. by rewrite sumq_add, sumq_scale. Qed.
Lemma rule_lin h c (d e : tangent) x k ins : rule h d x k ins -> rule h e x k ins -> rule h (fun y i => d y i + c * e y i)%Qc x k ins.
Proof.
  intros H1 H2. destruct k as [ | | | | | | | |dim|kg].
  9: { intros idx Hi dm. specialize (H1 idx Hi). specialize (H2 idx Hi). cbv zeta in H1, H2. fold dm in H1, H2.
       destruct (owner _ _) as [k j]. destruct (ins !! k) as [a|]; [|done]. by rewrite H1, H2. }
  all: destruct ins as [|a [|b [|]]]; try done; cbn [rule] in H1, H2 |- *.
  1-4: intros idx Hi; rewrite (H1 idx Hi), (H2 idx Hi); unfold Qcdiv; ring.
  - rewrite H1, H2. by rewrite sum_over_lin.
  - rewrite H1, H2, sum_over_lin. unfold Qcdiv. ring.
  - intros idx idx' Hi Hi' E. by rewrite (H1 idx idx' Hi Hi' E), (H2 idx idx' Hi Hi' E).
  - intros idx Hi. by rewrite (H1 idx Hi), (H2 idx Hi).
  - case_decide as E.
    + intros idx Hi. rewrite (H1 idx Hi), (H2 idx Hi). ring.
    + rewrite H1, H2, <- sum_over_lin. apply sum_over_ext. intros i _. ring.
Qed.

Definition unit_at (u : nat) (j : list Z) : tangent := fun x idx => if decide (x = u /\ idx = j) then 1%Qc else 0%Qc.
Section mean.
Variables (h : heap) (t : nat).
Hypothesis Hinv : tinv h.
Hypothesis Hgr : grad_core h t.

Lemma mean_input x : mean_below h t x -> exists f a r, fn_of h x = Some f /\ gf_kind f = MeanBack /\ gf_in f = [a] /\ h_ten h !! x = Some r /\
  inputs h x = [a] /\ below h t a /\ tracked h x /\ ~ is_view h x /\ shape_of h x = [].
Proof.
  intros (Hb & Hne & f & Hf & Hk). pose proof (gc_node _ _ Hgr x f Hb Hf) as Hn. rewrite Hk in Hn. destruct (gf_in f) as [|a [|]] eqn:Ei; try done.
  assert (exists r, h_ten h !! x = Some r /\ t_fn r = Some f) as (r & Hr & Hf').
  { unfold fn_of in Hf. destruct (h_ten h !! x) as [r|] eqn:Er; [|done]. by exists r. }
  exists f, a, r. assert (inputs h x = [a]) as Ein by (unfold inputs; by rewrite Hf). split_and!; try done.
  - eapply below_in; [exact Hb|]. rewrite Ein. apply elem_of_list_here.
  - exists r. split; [done|]. by destruct (gc_new _ _ Hgr x r f Hb Hr Hf').
  - intros (f' & Hf1 & Hk'). congruence.
Qed.
Definition slope_at (m : nat) : tangent := tan h (unit_at m []) [m].
Lemma slope_facts m : mean_below h t m ->
  (forall x f, below h t x -> x <> m -> fn_of h x = Some f -> rule h (slope_at m) x (gf_kind f) (gf_in f)) /\
  (forall x idx, below h t x -> ~ tracked h x -> slope_at m x idx = 0%Qc) /\
  (forall x idx, below h t x -> x = m \/ ~ is_node h x /\ tracked h x -> slope_at m x idx = unit_at m [] x idx).
Proof.
  intros Hm. destruct (mean_input m Hm) as (f & a & r & _ & _ & _ & _ & _ & _ & Tm & Vm & _).
  assert (forall x, x ∈ [m] -> tracked h x /\ ~ is_view h x) as Hk by (by intros x ->%elem_of_list_singleton).
  split_and!.
  - intros x g Hb Hne Hf. apply (tan_rule h t Hinv Hgr (unit_at m []) [m] (fixed_ok _ _ _ Hk)); [done| |done]. by intros ?%elem_of_list_singleton.
  - intros x idx Hb Hn. by apply (tan_untracked h t Hinv Hgr (unit_at m []) [m] (fixed_ok _ _ _ Hk)).
  - intros x idx Hb Hor. refine (tan_leaf h t Hinv Hgr (unit_at m []) [m] x idx _). destruct Hor as [->|?]; [left; apply elem_of_list_here|by right].
Qed.
Lemma slope_derivative m : mean_below h t m -> derivative_at h t m [] (slope_at m t (map (fun _ => 0) (shape_of h t))).
Proof. intros Hm. destruct (slope_facts m Hm) as (H1 & H2 & H3). by exists (slope_at m). Qed.
(** by how much a tangent misses the rule of a mean *)
Definition miss (d : tangent) (m : nat) : Qc := (d m [] - mean_rate h d m)%Qc.
Lemma mean_rate_one (d : tangent) m a : inputs h m = [a] -> mean_rate h d m = (sum_over (shape_of h a) (d a) / qc_of_Z (size_prod (shape_of h a)))%Qc.
Proof. intros E. unfold mean_rate. rewrite E. cbn [map sumq foldr]. apply Qcplus_0_r. Qed.
Lemma miss_lin c (d e : tangent) m : mean_below h t m -> miss (fun y i => d y i + c * e y i)%Qc m = (miss d m + c * miss e m)%Qc.
Proof.
  intros Hm. destruct (mean_input m Hm) as (f & a & r & _ & _ & _ & _ & Ei & _). unfold miss. rewrite !(mean_rate_one _ m a Ei), sum_over_lin. unfold Qcdiv. ring.
Qed.
Lemma miss_rule d m f : mean_below h t m -> fn_of h m = Some f -> (rule h d m (gf_kind f) (gf_in f) <-> miss d m = 0%Qc).
Proof.
  intros Hm Hf. destruct (mean_input m Hm) as (f' & a & r & Hf' & Hk & Ei & _ & Ein & _). assert (f' = f) as -> by congruence. rewrite Hk, Ei. cbn [rule].
  unfold miss. rewrite (mean_rate_one _ m a Ein). split; [intros ->; ring|]. intros E. set (q := (_ / _)%Qc) in *.
  assert (d m [] = d m [] - q + q)%Qc as -> by ring. rewrite E. ring.
Qed.
Lemma miss_slope m m' : mean_below h t m -> mean_below h t m' -> miss (slope_at m') m = if decide (m = m') then 1%Qc else 0%Qc.
Proof.
  intros Hm Hm'. destruct (slope_facts m' Hm') as (H1 & H2 & H3). case_decide as E.
  - subst m'. destruct (mean_input m Hm) as (f & a & r & Hf & _ & _ & _ & Ein & Ba & _). unfold miss. rewrite (mean_rate_one _ m a Ein), H3; [|apply Hm|by left].
    unfold unit_at. rewrite decide_True by done. unfold sum_over. rewrite sumq_zero; [unfold Qcdiv; ring|]. intros i Hi%elem_of_indices.
    apply (under_zero h t Hinv Hgr (slope_at m) m a); try done; [apply Hm| |by rewrite Ein; apply elem_of_list_here|constructor].
    intros x idx Hx Hn Tx Hne. rewrite H3 by auto. unfold unit_at. rewrite decide_False by naive_solver. done.
  - pose proof Hm as (Hb & _ & f & Hf & _). apply (miss_rule _ m f Hm Hf). by apply H1.
Qed.

Variables (a : nat) (i : list Z) (d : tangent) (ms : list nat).
Hypothesis Hd : cut_tangent h t a i d.
Hypothesis Hms : means h t ms.
Definition patch (l : list nat) : tangent := fun x idx => (d x idx + sumq (map (fun m => mean_rate h d m * slope_at m x idx) l))%Qc.
Lemma patch_cons m l x idx : patch (m :: l) x idx = (patch l x idx + mean_rate h d m * slope_at m x idx)%Qc.
Proof. unfold patch. cbn [map sumq foldr]. unfold sumq. ring. Qed.
Lemma rule_ext (d1 d2 : tangent) x k ins : (forall y idx, d1 y idx = d2 y idx) -> rule h d1 x k ins -> rule h d2 x k ins.
Proof.
  intros E Hr. destruct k as [ | | | | | | | |dim|kg].
  9: { intros idx Hi dm. specialize (Hr idx Hi). cbv zeta in Hr. fold dm in Hr. destruct (owner _ _) as [k j]. destruct (ins !! k) as [c|]; [|done]. by rewrite <- !E. }
  all: destruct ins as [|b [|c [|]]]; try done; cbn [rule] in Hr |- *; try (intros; rewrite <- !E; by apply Hr).
  - rewrite <- E, Hr. by apply sum_over_ext.
  - rewrite <- E, Hr. f_equal. by apply sum_over_ext.
  - case_decide as Hs; [intros; rewrite <- !E; by apply Hr|]. rewrite <- E, Hr. apply sum_over_ext. intros. by rewrite E.
Qed.
Lemma patch_rule l x f : (forall m, m ∈ l -> mean_below h t m) -> below h t x -> ~ mean_below h t x -> fn_of h x = Some f -> rule h (patch l) x (gf_kind f) (gf_in f).
Proof.
  intros Hl Hb Hx Hf. destruct Hd as [(H1 & _) _]. induction l as [|m l IH].
  - eapply rule_ext; [|by apply H1]. intros y idx. unfold patch. cbn [map sumq foldr]. by rewrite Qcplus_0_r.
  - eapply (rule_ext (fun y idx => patch l y idx + mean_rate h d m * slope_at m y idx)%Qc); [intros; by rewrite patch_cons|].
    assert (mean_below h t m) as Hm by (apply Hl, elem_of_list_here). apply rule_lin; [apply IH; intros; apply Hl; by right|].
    destruct (slope_facts m Hm) as (K1 & _). apply K1; [done| |done]. by intros ->.
Qed.
Lemma patch_untracked l x idx : (forall m, m ∈ l -> mean_below h t m) -> below h t x -> ~ tracked h x -> patch l x idx = 0%Qc.
Proof.
  intros Hl Hb Hn. destruct Hd as [(_ & _ & H3) _]. unfold patch. rewrite H3 by done. rewrite sumq_zero; [ring|]. intros m Hm. destruct (slope_facts m (Hl m Hm)) as (_ & K & _).
  rewrite K by done. ring.
Qed.
Lemma patch_leaf l x idx : (forall m, m ∈ l -> mean_below h t m) -> below h t x -> ~ is_node h x -> tracked h x -> patch l x idx = d x idx.
Proof.
  intros Hl Hb Hn Tx. unfold patch. rewrite sumq_zero; [ring|]. intros m Hm. destruct (slope_facts m (Hl m Hm)) as (_ & _ & K). rewrite K by auto.
  unfold unit_at. rewrite decide_False; [ring|]. intros [-> _]. destruct (Hl m Hm) as (_ & _ & f & Hf & _). apply Hn. by exists f.
Qed.
Lemma patch_miss l m : NoDup l -> (forall m, m ∈ l -> mean_below h t m) -> mean_below h t m -> miss (patch l) m = if decide (m ∈ l) then 0%Qc else (- mean_rate h d m)%Qc.
Proof.
  intros Hnd Hl Hm. induction Hnd as [|m' l Hn Hnd IH].
  - rewrite decide_False by (by intros ?%elem_of_nil). destruct (mean_input m Hm) as (f & c & r & _ & _ & _ & _ & Ein & _).
    unfold miss. rewrite !(mean_rate_one _ m c Ein). destruct Hd as [(_ & H2 & _) _]. unfold patch at 1. rewrite H2 by done. cbn [map sumq foldr].
    rewrite (sum_over_ext _ (patch [] c) (d c)); [ring|]. intros idx _. unfold patch. cbn [map sumq foldr]. ring.
  - assert (mean_below h t m') as Hm' by (apply Hl, elem_of_list_here).
    assert (miss (patch (m' :: l)) m = miss (fun y idx => patch l y idx + mean_rate h d m' * slope_at m' y idx)%Qc m) as ->.
    { destruct (mean_input m Hm) as (f & c & r & _ & _ & _ & _ & Ein & _). unfold miss. rewrite !(mean_rate_one _ m c Ein), patch_cons. do 2 f_equal.
      apply sum_over_ext. intros. apply patch_cons. }
    rewrite miss_lin, miss_slope by done. rewrite IH by (intros; apply Hl; by right). destruct (decide (m = m')) as [->|Hne].
    + rewrite decide_False by done. rewrite decide_True by apply elem_of_list_here. ring.
    + destruct (decide (m ∈ l)) as [Hi|Hi].
      * rewrite decide_True by (by right). ring.
      * rewrite decide_False by (by intros [?|?]%elem_of_cons). ring.
Qed.
Lemma patch_obeys : obeys h t (patch ms).
Proof.
  destruct Hms as [Hnd Hm]. assert (forall m, m ∈ ms -> mean_below h t m) as Hl by (intros; by apply Hm). split; [|intros; by apply patch_untracked].
  intros x f Hb Hf. destruct (decide (x ∈ ms)) as [Hx|Hx]; [|apply patch_rule; try done; by rewrite <- Hm].
  apply (miss_rule _ x f); [by apply Hm|done|]. rewrite patch_miss; [|done|done|by apply Hm]. by rewrite decide_True.
Qed.
Lemma cut_derivative : derivative h t a i (d t (map (fun _ => 0%Z) (shape_of h t)) +
  sumq (map (fun m => mean_rate h d m * slope_at m t (map (fun _ => 0%Z) (shape_of h t))) ms))%Qc.
Proof.
  exists (patch ms). split; [apply patch_obeys|]. split; [|done]. intros x idx Hb Hn Tx. rewrite patch_leaf by (try done; intros m; apply Hms). by apply Hd.
Qed.
End mean.

Lemma cut_exists h t a i : tinv h -> vinv h -> grad_core h t -> exists d, cut_tangent h t a i d.
Proof.
  intros Hinv Hver Hgr. pose proof (root_node h t Hgr) as Hnt. destruct (means_exist h t Hinv Hver Hnt) as (ms & Hnd & Hms).
  assert (forall x, x ∈ ms -> tracked h x /\ ~ is_view h x) as Hk.
  { intros x Hx%Hms. destruct (mean_input h t Hgr x Hx) as (f & c & r & _ & _ & _ & _ & _ & _ & ? & ? & _). done. }
  set (e := fun (x : nat) (idx : list Z) => if decide (x ∈ ms) then 0%Qc else unit_at a i x idx).
  exists (tan h e ms). split; [split_and!|].
  - intros x f Hb Hx Hf. apply (tan_rule h t Hinv Hgr e ms (fixed_ok _ _ _ Hk)); [done| |done]. by rewrite Hms.
  - intros x idx Hx%Hms. rewrite (tan_leaf h t Hinv Hgr e ms) by (by left). unfold e. by rewrite decide_True.
  - intros x idx Hb Hn. by apply (tan_untracked h t Hinv Hgr e ms (fixed_ok _ _ _ Hk)).
  - intros x idx Hb Hn Tx. rewrite (tan_leaf h t Hinv Hgr e ms) by (by right). unfold e. rewrite decide_False; [done|].
    intros (_ & _ & f & Hf & _)%Hms. apply Hn. by exists f.
Qed.

Lemma backward_mean h t a i : tinv h -> vinv h -> sized h -> grad_ready h t -> below h t a -> ~ is_node h a -> tracked h a -> in_range (shape_of h a) i ->
  forall h' d ms q up, exec (OBackward (Some t)) h = (Ok RUnit, h') -> cut_tangent h t a i d -> means h t ms ->
    derivative h t a i q -> (forall m, m ∈ ms -> derivative_at h t m [] (up m)) ->
    grad_value h' a i = (grad_value h a i + q + sumq (map (fun m => (1 - up m) * mean_rate h d m) ms))%Qc.
Proof.
  intros Hinv Hver Hsz Hgr Ha1 Ha2 Ha3 Hi h' d ms q up E Hd Hms Hq Hup.
  rewrite (derivative_unique h t a i q _ Hinv Hgr Hq (cut_derivative h t Hinv Hgr a i d ms Hd Hms)).
  destruct (backward_run h t Hinv Hver Hsz Hgr) as (h1 & E1 & F & P). assert (h1 = h') as -> by congruence.
  destruct (leaves_exist h t Hinv Hver (root_node h t Hgr)) as (ls & Hls). specialize (P d ls ms (proj1 Hd) Hls Hms). destruct Hls as [Hnd Hls].
  assert (a ∈ ls) as Hal by (by apply Hls).
  assert (forall x idx, x ∈ ls -> d x idx = if decide (x = a /\ idx = i) then 1%Qc else 0%Qc) as He'. { intros x idx (K0 & K1 & K2)%Hls. by apply Hd. }
  assert (shape_of h' a = shape_of h a) as Hsh.
  { destruct Ha3 as (r & Hr & _). destruct (ef_rec _ _ _ F a r Hr) as (r' & Hr' & (_ & S2 & _) & _). unfold shape_of, lay_of. by rewrite Hr, Hr', S2. }
  pose proof (below_sizes h t Hgr a Ha1) as Hn.
  rewrite (pairing_unit h ls d a i), (pairing_unit h' ls d a i) in P; rewrite ?Hsh; try done. rewrite P.
  destruct (gr_root _ _ Hgr) as (r & f & Hr & _ & _ & _ & Hone & _).
  rewrite (one_index (shape_of h t)); [|apply (below_sizes h t Hgr); constructor|unfold shape_of, lay_of; by rewrite Hr].
  rewrite <- !Qcplus_assoc. do 2 f_equal. rewrite <- sumq_add. apply sumq_ext. intros m Hm.
  rewrite (derivative_at_unique h t m [] _ _ Hinv Hgr (Hup m Hm) (slope_derivative h t Hinv Hgr m ltac:(by apply Hms))). ring.
Qed.
Lemma program_mean ops H T h t : program ops H T h -> may_start h H T t ->
  exists h', exec (OBackward (Some t)) h = (Ok RUnit, h') /\
    (exists ms, means h t ms) /\ (forall m, mean_below h t m -> exists u, derivative_at h t m [] u /\ forall u', derivative_at h t m [] u' -> u' = u) /\
    forall a i, below h t a -> ~ is_node h a -> tracked h a -> in_range (shape_of h a) i ->
      (exists d, cut_tangent h t a i d) /\
      (exists q, derivative h t a i q /\ forall q', derivative h t a i q' -> q' = q) /\
      forall d ms up q, cut_tangent h t a i d -> means h t ms -> (forall m, m ∈ ms -> derivative_at h t m [] (up m)) -> derivative h t a i q ->
        grad_value h' a i = (grad_value h a i + q + sumq (map (fun m => (1 - up m) * mean_rate h d m) ms))%Qc.
Proof.
  intros Hp Hb. pose proof (program_ready _ _ _ _ _ Hp Hb) as Hgr. destruct (program_facts _ _ _ _ Hp) as (Hinv & Hver & Hsz).
  destruct (backward_run h t Hinv Hver Hsz Hgr) as (h' & E & _). exists h'. split; [done|]. split; [apply means_exist; try done; apply Hb|]. split.
  - intros m Hm. eexists. split; [by apply (slope_derivative h t Hinv Hgr)|]. intros u' Hu. eapply derivative_at_unique; [done|done|done|by apply slope_derivative].
  - intros a i Ha1 Ha2 Ha3 Hi. split; [by apply cut_exists|]. split.
    + destruct (derivative_exists h t a i Hinv Hgr) as [q Hq]. exists q. split; [done|]. intros q' Hq'. by eapply derivative_unique.
    + intros d ms up q Hd Hms Hup Hq. by eapply backward_mean.
Qed.
(** the root depends on every mean with derivative 1 *)
Lemma program_mean_unit ops H T h t : program ops H T h -> may_start h H T t -> (forall m, mean_below h t m -> derivative_at h t m [] 1%Qc) ->
  exists h', exec (OBackward (Some t)) h = (Ok RUnit, h') /\
    forall a i, below h t a -> ~ is_node h a -> tracked h a -> in_range (shape_of h a) i ->
      exists q, derivative h t a i q /\ (forall q', derivative h t a i q' -> q' = q) /\ grad_value h' a i = (grad_value h a i + q)%Qc.
Proof.
  intros Hp Hb H1. destruct (program_mean _ _ _ _ _ Hp Hb) as (h' & E & (ms & Hms) & _ & K). exists h'. split; [done|]. intros a i Ha1 Ha2 Ha3 Hi.
  destruct (K a i Ha1 Ha2 Ha3 Hi) as ((d & Hd) & (q & Hq & Hu) & G). exists q. split; [done|]. split; [done|].
  rewrite (G d ms (fun _ => 1%Qc) q Hd Hms); [|intros m Hm; by apply H1, Hms|done]. rewrite sumq_zero; [ring|]. intros. ring.
Qed.
(** ** backward() from a view *)
Lemma view_start ops H T h t : program ops H T h -> may_start_view h H T t ->
  exists h', exec (OBackward (Some t)) h = (Ok RUnit, h') /\
    program (ops ++ [OBackward (Some t)]) H (fun x => T x \/ below h t x /\ is_node h x) h' /\
    (exists ms, means h t ms) /\
    forall a i, below h t a -> ~ is_node h a -> tracked h a -> in_range (shape_of h a) i ->
      (exists d, cut_tangent h t a i d) /\
      forall d ms, cut_tangent h t a i d -> means h t ms -> grad_value h' a i = (grad_value h a i + sumq (map (mean_rate h d) ms))%Qc.
Proof.
  intros Hp Hb. destruct (program_facts _ _ _ _ Hp) as (Hinv & Hver & Hsz). destruct (program_GI _ _ _ _ Hp) as (D & G & HD).
  pose proof (GI_core D T h H t Hinv G HD Hb) as Hgr. pose proof (root_node h t Hgr) as Hnt.
  destruct (backward_run_view h t Hinv Hver Hsz Hgr) as (h' & E & F & P); [apply Hb|apply Hb|]. exists h'. split; [done|].
  split; [eapply PBackward; [done|by right|done]|]. split; [by apply means_exist|].
  intros a i Ha1 Ha2 Ha3 Hi. split; [by apply cut_exists|]. intros d ms Hd Hms.
  destruct (leaves_exist h t Hinv Hver Hnt) as (ls & Hls). specialize (P d ls ms (proj1 Hd) Hls Hms). destruct Hls as [Hnd Hls].
  assert (a ∈ ls) as Hal by (by apply Hls).
  assert (forall x idx, x ∈ ls -> d x idx = if decide (x = a /\ idx = i) then 1%Qc else 0%Qc) as He'. { intros x idx (K0 & K1 & K2)%Hls. by apply Hd. }
  assert (shape_of h' a = shape_of h a) as Hsh.
  { destruct Ha3 as (r & Hr & _). destruct (ef_rec _ _ _ F a r Hr) as (r' & Hr' & (_ & S2 & _) & _). unfold shape_of, lay_of. by rewrite Hr, Hr', S2. }
  pose proof (below_sizes h t Hgr a Ha1) as Hn.
  by rewrite (pairing_unit h ls d a i), (pairing_unit h' ls d a i) in P; rewrite ?Hsh.
Qed.
Lemma view_start_none ops H T h t : program ops H T h -> may_start_view h H T t -> (forall x, ~ mean_below h t x) ->
  exists h', exec (OBackward (Some t)) h = (Ok RUnit, h') /\
    program (ops ++ [OBackward (Some t)]) H (fun x => T x \/ below h t x /\ is_node h x) h' /\
    forall a i, below h t a -> ~ is_node h a -> tracked h a -> in_range (shape_of h a) i -> grad_value h' a i = grad_value h a i.
Proof.
  intros Hp Hb Hm. destruct (view_start _ _ _ _ _ Hp Hb) as (h' & E & P & _ & K). exists h'. split; [done|]. split; [done|].
  intros a i H1 H2 H3 H4. destruct (K a i H1 H2 H3 H4) as ((d & Hd) & K'). rewrite (K' d [] Hd (no_means h t Hm)). cbn [map sumq foldr]. ring.
Qed.
