(** backward() leaves in the gradient of an intermediate that retains it the derivative with
    respect to that intermediate. *)
From Verif.Proofs Require Export Prog10.
From Verif.Model Require Export Exact Api.
#[local] Existing Instance Exact.
#[local] Existing Instance is_view_dec.

Lemma root_in_range h t : grad_ready h t -> in_range (shape_of h t) (map (fun _ => 0) (shape_of h t)).
Proof.
  intros Hgr. destruct (gr_root _ _ Hgr) as (r & f & Hr & _ & _ & _ & Hone & _). unfold shape_of, lay_of. rewrite Hr. fold (shape r).
  destruct (gr_data _ _ Hgr t r ltac:(constructor) Hr) as [Hh _]. pose proof (holds_nonneg _ _ _ Hh) as Hn.
  pose proof (size_prod_one _ Hn Hone) as Ho. unfold shape. clear - Ho. unfold shape in Ho. induction Ho as [|x ss -> Ho IH]; constructor; [lia|done].
Qed.
Lemma derivative_at_exists h t u j : tinv h -> grad_ready h t -> tracked h u -> ~ is_view h u -> exists q, derivative_at h t u j q.
Proof.
  intros Hinv Hgr Tu Vu. set (e := fun (x : nat) (idx : list Z) => if decide (x = u /\ idx = j) then 1%Qc else 0%Qc).
  assert (forall x, x ∈ [u] -> tracked h x /\ ~ is_view h x) as Hk by (by intros x ->%elem_of_list_singleton).
  exists (tan h e [u] t (map (fun _ => 0) (shape_of h t))), (tan h e [u]). split_and!; [| | |done].
  - intros x f Hb Hne Hf. apply (tan_rule h t Hinv Hgr e [u] (fixed_ok _ _ _ Hk)); [done| |done]. by intros ?%elem_of_list_singleton.
  - intros x idx Hb Hn. by apply (tan_untracked h t Hinv Hgr e [u] (fixed_ok _ _ _ Hk)).
  - intros x idx Hb Hor. apply (tan_leaf h t Hinv Hgr e [u]). destruct Hor as [->|?]; [left; apply elem_of_list_here|by right].
Qed.
Lemma derivative_at_unique h t u j q q' : tinv h -> grad_ready h t -> derivative_at h t u j q -> derivative_at h t u j q' -> q = q'.
Proof.
  intros Hinv Hgr (d & H1 & H2 & H3 & ->) (d' & H1' & H2' & H3' & ->). apply (tangent_unique_but h t Hinv Hgr [u] d d'); try done.
  - intros x f Hb Hx. apply H1; [done|]. intros ->. apply Hx, elem_of_list_here.
  - intros x f Hb Hx. apply H1'; [done|]. intros ->. apply Hx, elem_of_list_here.
  - intros x idx Hb Hor Hi. rewrite elem_of_list_singleton in Hor. by rewrite H3, H3'.
  - constructor.
  - by apply root_in_range.
Qed.

Lemma backward_retained h t u j r : tinv h -> vinv h -> sized h -> grad_ready h t -> below h t u -> is_node h u -> ~ is_view h u -> u <> t -> (forall x, ~ mean_below h t x) ->
  h_ten h !! u = Some r -> t_ret r = true -> in_range (shape_of h u) j ->
  forall h' q, exec (OBackward (Some t)) h = (Ok RUnit, h') -> derivative_at h t u j q -> grad_value h' u j = q.
Proof.
  intros Hinv Hver Hsz Hgr Bu Nu Vu Hne Hmn Hr Hret Hj h' q E (d & H1 & H2 & H3 & ->).
  assert (tracked h u) as Tu.
  { destruct Nu as [f Hf]. unfold fn_of in Hf. rewrite Hr in Hf. exists r. split; [done|]. by destruct (Deriv.gr_new _ _ Hgr u r f Bu Hr Hf). }
  assert (is_node h t) as Hnt. { destruct (gr_root _ _ Hgr) as (r' & f & Hr' & Hf & _). exists f. unfold fn_of. by rewrite Hr'. }
  destruct (leaves_exist h t Hinv Hver Hnt) as (ls & Hls). pose proof Hls as [Hdl Hl].
  assert (forall x, x ∈ ls -> x <> u) as Hlu by (intros x (_ & Hx & _)%Hl ->; done).
  assert (forall x idx, x ∈ ls -> d x idx = 0%Qc) as Hz.
  { intros x idx Hx. pose proof (Hlu x Hx). apply Hl in Hx as (? & ? & ?). rewrite H3 by auto. rewrite decide_False by naive_solver. done. }
  destruct (backward_kept h t d ls [u] [] Hinv Hver Hsz Hgr Hls (no_means h t Hmn)) as (h1 & E1 & P1 & F1).
  - split; [|done]. intros x f Hb _ Hf Hk. apply H1; [done| |done]. intros ->. apply Vu. by exists f.
  - apply NoDup_singleton.
  - intros x f Hb Hx Hf. case_decide as Hm; [destruct (Hmn x); by split|]. apply H1; [done| |done]. intros ->. apply Hx, elem_of_list_here.
  - intros x ->%elem_of_list_singleton. split; [done|]. split; [by split_and!|]. split; [done|]. split; [by exists r|].
    intros f Hf _. assert (forall a, a ∈ gf_in f -> a ∈ inputs h u) as Hin by (intros a Ha; unfold inputs; by rewrite Hf).
    apply (rule2_zero h t Hinv Hgr); [done| |by apply (gr_node _ _ Hgr)|].
    + intros a Ha. eapply below_in; [exact Bu|by apply Hin].
    + intros a idx Ha Hi. apply (under_zero h t Hinv Hgr d u a); try done; [|by apply Hin|constructor].
      intros y i Hy Hny Ty Hyu. rewrite H3 by auto. rewrite decide_False by naive_solver. done.
  - assert (h1 = h') as ->.
    { cbn [exec] in E. unfold deref, no_result in E. rewrite bind_ret in E. erewrite bind_ok in E by exact E1. by injection E. }
    assert (pairing h ls d = 0%Qc) as E0.
    { apply sumq_zero. intros x Hx. apply sumq_zero. intros idx _. rewrite Hz by done. ring. }
    destruct (ef_rec _ _ _ F1 u r Hr) as (r' & Hr' & (_ & D2 & _) & _).
    assert (shape_of h' u = shape_of h u) as Es by (unfold shape_of, lay_of; by rewrite Hr, Hr', D2).
    assert (Forall (fun n => 0 <= n) (shape_of h u)) as Hsn.
    { destruct (gr_data _ _ Hgr u r Bu Hr) as [Hh _]. unfold shape_of, lay_of. rewrite Hr. by eapply holds_nonneg. }
    rewrite E0, Qcplus_0_l in P1. rewrite (pairing_unit h' ([u] ++ ls) d u j) in P1.
    + rewrite P1. cbn [map sumq foldr]. rewrite Qcplus_0_r. destruct (gr_root _ _ Hgr) as (rt & f & Hrt & _ & _ & _ & Hone & _).
      destruct (gr_data _ _ Hgr t rt ltac:(constructor) Hrt) as [Hh _]. apply one_index.
      * unfold shape_of, lay_of. rewrite Hrt. by eapply holds_nonneg.
      * unfold shape_of, lay_of. by rewrite Hrt.
    + simpl. constructor; [|done]. intros Hx. by apply (Hlu u).
    + apply elem_of_list_here.
    + by rewrite Es.
    + by rewrite Es.
    + intros x idx [->|Hx]%elem_of_cons; [apply H3; [done|by left]|]. pose proof (Hlu x Hx). rewrite Hz by done. rewrite decide_False by naive_solver. done.
Qed.
Lemma program_retained ops H T h t u r : program ops H T h -> may_backward h H T t -> below h t u -> is_node h u -> ~ is_view h u -> u <> t ->
  h_ten h !! u = Some r -> t_ret r = true ->
  exists h', exec (OBackward (Some t)) h = (Ok RUnit, h') /\ forall j, in_range (shape_of h u) j ->
    exists q, derivative_at h t u j q /\ (forall q', derivative_at h t u j q' -> q' = q) /\ grad_value h' u j = q.
Proof.
  intros Hp Hb Bu Nu Vu Hne Hr Hret. destruct (program_facts _ _ _ _ Hp) as (Hinv & Hver & Hsz). pose proof (program_ready _ _ _ _ _ Hp Hb) as Hgr.
  destruct (backward_run h t Hinv Hver Hsz Hgr) as (h' & E & _). exists h'. split; [done|]. intros j Hj.
  destruct (derivative_at_exists h t u j Hinv Hgr) as (q & Hq); [|done|].
  { destruct Nu as [f Hf]. unfold fn_of in Hf. rewrite Hr in Hf. exists r. split; [done|]. by destruct (Deriv.gr_new _ _ Hgr u r f Bu Hr Hf). }
  exists q. split; [done|]. split; [intros q' Hq'; by eapply derivative_at_unique|]. eapply backward_retained; try done. by eapply mb_no_means.
Qed.

(** twice from a root whose operands are leaves *)
Lemma program_again ops H T h t : program ops H T h -> may_backward h H T t -> (forall x, below h t x -> x <> t -> ~ is_node h x) ->
  exists h1 h2, exec (OBackward (Some t)) h = (Ok RUnit, h1) /\ exec (OBackward (Some t)) h1 = (Ok RUnit, h2) /\
  forall a i, a ∈ H -> below h t a -> tracked h a -> a <> t -> in_range (shape_of h a) i ->
    exists q, derivative h t a i q /\ (forall q', derivative h t a i q' -> q' = q) /\
      grad_value h1 a i = (grad_value h a i + q)%Qc /\ grad_value h2 a i = (grad_value h a i + q + q)%Qc.
Proof.
  intros Hp Hb Hl. destruct (program_twice ops H T h t t Hp Hb Hb) as (h1 & h2 & E1 & E2 & K); [by intros; apply Hl|].
  destruct (program_backward _ _ _ _ _ Hp Hb) as (h1' & E1' & _ & K1). assert (h1' = h1) as -> by congruence.
  exists h1, h2. split; [done|]. split; [done|]. intros a i Ha Hba Ta Hne Hi. assert (~ is_node h a) as Na by (by apply Hl).
  destruct (K1 a i Hba Na Ta Hi) as (q & Dq & Uq & Eq). destruct (K a i Ha Ta Na Hi) as (p & p' & [[_ Dp]|[? _]] & [[_ Dp']|[? _]] & E); try done.
  exists q. split; [done|]. split; [done|]. split; [done|]. apply Uq in Dp as ->, Dp' as ->. done.
Qed.
