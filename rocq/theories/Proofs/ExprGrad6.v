(** Gradients of expressions: what backward() adds to the gradients of the leaves. *)
From Verif.Proofs Require Export ExprGrad5.
From Verif.Model Require Export Exact Api.
#[local] Existing Instance Exact.

Lemma slope_ext f g q : (forall s, f s = g s) -> slope f q -> slope g q.
Proof. intros E H eps He. destruct (H eps He) as (e & H1 & H2). exists e. split; [done|]. intros s Hs Hsm. rewrite <- !E. by apply H2. Qed.
Lemma root_cases env e : smooth_root env e -> (exists a, e = EMean a /\ smooth env a) \/ smooth env e.
Proof. destruct e; cbn [smooth_root]; intros H; try done; try (by right). left. by eexists. Qed.

Section root.
Context (h0 : heap) (env : nat -> option array) (h : heap).
Hypothesis Hfl : forall x r, h_ten h !! x = Some r -> t_rg r = true -> floating (t_dt r) = true.
Hypothesis Hlv : forall t A, env t = Some A -> has_arr h t A.

Lemma root_node e x : smooth_root env e -> grown h0 env h e x -> exists k ins, nodeat h x k ins /\ k <> NoBack /\ h_ten h0 !! x = None.
Proof.
  destruct e as [t|o p q|c p q|p|p D|p|p|p|p d0 d1|p s xs|p xs ss|p q d]; cbn [smooth_root]; intros Hs [_ Gx]; try done.
  - destruct Gx as (y & z & _ & _ & N & Nd). eexists _, _. split; [exact Nd|]. split; [by destruct o|done].
  - destruct Gx as (z & y & _ & N & Nd & _). eexists _, _. by split; [exact Nd|].
  - destruct Gx as (y & _ & N & Nd). eexists _, _. by split; [exact Nd|].
  - destruct Gx as (y & _ & N & Nd). eexists _, _. by split; [exact Nd|].
  - destruct Gx as (y & _ & N & Nd). eexists _, _. by split; [exact Nd|].
  - destruct Gx as (y & z & _ & _ & N & Nd). eexists _, _. by split; [exact Nd|].
Qed.
Lemma root_clause e x y f : smooth_root env e -> grown h0 env h e x -> below h x y -> fn_of h y = Some f -> y = x \/ clause h0 h y f.
Proof.
  intros Hs Gx Hb Hf. destruct (root_cases _ _ Hs) as [(a & -> & Ha)|Ha]; [|right; by eapply grown_nodes].
  destruct Gx as [_ (z & Gz & N & Nd)]. destruct (below_cases _ _ _ Hb) as [->|(w & Hw & Hb')]; [by left|right]. apply (inputs_of h x _ _ w Nd) in Hw as ->%elem_of_list_singleton. by eapply grown_nodes.
Qed.
Lemma root_regular e x : smooth_root env e -> grown h0 env h e x -> regular h x.
Proof.
  intros Hs Gx y f Hb Hf. assert ((gf_kind f = MeanBack) \/ clause h0 h y f) as [->|(_ & _ & K)].
  { destruct (root_cases _ _ Hs) as [(a & -> & Ha)|Ha]; [|right; by eapply grown_nodes].
    destruct Gx as [_ (z & Gz & N & Nd)]. destruct (below_cases _ _ _ Hb) as [->|(w & Hw & Hb')]; [left; by destruct (nodeat_fn _ _ _ _ _ Nd Hf)|right]. apply (inputs_of h x _ _ w Nd) in Hw as ->%elem_of_list_singleton. by eapply grown_nodes. }
  - done.
  - destruct (gf_kind f); try done. destruct (gf_in f) as [|? [|]]; done.
Qed.
Lemma root_tracked a B e A : env a = Some B -> a_rg B = true -> smooth_root env e -> occurs e a -> den env e = Some A -> a_rg A = true.
Proof.
  intros Ea Ga Hs Ho EA. destruct (root_cases _ _ Hs) as [(p & -> & Hp)|Hp]; [|by eapply occurs_tracked]. cbn [den occurs] in *. destruct (den env p) as [P|] eqn:EP; [|done]. cbn [bind1] in EA.
  unfold d_mean in EA. destruct (array_mean _ _ _); [|done]. injection EA as <-. cbn. by eapply occurs_tracked.
Qed.
Lemma root_leaf a B e x : env a = Some B -> a_rg B = true -> smooth_root env e -> occurs e a -> grown h0 env h e x -> below h x a.
Proof.
  intros Ea Ga Hs Ho Gx. pose proof (grown_arr _ _ _ _ _ Gx) as (A & EA & HA). pose proof (root_tracked a B e A Ea Ga Hs Ho EA) as Hg.
  destruct (root_cases _ _ Hs) as [(p & -> & Hp)|Hp]; [|by eapply grown_leaf]. destruct Gx as [_ (z & Gz & N & Nd)].
  apply (below_step h x z); [|by eapply grown_leaf]. unfold inputs. rewrite (nodeat_tracked _ _ _ _ Nd); [by apply elem_of_list_singleton|]. by apply (arr_facts h x A HA).
Qed.
Lemma root_sem t a i s v B0 e A : perturbed h t a i s v -> env a = Some B0 -> a_rg B0 = true -> accepted env e -> smooth_root env e -> grown h0 env h e t -> den env e = Some A -> a_rg A = true ->
  in_range (a_ss A) (map (fun _ => 0) (a_ss A)) -> first_elem (den (nudge env a i s) e) = v t (map (fun _ => 0) (a_ss A)).
Proof.
  intros Hpt Ea Ga Hac Hs Gx EA Hg H1. assert (agrees env a i s v e t A) as (A' & -> & _ & Ess & _ & Hv).
  { destruct (root_cases _ _ Hs) as [(p & -> & Hp)|Hp]; [|eapply sem; try done; constructor].
    pose proof (grown_arr _ _ _ _ _ Gx) as (A2 & EA2 & HA). assert (A2 = A) as -> by congruence. clear EA2. destruct (arr_facts h t A HA) as (Sx & Vx & Tx). apply (proj2 Tx) in Hg as Tr.
    destruct Hac as (Ap & _). destruct Gx as [_ (y & Gy & _ & Nd)]. destruct (node_rule h t a i s v Hpt t _ _ ltac:(constructor) Tr Nd) as [R Bl]. pose proof (grown_arr _ _ _ _ _ Gy) as (P & EP & HP). cbn [den] in EA. rewrite EP in EA. cbn [bind1] in EA.
    destruct (sem h0 env h Hfl Hlv t a i s v B0 Hpt Ea Ga p Ap Hp y P Gy ltac:(apply Bl; mem) EP) as (P' & DP & DT1 & SS1 & RG1 & V1). unfold d_mean in EA. destruct (array_mean (a_dt P) _ _) as [w|] eqn:Ew; [|done]. injection EA as <-. cbn in Hg, Sx |- *.
    assert (floating (a_dt P) = true) as Hf. { destruct HP as (r & [Hr _] & <- & _ & Hrg). apply (Hfl y); [done|congruence]. }
    unfold agrees. cbn [den]. rewrite DP. cbn [bind1]. unfold d_mean. rewrite DT1, SS1, RG1.
    destruct (array_mean (a_dt P) (a_ss P) (a_v P')) as [w'|] eqn:Ew'.
    2:{ unfold array_mean, array_sum in Ew'. rewrite Hf in Ew'. done. }
    eexists. split; [done|]. cbn. split; [done|]. split; [done|]. split; [done|].
    intros idx ->%in_range_nil_inv. rewrite (mean_num _ _ _ _ Hf Ew'). cbn [Spec.Program.computes] in R. destruct (arr_facts h y P HP) as (Sy & _). rewrite R, Sy. f_equal. apply sum_over_ext. intros idx Hi. by apply V1. }
  cbn [first_elem]. rewrite Ess. by apply Hv.
Qed.
End root.

Lemma expr_root ops H T h env e A : program ops H T h -> leaves_ok h env -> leaves_held h H env -> accepted env e -> smooth_root env e ->
  den env e = Some A -> a_rg A = true -> size_prod (a_ss A) = 1 ->
  exists l t h1 h2 H', Spec.Expr.eval e h = (Ok t, h1) /\ has_arr h1 t A /\ program (ops ++ l) H' T h1 /\ (forall a, a ∈ H -> a ∈ H') /\ stays h h1 /\ Proofs.Expr.keeps h h1 /\
    may_backward h1 H' T t /\ exec (OBackward (Some t)) h1 = (Ok RUnit, h2) /\
    program ((ops ++ l) ++ [OBackward (Some t)]) H' (fun x => T x \/ below h1 t x /\ is_node h1 x) h2 /\
    (forall a B, env a = Some B -> a_rg B = true -> occurs e a -> below h1 t a) /\
    forall a B i, env a = Some B -> a_rg B = true -> in_range (a_ss B) i ->
      slope (fun s => first_elem (den (nudge env a i s) e)) (grad_value h2 a i - grad_value h a i)%Qc.
Proof.
  intros Hp L LH Hac Hs EA Hg H1. pose proof (proj1 (leaves_is h env) L) as L'.
  destruct (grow h env e Hac (root_callable env e Hs) ops H T h A Hp L' LH (stays_refl h) EA) as (l & t & h1 & H' & Ev & Hp1 & Sub & Ht & K & Kp & At & Gt).
  pose proof (is_has _ _ _ _ At) as HA. destruct (program_facts _ _ _ _ Hp1) as (Hinv1 & Hver1 & _). destruct (program_GI _ _ _ _ Hp) as (D & G & _).
  assert (forall x r, h_ten h1 !! x = Some r -> t_rg r = true -> floating (t_dt r) = true) as Hfl. { intros x r Hr Hrg. rewrite <- is_float_floating. by apply (ok_rg _ _ _ (Hinv1 x r Hr)). }
  assert (forall u B, env u = Some B -> has_arr h1 u B) as Hlv. { intros u B EB. eapply keeps_has; [done|]. eapply is_has. by apply L'. }
  destruct (root_node h env h1 e t Hs Gt) as (k & ins & Nd & Hk & Nt). destruct (arr_facts h1 t A HA) as (St & Vt & Tt). apply (proj2 Tt) in Hg as Trt.
  pose proof (nodeat_tracked _ _ _ _ Nd Trt) as Ft.
  assert (forall x, below h1 t x -> is_node h1 x -> h_ten h !! x = None) as Hnew.
  { intros x Hb [f Hf]. destruct (root_clause h env h1 e t x f Hs Gt Hb Hf) as [->|[? _]]; done. }
  assert (may_backward h1 H' T t) as Hb.
  { split; [split|].
    - done.
    - eexists; exact Ft.
    - intros (f & Hf & Ek). destruct (nodeat_fn _ _ _ _ _ Nd Hf) as [<- _]. done.
    - by rewrite St.
    - destruct Nd as (r & Hr & _ & Hl). unfold shape_of, lay_of. rewrite Hr. by apply Hl.
    - intros x Hb _ Tx. destruct (g_sub _ _ _ G x Tx) as [Dx Nx]. destruct (g_rec _ _ _ G x Dx) as (r & Hr & _).
      assert (is_node h1 x) as Nx1. { destruct Nx as [f Hf]. exists f. by rewrite (stays_fn _ _ _ _ K Hr). } rewrite (Hnew x Hb Nx1) in Hr. done.
    - intros x f Hb Hf Ek. destruct (root_clause h env h1 e t x f Hs Gt Hb Hf) as [->|(_ & ? & _)]; done. }
  destruct (program_backward _ _ _ _ _ Hp1 Hb) as (h2 & E2 & Hp2 & _). destruct (program_slope _ _ _ _ _ Hp1 Hb (root_regular h env h1 e t Hs Gt)) as (h2' & E2' & Sl). assert (h2' = h2) as -> by congruence.
  exists l, t, h1, h2, H'. split; [done|]. split; [done|]. split; [done|]. split; [done|]. split; [done|]. split; [done|]. split; [done|]. split; [done|]. split; [done|].
  split; [intros a B Ea Ga Ho; by eapply root_leaf|].
  intros a B i Ea Ga Hi. destruct (LH a B Ea) as [HaH Hna]. rewrite <- (stays_grad _ _ _ _ _ a i Hp K HaH Hna).
  pose proof (Hlv a B Ea) as Ha1. destruct (arr_facts h1 a B Ha1) as (Sa & _ & Ta). assert (~ is_node h1 a) as Hna1. { eapply not_node_stays; [exact K| |done]. eapply is_has. by apply L'. }
  assert (in_range (a_ss A) (map (fun _ => 0) (a_ss A))) as Hfi.
  { rewrite <- St. apply first_in_range; [|by rewrite St]. pose proof (program_ready _ _ _ _ _ Hp1 Hb) as Hgr. apply (below_sizes h1 t Hgr). constructor. }
  destruct (below_em h1 t a Hinv1 Hver1 ltac:(eexists; exact Ft)) as [Hba|Hba].
  - rewrite <- Sa in Hi. destruct (Sl a i Hba Hna1 ltac:(by apply Ta) Hi) as [[v Hv] Sl']. destruct (Sl' v Hv) as [_ Hsl]. eapply slope_ext; [|exact Hsl]. intros s. cbv beta.
    rewrite (root_sem h env h1 Hfl Hlv t a i s (v s) B e A (Hv s) Ea Ga Hac Hs Gt EA Hg Hfi). unfold first_index. by rewrite St.
  - rewrite (program_other _ _ _ _ _ _ a i Hp1 Hb E2 (Sub a HaH) Hna1 Hba). destruct (occurs_dec e a) as [Ho|Ho]; [destruct Hba; by eapply root_leaf|].
    replace (grad_value h1 a i - grad_value h1 a i)%Qc with 0%Qc by ring. eapply slope_ext; [|apply fd_slope, fd_const]. intros s. cbv beta. rewrite (den_other env a i s e Ho). done.
Qed.
Lemma expr_gradient ops H T h env e A : program ops H T h -> leaves_ok h env -> leaves_held h H env -> accepted env e -> smooth_root env e ->
  den env e = Some A -> a_rg A = true -> size_prod (a_ss A) = 1 ->
  exists l t h1 h2 H', Spec.Expr.eval e h = (Ok t, h1) /\ has_arr h1 t A /\ exec (OBackward (Some t)) h1 = (Ok RUnit, h2) /\
    (forall a, a ∈ H -> a ∈ H') /\ program (ops ++ l ++ [OBackward (Some t)]) H' (fun x => T x \/ below h1 t x /\ is_node h1 x) h2 /\
    forall a B i, env a = Some B -> a_rg B = true -> in_range (a_ss B) i ->
      slope (fun s => first_elem (den (nudge env a i s) e)) (grad_value h2 a i - grad_value h a i)%Qc.
Proof.
  intros Hp L LH Hac Hs EA Hg H1. destruct (expr_root ops H T h env e A Hp L LH Hac Hs EA Hg H1) as (l & t & h1 & h2 & H' & R1 & R2 & R3 & R4 & R5 & R6 & R7 & R8 & R9 & R10 & R11).
  exists l, t, h1, h2, H'. rewrite app_assoc. done.
Qed.
