(** Gradients of several expressions, accumulated. *)
From Verif.Proofs Require Export ExprGrad6 Calculus.
From Verif.Spec Require Export ExprSum.
From Verif.Model Require Export Exact Api.
#[local] Existing Instance Exact.

Lemma slope_add (f g : Qc -> Qc) q q' : slope f q -> slope g q' -> slope (fun s => f s + g s)%Qc (q + q')%Qc.
Proof.
  intros Hf Hg eps He. assert (0 < eps * / (1 + 1))%Qc as Hh by (apply mul_pos; [done|by apply inv_pos]).
  destruct (Hf _ Hh) as (d & Hd & Kf), (Hg _ Hh) as (d' & Hd' & Kg).
  destruct (near_and (fun s => qabs s < d)%Qc (fun s => qabs s < d')%Qc (near_small d Hd) (near_small d' Hd')) as (m & Hm & M). exists m. split; [done|].
  intros s Hs Hsm. destruct (M s Hsm) as [M1 M2]. specialize (Kf s Hs M1). specialize (Kg s Hs M2).
  replace ((f s + g s - (f 0 + g 0)) / s - (q + q'))%Qc with (((f s - f 0) / s - q) + ((g s - g 0) / s - q'))%Qc by (field; done).
  eapply Qcle_lt_trans; [apply qabs_add|]. assert (eps = eps * / (1 + 1) + eps * / (1 + 1))%Qc as ->.
  { replace (eps * / (1 + 1) + eps * / (1 + 1))%Qc with (eps * ((1 + 1) * / (1 + 1)))%Qc by ring. rewrite Qcmult_inv_r by done. ring. }
  revert Kf Kg. match goal with |- (?a < ?b)%Qc -> (?c < ?b)%Qc -> _ => generalize a, b, c end. clear. qc_nra.
Qed.
Lemma slope_zero : slope (fun _ => 0%Qc) 0%Qc.
Proof. apply fd_slope, fd_const. Qed.
(** the data of [x] is the same *)
Definition same_tensor (h h' : heap) (x : nat) : Prop :=
  forall r, h_ten h !! x = Some r -> exists r', h_ten h' !! x = Some r' /\ same_data r r' /\ t_rg r' = t_rg r /\ (forall s, h_sto h !! t_sto r = Some s -> h_sto h' !! t_sto r = Some s).
Lemma same_backed h h' r r' cs : same_data r r' -> (forall s, h_sto h !! t_sto r = Some s -> h_sto h' !! t_sto r = Some s) -> backed h r cs -> backed h' r' cs.
Proof. intros (D1 & D2 & D3) E ((b & Hb) & H1 & H2 & H3). unfold backed. rewrite <- D1, <- D2, <- D3. split; [exists b; auto|]. done. Qed.
Lemma same_has h h' x A : same_tensor h h' x -> has_arr h x A /\ (forall r, h_ten h !! x = Some r -> roomy h r) -> has_arr h' x A /\ (forall r, h_ten h' !! x = Some r -> roomy h' r).
Proof.
  intros K [(r & [Hr [[cs Hb] Hv]] & T1 & T2 & T3) Hro]. destruct (K r Hr) as (r' & Hr' & D & E & S). pose proof D as (D1 & D2 & D3). specialize (Hro r Hr). split.
  - exists r'. unfold shape in *. rewrite <- D1, <- D2, E. split; [|done]. split; [done|]. split; [exists cs; by eapply same_backed|]. intros idx Hi. rewrite <- D2 in Hi. destruct (Hv idx Hi) as [V1 V2]. rewrite <- D1. split; [|done].
    rewrite (Prog.kept_elem h h' r r' idx D); [done|]. destruct Hb as ((b & Hb) & _). rewrite Hb. by apply S.
  - intros r2 Hr2. assert (r2 = r') as -> by congruence. intros Hp. unfold shape, small_strides in *. rewrite <- D2 in *. destruct (Hro Hp) as (R1 & R2 & cs' & R3 & R4). split; [done|]. split; [done|]. exists cs'. split; [|done]. by eapply same_backed.
Qed.
Lemma backward_same ops H T h t h' x : program ops H T h -> may_start h H T t -> exec (OBackward (Some t)) h = (Ok RUnit, h') -> x ∈ H -> same_tensor h h' x.
Proof.
  intros Hp Hb Eb Hx r Hr. pose proof (program_ready _ _ _ _ _ Hp Hb) as Hgr. destruct (program_facts _ _ _ _ Hp) as (Hinv & Hver & Hsz).
  destruct (program_GI _ _ _ _ Hp) as (D & G & HD). destruct (backward_run h t Hinv Hver Hsz Hgr) as (h2 & E & F & _). assert (h2 = h') as -> by congruence.
  pose proof (HD t (mb_held _ _ _ _ Hb)) as Dt. pose proof (mb_first _ _ _ _ Hb) as HT.
  destruct (ef_rec _ _ _ F x r Hr) as (r' & M1 & M2 & M3 & _). exists r'. split; [done|]. split; [done|]. split; [done|].
  destruct (D_kept D T h h' t G Dt HT F x (HD x Hx)) as (r0 & r1 & K1 & K2 & _ & _ & K3). assert (r0 = r) as -> by congruence. by rewrite K3.
Qed.
Lemma batch_gradient es : forall ops H T h env, program ops H T h -> leaves_ok h env -> leaves_held h H env -> Forall (loss_like env) es ->
  exists l h' H' T', batch es h = (Ok tt, h') /\ (forall a, a ∈ H -> a ∈ H') /\ program (ops ++ l) H' T' h' /\ leaves_ok h' env /\ leaves_held h' H' env /\
    forall a B i, env a = Some B -> a_rg B = true -> in_range (a_ss B) i ->
      slope (fun s => batch_total (nudge env a i s) es) (grad_value h' a i - grad_value h a i)%Qc.
Proof.
  induction es as [|e es IH]; intros ops H T h env Hp L LH Hes.
  { exists [], h, H, T. rewrite app_nil_r. split; [done|]. split; [done|]. split; [done|]. split; [done|]. split; [done|]. intros a B i _ _ _.
    replace (grad_value h a i - grad_value h a i)%Qc with 0%Qc by ring. exact slope_zero. }
  apply Forall_cons in Hes as [(Hac & Hs & A & EA & Hg & H1) Hes].
  destruct (expr_root ops H T h env e A Hp L LH Hac Hs EA Hg H1) as (l & t & h1 & h2 & H1' & Ev & HA & Hp1 & Sub & K & Kp & Hb & E2 & Hp2 & _ & Hsl).
  assert (forall x B, env x = Some B -> same_tensor h h2 x) as Hsame.
  { intros x B EB r Hr. destruct (LH x B EB) as [Hx _]. destruct (K x r Hr) as (r1 & Hr1 & (D1 & D2 & D3) & G1 & _ & S1 & _). destruct (backward_same _ _ _ _ _ _ x Hp1 (mb_start _ _ _ _ Hb) E2 (Sub x Hx) r1 Hr1) as (r2 & Hr2 & (F1 & F2 & F3) & G2 & S2).
    exists r2. split; [done|]. split; [split; [congruence|split; congruence]|]. split; [congruence|]. intros s Hs'. rewrite D3. apply S2. rewrite <- D3. by apply S1. }
  assert (leaves_ok h2 env) as L2. { intros x B EB. eapply same_has; [by eapply Hsame|by apply L]. }
  assert (leaves_held h2 H1' env) as LH2.
  { intros x B EB. destruct (LH x B EB) as [Hx Hn]. split; [auto|]. destruct (backward_keeps _ _ _ _ _ Hp1 (mb_start _ _ _ _ Hb)) as (h2' & E2' & _ & N & _). assert (h2' = h2) as -> by congruence. rewrite (N x (Sub x Hx)).
    intros [f Hf]. apply Hn. exists f. destruct (L x B EB) as ((r & [Hr _] & _) & _). by rewrite <- (stays_fn h h1 x r K Hr). }
  destruct (IH _ _ _ h2 env Hp2 L2 LH2 Hes) as (l' & h' & H' & T' & Eb & Sub' & P' & L' & LH' & Sl').
  exists ((l ++ [OBackward (Some t)]) ++ l'), h', H', T'. split; [|split; [auto|split; [by rewrite !app_assoc|split; [done|split; [done|]]]]].
  - cbn [batch]. erewrite bind_ok by exact Ev. erewrite bind_ok by exact E2. exact Eb.
  - intros a B i EB GB Hi. replace (grad_value h' a i - grad_value h a i)%Qc with ((grad_value h2 a i - grad_value h a i) + (grad_value h' a i - grad_value h2 a i))%Qc by ring.
    eapply slope_ext; [|apply slope_add; [by eapply Hsl|by eapply Sl']]. intros s. cbv beta. unfold batch_total. done.
Qed.
Lemma batch_order es es' ops H T h env : program ops H T h -> leaves_ok h env -> leaves_held h H env -> Forall (loss_like env) es -> es ≡ₚ es' ->
  exists h1 h2, batch es h = (Ok tt, h1) /\ batch es' h = (Ok tt, h2) /\
    forall a B i, env a = Some B -> a_rg B = true -> in_range (a_ss B) i -> grad_value h1 a i = grad_value h2 a i.
Proof.
  intros Hp L LH Hes Pm. assert (Forall (loss_like env) es') as Hes' by (by rewrite <- Pm).
  destruct (batch_gradient es ops H T h env Hp L LH Hes) as (? & h1 & ? & ? & E1 & _ & _ & _ & _ & S1).
  destruct (batch_gradient es' ops H T h env Hp L LH Hes') as (? & h2 & ? & ? & E2 & _ & _ & _ & _ & S2).
  exists h1, h2. split; [done|]. split; [done|]. intros a B i EB GB Hi.
  assert (grad_value h1 a i - grad_value h a i = grad_value h2 a i - grad_value h a i)%Qc as E.
  { eapply slope_unique; [by eapply S1|]. eapply slope_ext; [|by eapply S2]. intros s. apply sumq_perm. by rewrite Pm. }
  replace (grad_value h1 a i) with (grad_value h1 a i - grad_value h a i + grad_value h a i)%Qc by ring. rewrite E. ring.
Qed.
