(** Gradients in IEEE arithmetic where nothing was rounded. *)
From Coq Require Import QArith Qcanon Floats.SpecFloat.
From Verif.Proofs Require Export Watch Prog9.
From Verif.Spec Require Import Program.
From Verif.Model Require Import Ieee Exact Api.
#[local] Existing Instance Exact.

Theorem watch_gradient ops H T h t rs w :
  (forall o, o ∈ ops -> proper o) -> program (map exactly ops) H T h -> may_backward h H T t ->
  compares_all empty_heap (ops ++ [OBackward (Some t)]) ->
  @run Watch empty_heap (map watched (ops ++ [OBackward (Some t)])) = (Ok rs, w) ->
  exists h', @run Ieee empty_heap (ops ++ [OBackward (Some t)]) = (Ok rs, h') /\
    forall a i, below h t a -> ~ is_node h a -> tracked h a -> in_range (shape_of h a) i ->
      exists d, derivative h t a i d /\ (forall d', derivative h t a i d' -> d' = d) /\
        forall x q, @grad_element Watch w a i = Some (@VF Watch (x, Some q)) ->
          @grad_element Ieee h' a i = Some (@VF Ieee x) /\ sf_value x = Some q /\ q = (grad_value h a i + d)%Qc.
Proof.
  intros HL Hp Hm HC HW.
  assert (forall o, o ∈ ops ++ [OBackward (Some t)] -> proper o) as HL'.
  { intros o [Ho|Ho]%elem_of_app; [by apply HL|]. apply elem_of_list_singleton in Ho as ->. intros u v Hv. by apply elem_of_nil in Hv. }
  destruct (watch_agree _ _ _ HL' HC HW) as (h' & rx & e & Ei & Ex & _ & A1 & A2 & A3).
  exists h'. split; [done|]. intros a i Hb Hn Ht Hi. destruct (program_backward _ _ _ _ _ Hp Hm) as (h1 & E1 & Hp1 & HG).
  destruct (HG a i Hb Hn Ht Hi) as (d & D1 & D2 & D3). exists d. split; [done|]. split; [done|]. intros x q Hg.
  assert (h1 = e) as ->.
  { destruct (program_run _ _ _ _ Hp1) as (_ & r1 & R1). rewrite map_app in Ex. cbn [map] in Ex. change (exactly (OBackward (Some t))) with (@OBackward Exact (Some t)) in Ex.
    rewrite R1 in Ex. by injection Ex. }
  unfold grad_element in Hg |- *. rewrite A1. destruct (h_ten w !! a) as [r|] eqn:Er; [|done]. destruct (t_grad r) as [g|] eqn:Eg; [|done].
  specialize (A3 g i). rewrite Hg in A3. destruct A3 as (B1 & y & B2 & B3). destruct (B3 q eq_refl) as [-> B4]. split; [done|]. split; [done|].
  rewrite <- D3. unfold grad_value, value. rewrite A2, Er, Eg. unfold element in B2. rewrite A2 in B2. destruct (h_ten w !! g) as [rg|]; [|done]. unfold contents. by rewrite B2.
Qed.
