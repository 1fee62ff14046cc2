(** Statements about histories for the order of backward(), and examples. *)
From Verif.Proofs Require Export Order4 ZeroGrad Refute2.
From Verif.Spec Require Export Sized Graph.
From Verif.Model Require Export Api Ieee.

Section with_fops.
Context {fo : FOps}.
Lemma backward_terminates ops rs h t : Forall size_ok ops -> run empty_heap ops = (Ok rs, h) -> (exec (OBackward t) h).1 <> Diverge.
Proof. intros Hz E. eapply exec_terminates; [done|done|]. constructor. Qed.
Lemma one_numel h t r : sized h -> h_ten h !! t = Some r -> size_prod (shape r) = 1 -> lnumel (t_lay r) = 1.
Proof.
  intros Hs Hr Hone. unfold lnumel. rewrite numel_of_exact; [done|by eapply Hs|].
  unfold shape in Hone. rewrite Hone. done.
Qed.
Lemma order_hist ops rs h t r : Forall size_ok ops -> run empty_heap ops = (Ok rs, h) ->
  h_ten h !! t = Some r -> t_rg r = true -> is_node h t -> size_prod (shape r) = 1 -> untraversed h t ->
  exists order, backward t h = (prepare t ;;; process_all order) h /\ NoDup order /\
  (forall k x, order !! k = Some x -> below h t x /\ is_node h x /\
    forall c, below h t c -> x ∈ inputs h c -> c ∈ take k order) /\
  (forall h', backward t h = (Ok tt, h') -> forall x, below h t x -> is_node h x -> x ∈ order).
Proof.
  intros Hz E Hr Hrg [f Hf] Hone Hun. unfold fn_of in Hf. rewrite Hr in Hf.
  assert (reachable h) as Hre by (by exists ops, rs). pose proof (sized_reached ops rs h Hz E) as Hs.
  destruct (backward_order h t r f (reachable_tinv h Hre) (reachable_vinv h Hre) Hs Hr Hf Hrg (one_numel h t r Hs Hr Hone) Hun)
    as (order & H1 & H2 & H3 & H4 & _).
  exists order. split_and!; try done. intros h' E'. by destruct (H4 h' E').
Qed.
Lemma retain_hist ops rs h t r h' x rx : Forall size_ok ops -> run empty_heap ops = (Ok rs, h) ->
  h_ten h !! t = Some r -> untraversed h t -> exec (OBackward (Some t)) h = (Ok RUnit, h') ->
  below h t x -> h_ten h !! x = Some rx ->
  exists rx', h_ten h' !! x = Some rx' /\
    (is_node h x -> if t_ret rx then is_Some (t_grad rx') else t_grad rx' = None) /\
    (~ is_node h x -> t_rg rx = true -> is_Some (t_grad rx') /\ forall g, t_grad rx = Some g -> t_grad rx' = Some g).
Proof.
  intros Hz E Hr Hun E' Hb Hx. assert (reachable h) as Hre by (by exists ops, rs). pose proof (sized_reached ops rs h Hz E) as Hs.
  assert (backward t h = (Ok tt, h')) as E2.
  { cbn [exec] in E'. unfold deref in E'. rewrite bind_ret in E'. unfold no_result, bind in E'.
    destruct (backward t h) as [[[]|?|?|] h1]; try done. injection E' as ->. done. }
  assert (exists f, t_fn r = Some f /\ t_rg r = true /\ lnumel (t_lay r) = 1) as (f & Hf & Hrg & Hone).
  { pose proof E2 as E3. unfold backward in E3. erewrite bind_ok in E3 by (by apply get_ten_ok).
    destruct (t_rg r); [|done]. destruct (t_fn r) as [f|]; [|done]. destruct (Z.eqb_spec (lnumel (t_lay r)) 1); [|done]. by exists f. }
  destruct (backward_order h t r f (reachable_tinv h Hre) (reachable_vinv h Hre) Hs Hr Hf Hrg Hone Hun)
    as (order & _ & _ & _ & H4 & _).
  destruct (H4 h' E2) as [_ H].
  pose proof (mono_exec (OBackward (Some t)) h (reachable_grads_exist h Hre)) as M. rewrite E' in M.
  destruct (M x rx Hx) as (rx' & Hx' & _). exists rx'. split; [done|]. destruct (H x rx rx' Hb Hx Hx') as (_ & H1 & H2). done.
Qed.
End with_fops.

(** x = tensor 6 (three elements, tracked); y = x*x (9); z = y + y (10), retain_grad; sum(z*y) (11, 12) *)
Definition ord_ops : list (@op Ieee) := demo_ops ++
  [OMul (#6) (#6); OAdd (#9) (#9); ORetain (#10) true; OMul (#10) (#9); OSum (#11)].
Definition ord_heap : @heap Ieee := after ord_ops.
Lemma ord_run : exists rs, run empty_heap ord_ops = (Ok rs, ord_heap).
Proof.
  assert (match (run empty_heap ord_ops).1 with Ok _ => true | _ => false end = true) as H by vm.
  unfold ord_heap, after. destruct (run empty_heap ord_ops) as [[rs| | |] h]; try discriminate. by exists rs.
Qed.
Lemma ord_size : Forall size_ok ord_ops.
Proof. repeat constructor; simpl; lia. Qed.
Lemma ord_building : Forall building ord_ops.
Proof. repeat constructor; intros ? [=]. Qed.
Lemma ord_untraversed : untraversed ord_heap 12.
Proof. destruct ord_run as [rs E]. exact (building_untraversed _ _ _ 12 ord_building E). Qed.
