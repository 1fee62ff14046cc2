(** Termination, the order of backward(), and what it leaves in the gradients. *)
From Verif.Proofs Require Import OrderEx.

(** C59: every call terminates. The sizes passed so far are size_t, so not negative
    ([size_ok]); everything else is arbitrary. *)
Theorem C59_terminates : forall {fo : FOps} ops rs h o,
  Forall size_ok ops -> run empty_heap ops = (Ok rs, h) -> size_ok o -> (exec o h).1 <> Diverge.
Proof. exact @exec_terminates. Qed.
Print Assumptions C59_terminates.
(** a history with shared intermediates, and a call that walks its graph *)
Example C59_example : Forall size_ok ord_ops /\ size_ok (OBackward (Some 12%nat)) /\
  (exists rs, run empty_heap ord_ops = (Ok rs, ord_heap)) /\ (exec (OBackward (Some 12%nat)) ord_heap).1 = Ok RUnit.
Proof. split; [exact ord_size|]. split; [constructor|]. split; [exact ord_run|vm]. Qed.

(** C44: backward() finishes, whatever the graph (also one already traversed). *)
Theorem C44_terminates : forall {fo : FOps} ops rs h t,
  Forall size_ok ops -> run empty_heap ops = (Ok rs, h) -> (exec (OBackward t) h).1 <> Diverge.
Proof. exact @backward_terminates. Qed.
Print Assumptions C44_terminates.
(** C44: on a graph no backward has passed through, backward is its preparation followed by
    one step for each node of [order]. No node occurs twice in [order]; each is an
    intermediate below the root, and all its consumers come before it. If backward succeeds,
    every intermediate below the root is in [order]. *)
Theorem C44_order : forall {fo : FOps} ops rs h t r,
  Forall size_ok ops -> run empty_heap ops = (Ok rs, h) ->
  h_ten h !! t = Some r -> t_rg r = true -> is_node h t -> size_prod (shape r) = 1 -> untraversed h t ->
  exists order, backward t h = (prepare t ;;; process_all order) h /\ NoDup order /\
  (forall k x, order !! k = Some x -> below h t x /\ is_node h x /\
    forall c, below h t c -> x ∈ inputs h c -> c ∈ take k order) /\
  (forall h', backward t h = (Ok tt, h') -> forall x, below h t x -> is_node h x -> x ∈ order).
Proof. exact @order_hist. Qed.
Print Assumptions C44_order.
(** Histories without backward() and requires_grad(false) leave every graph untraversed. *)
Theorem C44_untraversed : forall {fo : FOps} ops rs h t,
  Forall building ops -> run empty_heap ops = (Ok rs, h) -> untraversed h t.
Proof. exact @building_untraversed. Qed.
Print Assumptions C44_untraversed.
(** y = x*x (9), z = y+y (10), z*y (11), sum (12): 9 is used four times *)
Example C44_example :
  Forall size_ok ord_ops /\ Forall building ord_ops /\ (exists rs, run empty_heap ord_ops = (Ok rs, ord_heap)) /\
  h_ten ord_heap !! 12%nat = Some (rec_of ord_heap 12) /\ t_rg (rec_of ord_heap 12) = true /\ is_node ord_heap 12 /\
  size_prod (shape (rec_of ord_heap 12)) = 1 /\ untraversed ord_heap 12 /\
  map (inputs ord_heap) [12; 11; 10; 9]%nat = [[11]; [10; 9]; [9; 9]; [6; 6]]%nat /\
  (backward 12 ord_heap).1 = Ok tt /\ ((prepare 12 ;;; process_all [12; 11; 10; 9]%nat) ord_heap).1 = Ok tt.
Proof.
  split; [exact ord_size|]. split; [exact ord_building|]. split; [exact ord_run|]. split; [vm|]. split; [vm|].
  split; [decide_it|]. split; [vm|]. split; [exact ord_untraversed|]. split_and!; vm.
Qed.

(** C47: after a successful backward() on such a graph an intermediate has a gradient exactly
    when retain_grad was set on it; a tracked leaf has one, and one it had before is kept. *)
Theorem C47_retain : forall {fo : FOps} ops rs h t r h' x rx,
  Forall size_ok ops -> run empty_heap ops = (Ok rs, h) -> h_ten h !! t = Some r -> untraversed h t ->
  exec (OBackward (Some t)) h = (Ok RUnit, h') -> below h t x -> h_ten h !! x = Some rx ->
  exists rx', h_ten h' !! x = Some rx' /\
    (is_node h x -> if t_ret rx then is_Some (t_grad rx') else t_grad rx' = None) /\
    (~ is_node h x -> t_rg rx = true -> is_Some (t_grad rx') /\ forall g, t_grad rx = Some g -> t_grad rx' = Some g).
Proof. exact @retain_hist. Qed.
Print Assumptions C47_retain.
(** in the same graph 10 has retain_grad; x = (1,2,-3) and the root is sum(2x^4) *)
Example C47_example :
  let h' := (exec (OBackward (Some 12%nat)) ord_heap).2 in
  (exec (OBackward (Some 12%nat)) ord_heap).1 = Ok RUnit /\
  map (fun x => t_ret (rec_of ord_heap x)) [12; 11; 10; 9; 6]%nat = [false; false; true; false; false] /\
  map (grad_elems h') [12; 11; 10; 9; 6]%nat = [None; None; Some (map f64 [1; 4; 9]); None; Some (map f64 [8; 64; -216])].
Proof. cbv zeta. split_and!; vm. Qed.

(** C46, second part: zero_grad() sets every element of an existing gradient to 0 and changes
    no other buffer; without a gradient it does nothing.
    Partial: that gradients of separate graphs add up is not stated here. *)
Theorem C46_zero_grad_partial : forall {fo : FOps} h t r g gr cs,
  h_ten h !! t = Some r -> t_grad r = Some g -> h_ten h !! g = Some gr -> backed h gr cs ->
  exists h', exec (OZeroGrad (Some t)) h = (Ok RUnit, h') /\ h_ten h' = h_ten h /\
    (forall s, s <> t_sto gr -> h_sto h' !! s = h_sto h !! s) /\
    holds h' gr (fun _ => zero_val (t_dt gr)).
Proof. exact @zero_grad_some. Qed.
Print Assumptions C46_zero_grad_partial.
Theorem C46_no_grad_partial : forall {fo : FOps} h t r,
  h_ten h !! t = Some r -> t_grad r = None -> exec (OZeroGrad (Some t)) h = (Ok RUnit, h).
Proof. exact @zero_grad_none. Qed.
Print Assumptions C46_no_grad_partial.
(** after the backward above x has the gradient (8,64,-216); y (9) has none *)
Example C46_example :
  let h := (exec (OBackward (Some 12%nat)) ord_heap).2 in
  let h' := (exec (OZeroGrad (Some 6%nat)) h).2 in
  t_grad (rec_of h 6) = Some 20%nat /\ h_ten h !! 20%nat = Some (rec_of h 20) /\
  (exists cs, backed h (rec_of h 20) cs) /\
  t_grad (rec_of h 9) = None /\ grad_elems h 6 = Some (map f64 [8; 64; -216]) /\
  grad_elems h' 6 = Some (map f64 [0; 0; 0]) /\ elems h' 6 = elems h 6.
Proof. cbv zeta. split; [vm|]. split; [vm|]. split; [apply (holdsb_ok _ _); vm|]. split_and!; vm. Qed.
