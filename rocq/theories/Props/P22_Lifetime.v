(** Lifetime: freeing what the program has lost changes nothing. The objects are freed by
    shared pointers as soon as nothing owns them (there are no cycles: C62). *)
From Verif.Proofs Require Import AliveEx.
From Verif.Model Require Import Exact.

(** C63: a call on the handles [H] (and on tensors made later) does the same in any two states
    that differ only in objects which [H] does not keep alive: same outcome and, as far as
    usable handles reach, same resulting state. It leaves the lost objects as they are and does
    not bring them back. *)
Theorem C63_call : forall (fo : FOps) h H h' o, agree h H h' -> (forall x, Some x ∈ passed o -> usable h H x) ->
  exists res g g', exec o h = (res, g) /\ exec o h' = (res, g') /\
    (forall x, res = Ok (RHandle (Some x)) -> usable h H x) /\
    (forall H', (forall y, y ∈ H' -> usable h H y) -> agree g H' g') /\
    untouched h H h g /\ untouched h H h' g' /\ still_lost h H g.
Proof. exact @call_local. Qed.
Print Assumptions C63_call.

(** C63: so a machine that frees lost objects, here by turning them into anything, reaches the
    same outcomes as [run], which never frees, and undefined behaviour exactly where it does. *)
Theorem C63_freeing : forall (fo : FOps) ops rs H h', freeing ops rs H h' ->
  (exists h, run empty_heap ops = (Ok rs, h) /\ agree h H h') /\
  forall o, (forall x, Some x ∈ passed o -> x ∈ H) ->
    exists h, run empty_heap ops = (Ok rs, h) /\ (exec o h').1 = (exec o h).1.
Proof. exact @freeing_same. Qed.
Print Assumptions C63_freeing.

(** x = (1, 2, -3) tracked, y = x * x, sum(y), and a tensor of four ones; the program keeps only
    the sum. The ones are freed: tensor 4 and its buffer become nonsense. x and y live on, and
    backward() works. *)
Example C63_example :
  let h := xafter lf_ones in let h' := spoil h 4 4 in
  freeing lf_ones lf_rs [2%nat] h' /\ agree h [2%nat] h' /\
  alive h [2%nat] 1 /\ alive h [2%nat] 0 /\ ~ alive h [2%nat] 4 /\ ~ in_use h [2%nat] 4 /\
  (exec (QSize (#4)) h).1 = Ok (RSizes [4]) /\ (exec (QSize (#4)) h').1 = Ok (RSizes [7]) /\
  (exec (OBackward (#2)) h').1 = Ok RUnit /\ grads (exec (OBackward (#2)) h').2 0 = [(2, 1); (4, 1); (-6, 1)].
Proof. exact lf_example. Qed.
