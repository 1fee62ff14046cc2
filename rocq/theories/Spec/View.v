(** Views: a new tensor on the buffer of another one. *)
From Verif.Spec Require Export Result Grad Slice.

Section with_fops.
Context {fo : FOps}.
(** From [h] to [h'] the tensor [t'] of shape [ss] was added on the buffer of [r]; its
    element at [idx] is the cell of the element of [r] at [f idx]. *)
Definition new_view (h h' : heap) (r : tensor) (t' : nat) (ss : list Z) (f : list Z -> list Z)
    (rg : bool) : Prop :=
  data_kept h h' /\ h_ten h !! t' = None /\
  exists r', h_ten h' !! t' = Some r' /\ t_dt r' = t_dt r /\ t_sto r' = t_sto r /\
    shape r' = ss /\ t_rg r' = rg /\
    (forall idx, in_range ss idx ->
       in_range (shape r) (f idx) /\ pos (t_lay r') idx = pos (t_lay r) (f idx)) /\
    forall v, holds h r v -> holds h' r' (fun idx => v (f idx)).
End with_fops.

(** exchange of the entries [i] and [j] *)
Definition exchange (i j : nat) (l : list Z) : list Z :=
  map (fun k => nth (if Nat.eqb k i then j else if Nat.eqb k j then i else k) l 0) (seq 0 (length l)).

(** the exceptions of rejected subscripts *)
Definition exn_of (e : err) : exn :=
  match e with BadIndex => RuntimeError | NoInteger => InvalidArgument | TooLarge => OutOfRange end.
