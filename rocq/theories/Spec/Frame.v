(** What a call leaves alone. *)
From Verif.Spec Require Export Result.
From Verif.Model Require Export Api.

Section with_fops.
Context {fo : FOps}.
(** From [h] to [h'] all tensors keep dtype, layout and buffer, and all buffers other than
    those in [W] keep their contents. *)
Definition kept_outside (W : nat -> Prop) (h h' : heap) : Prop :=
  (forall s x, ~ W s -> h_sto h !! s = Some x -> h_sto h' !! s = Some x) /\
  (forall t x, h_ten h !! t = Some x ->
     exists x', h_ten h' !! t = Some x' /\ same_data x x').
(** buffers of gradients *)
Definition is_grad_buffer (h : heap) (s : nat) : Prop :=
  exists t r g gr, h_ten h !! t = Some r /\ t_grad r = Some g /\ h_ten h !! g = Some gr /\ t_sto gr = s.
(** the calls that change existing data *)
Definition mutates (o : op) : bool :=
  match o with OAddEq _ _ | OBackward _ | OZeroGrad _ | ORelease _ => true | _ => false end.
(** A continuation of calls that change existing data only by in-place additions, none of
    them to a tensor on buffer [s]. *)
Fixpoint avoids (s : nat) (h : heap) (ops : list op) : Prop :=
  match ops with
  | [] => True
  | o :: rest =>
      (match o with
       | OAddEq (Some a) _ => forall r, h_ten h !! a = Some r -> t_sto r <> s
       | _ => mutates o = false
       end) /\ avoids s (exec o h).2 rest
  end.
End with_fops.
