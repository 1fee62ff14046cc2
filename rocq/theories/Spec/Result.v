(** What a call that returns a new tensor promises. *)
From Verif.Spec Require Export Tensor Broadcast Elem.

Section with_fops.
Context {fo : FOps}.

(** [ss] can be allocated at type [dt]: the element count times the element size is
    within the address space *)
Definition fits (dt : dtype) (ss : list Z) : Prop := size_of dt * size_prod ss <= alloc_max.

(** elements are laid out in row-major order from the start of the buffer *)
Definition row_major_lay (l : layout) : Prop :=
  forall idx, in_range (sizes l) idx -> pos l idx = row_major (sizes l) idx.

(** From [h] to [h'] the tensor [t] was added, on a buffer of its own, with the given
    dtype, shape and contents; nothing that existed changed. *)
Definition new_tensor (h h' : heap) (t : nat) (dt : dtype) (ss : list Z) (rg : bool)
    (w : list Z -> val) : Prop :=
  extends h h' /\ h_ten h !! t = None /\
  exists r, h_ten h' !! t = Some r /\ h_sto h !! t_sto r = None /\
    t_dt r = dt /\ sizes (t_lay r) = ss /\ row_major_lay (t_lay r) /\
    t_rg r = rg /\ t_grad r = None /\ holds h' r w.

(** Undefined behaviour of the arithmetic itself. *)
Definition arith_ub (u : ub) : Prop := u = SignedOverflow \/ u = DivByZero.
End with_fops.

Section with_fops.
Context {fo : FOps}.
(** handle [t] denotes the record [r] holding the array [v] *)
Definition tensor_at (h : heap) (t : nat) (r : tensor) (v : list Z -> val) : Prop :=
  h_ten h !! t = Some r /\ holds h r v.
(** shape of a tensor *)
Definition shape (r : tensor) : list Z := sizes (t_lay r).
(** values of an array as elements of a buffer *)
Definition contents (h : heap) (r : tensor) (idx : list Z) : val :=
  match elem h r idx with Some v => v | None => VI 0 end.
End with_fops.
