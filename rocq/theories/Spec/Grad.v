(** Histories and gradients. *)
From Verif.Spec Require Export Result Reduce.
From Verif.Model Require Export Api.

Section with_fops.
Context {fo : FOps}.
(** states a client program can be in after any calls, some of which may have thrown *)
Definition reachable (h : heap) : Prop := exists ops rs, run empty_heap ops = (Ok rs, h).
(** every gradient pointer points to a tensor *)
Definition grads_exist (h : heap) : Prop :=
  forall t r g, h_ten h !! t = Some r -> t_grad r = Some g -> is_Some (h_ten h !! g).
(** the operands whose gradient tracking a call passes on to its result; [None] for
    calls that return no tensor of their own *)
Definition track_sources (o : op) : option (list handle) :=
  match o with
  | OScalar _ _ | ONew _ _ | OInit _ | OZeros _ _ | OOnes _ _ | OZerosLike _ | OOnesLike _
  | OFullInt _ _ _ | OFullDouble _ _ _ | OEye _ _ _ | OFromBlob _ _ _ | ORandn _ _ _
  | ORandnLike _ _ | OCmp _ _ _ | ODetach _ => Some []
  | OAdd a b | OSub a b | OMul a b | ODiv a b => Some [a; b]
  | OPos a | ONeg a | OTypeTo a _ | OSlice a _ | OTranspose a _ _ | OReshape a _ | OReshapeAs a _
  | OSum a | OMean a | OAbs a | OMax a | OMin a | OContiguous a | OClone a => Some [a]
  | OCat ts _ => Some ts
  | _ => None
  end.
(** [rs] are the records of the operands [ts] *)
Definition operands (h : heap) (ts : list handle) (rs : list tensor) : Prop :=
  Forall2 (fun a r => exists i, a = Some i /\ h_ten h !! i = Some r) ts rs.
(** the calls that return a tensor with a new buffer of its own, apart from arithmetic *)
Definition makes_fresh (o : op) : bool :=
  match o with
  | OScalar _ _ | ONew _ _ | OInit _ | OZeros _ _ | OOnes _ _ | OZerosLike _ | OOnesLike _
  | OFullInt _ _ _ | OFullDouble _ _ _ | OEye _ _ _ | OFromBlob _ _ _ | ORandn _ _ _
  | ORandnLike _ _ | OContiguous _ | OClone _ => true
  | _ => false
  end.
(** the elements of a tensor, in row-major order *)
Definition elems (h : heap) (t : nat) : option (list val) :=
  match h_ten h !! t with
  | Some r => Some (row_elems (shape r) (contents h r))
  | None => None
  end.
(** the elements of t.grad(); None if it has none *)
Definition grad_elems (h : heap) (t : nat) : option (list val) :=
  match h_ten h !! t with
  | Some r => match t_grad r with Some g => elems h g | None => None end
  | None => None
  end.
End with_fops.
