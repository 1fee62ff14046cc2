(** What queries answer, and tensors whose buffer was released. *)
From Verif.Spec Require Export Alive Result Calls Cat.
From Verif.Model Require Export Api.

Section with_fops.
Context {fo : FOps}.

(** every stride is the number of elements of the dimensions after it *)
Definition packed (l : layout) : Prop :=
  forall k, (k < length (sizes l))%nat -> strides l !! k = Some (size_prod (drop (S k) (sizes l))).

(** what cat() asks of the inputs that come before the first null one *)
Definition cat_agree (dim : Z) (rs : list tensor) : Prop :=
  match rs with
  | [] => True
  | r0 :: _ => 0 <= dim < Z.of_nat (length (shape r0)) /\ Forall (fun r => same_but (Z.to_nat dim) (shape r0) (shape r)) rs
  end.

(** the buffer of [r] has no memory *)
Definition released (h : heap) (r : tensor) : Prop :=
  exists x, h_sto h !! t_sto r = Some x /\ sto_blob x = None.

(** calls with one operand that look at its elements *)
Inductive looks_at (t : nat) (r : tensor) : op -> Prop :=
| LSum : looks_at t r (OSum (Some t))
| LMean : looks_at t r (OMean (Some t))
| LMax : looks_at t r (OMax (Some t))
| LMin : looks_at t r (OMin (Some t))
| LAbs : looks_at t r (OAbs (Some t))
| LClone : looks_at t r (OClone (Some t))
| LContiguous : looks_at t r (OContiguous (Some t))
| LType dt : dt <> t_dt r -> t_rg r && is_int dt = false -> fits dt (shape r) -> looks_at t r (OTypeTo (Some t) dt)
| LAll : looks_at t r (QAll (Some t))
| LText : looks_at t r (QToString (Some t)).
(** calls with two *)
Inductive looks_at_both (a b : nat) (ra rb : tensor) : op -> Prop :=
| LArith o : fits (dt_join (t_dt ra) (t_dt rb)) (bshape (shape ra) (shape rb)) ->
    looks_at_both a b ra rb (exec_arith o (Some a) (Some b))
| LCmp c : fits I8 (bshape (shape ra) (shape rb)) -> looks_at_both a b ra rb (OCmp c (Some a) (Some b))
| LAddEq : t_rg ra = false -> looks_at_both a b ra rb (OAddEq (Some a) (Some b)).
(** an operand is released, or all its elements are there *)
Definition gone_or_there (h : heap) (r : tensor) : Prop :=
  lay_ok (t_lay r) /\ released h r \/ exists v, holds h r v.
End with_fops.
