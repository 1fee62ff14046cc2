(** Size arguments. In C++ they are size_t; the model takes integers. *)
From Verif.Spec Require Export Grad.
From Verif.Model Require Export Api.

Section with_fops.
Context {fo : FOps}.
(** the arguments of a call that are size_t *)
Definition size_args (o : op) : list Z :=
  match o with
  | ONew ss _ | OZeros ss _ | OOnes ss _ | OFullInt ss _ _ | OFullDouble ss _ _
  | OFromBlob _ ss _ | ORandn ss _ _ => ss
  | OEye n m _ => [n; m]
  | _ => []
  end.
Definition size_ok (o : op) : Prop := Forall (fun n => 0 <= n) (size_args o).
(** all sizes in the state are nonnegative *)
Definition sized (h : heap) : Prop :=
  forall t r, h_ten h !! t = Some r -> Forall (fun n => 0 <= n) (shape r).
End with_fops.
