(** Least squares: fitting x * w to y, where the tensors x, w and y may all be broadcast. *)
From Verif.Spec Require Export Train.
From Verif.Model Require Export Exact Api.
#[local] Existing Instance Exact.
#[local] Open Scope Qc_scope.

(** (x * w - y) * (x * w - y) *)
Definition fit (x w y : nat) : formula :=
  let d := Bin ASub (Bin AMul (Var x) (Var w)) (Var y) in Bin AMul d d.
(** the sum of [f] over the positions where element [i] of w is read *)
Definition at_element (h : heap) (x w y : nat) (i : list Z) (f : list Z -> Qc) : Qc :=
  sum_over (form h (fit x w y)) (fun idx => if decide (bidx (shape_of h w) idx = i) then f idx else 0).
Definition gram (h : heap) (x w y : nat) (i : list Z) : Qc :=
  at_element h x w y i (fun idx => reads h idx x * reads h idx x).
(** the solution of the normal equation for element [i] of w: sum of x * y / sum of x * x *)
Definition best (h : heap) (x w y : nat) (i : list Z) : Qc :=
  at_element h x w y i (fun idx => reads h idx x * reads h idx y) / gram h x w y i.
(** what a round multiplies the distance to the solution by *)
Definition factor (h : heap) (x w y c : nat) (i : list Z) : Qc := 1 + (1 + 1) * reads h i c * gram h x w y i.
(** the elements of the tensors, with [f] for those of w *)
Definition put (h : heap) (w : nat) (f : list Z -> Qc) (a : nat) (i : list Z) : Qc := if decide (a = w) then f i else value h a i.
(** the elements of w after [n] rounds *)
Definition nearer (h : heap) (x w y c n : nat) (i : list Z) : Qc :=
  best h x w y i + factor h x w y c i ^ n * (value h w i - best h x w y i).
