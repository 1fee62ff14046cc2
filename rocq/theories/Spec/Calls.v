(** The four arithmetic calls of the public API by operator. *)
From Verif.Spec Require Export Result.
From Verif.Model Require Export Api.

Definition exec_arith {fo : FOps} (o : aop) (a b : handle) : op :=
  match o with AAdd => OAdd a b | ASub => OSub a b | AMul => OMul a b | ADiv => ODiv a b end.
