(** Gradients of several expressions, accumulated. *)
From Verif.Spec Require Export ExprGrad.
From Verif.Model Require Export Exact Api.
#[local] Existing Instance Exact.

(** Evaluate the expressions one after the other, with backward() on each result. *)
Fixpoint batch (es : list expr) : M heap unit :=
  match es with
  | [] => mret tt
  | e :: es => let! t := eval e in let! _ := exec (OBackward (Some t)) in batch es
  end.
(** backward() applies to the result of the expression *)
Definition loss_like (env : nat -> option array) (e : expr) : Prop :=
  accepted env e /\ smooth_root env e /\ exists A, den env e = Some A /\ a_rg A = true /\ size_prod (a_ss A) = 1.
(** the sum of the results *)
Definition batch_total (env : nat -> option array) (es : list expr) : Qc := sumq (map (fun e => first_elem (den env e)) es).
