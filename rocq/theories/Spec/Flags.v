(** What retain_grad(b) and requires_grad(b) leave behind: the last call on a
    tensor decides. Spec only: nothing here is taken from the model but the names of
    the calls and their outcomes. *)
From Verif.Model Require Export Api.

Section with_fops.
Context {fo : FOps}.
(** the argument of the last retain_grad call on [x] in [ops], [b] if there is none *)
Fixpoint last_retain (x : nat) (ops : list op) (b : bool) : bool :=
  match ops with
  | [] => b
  | ORetain (Some y) b' :: ops' => last_retain x ops' (if Nat.eqb y x then b' else b)
  | _ :: ops' => last_retain x ops' b
  end.
(** the argument of the last requires_grad call on [x] that returned *)
Fixpoint last_requires (x : nat) (ops : list op) (rs : list (outcome ret)) (b : bool) : bool :=
  match ops, rs with
  | ORequires (Some y) b' :: ops', Ok _ :: rs' => last_requires x ops' rs' (if Nat.eqb y x then b' else b)
  | _ :: ops', _ :: rs' => last_requires x ops' rs' b
  | _, _ => b
  end.
End with_fops.
