(** The C++ calls of gradient descent, each on the tensors that the calls before it return. *)
From Verif.Spec Require Export Program.
From Verif.Model Require Export Exact Api.
#[local] Existing Instance Exact.

(** From [h] the calls of [update a c g s d] succeed and lead to [h']. *)
Definition nudged (c a : nat) (h : heap) (g s d : nat) (h' : heap) : Prop :=
  exists h1 h2 h3,
    exec (OGrad (Some a)) h = (Ok (RHandle (Some g)), h) /\
    exec (OMul (Some g) (Some c)) h = (Ok (RHandle (Some s)), h1) /\
    exec (ODetach (Some a)) h1 = (Ok (RHandle (Some d)), h2) /\
    exec (OAddEq (Some d) (Some s)) h2 = (Ok RUnit, h3) /\
    exec (OZeroGrad (Some a)) h3 = (Ok RUnit, h').
(** The same on several leaves: from [h] the calls [l] update the leaves [ls] and lead to [h']. *)
Inductive updated (c : nat) : heap -> list nat -> list op -> heap -> Prop :=
| UNone h : updated c h [] [] h
| UMore h a g s d h1 ls l h' : nudged c a h g s d h1 -> updated c h1 ls l h' ->
    updated c h (a :: ls) (update a c g s d ++ l) h'.
