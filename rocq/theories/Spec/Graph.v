(** The graph that backward() walks. *)
From Verif.Spec Require Export Grad.
From Verif.Model Require Export Api.

Section with_fops.
Context {fo : FOps}.
(** the backward node of a tensor, if it is an intermediate *)
Definition fn_of (h : heap) (x : nat) : option gradfn :=
  match h_ten h !! x with Some r => t_fn r | None => None end.
Definition is_node (h : heap) (x : nat) : Prop := is_Some (fn_of h x).
(** the tensors an intermediate was computed from *)
Definition inputs (h : heap) (x : nat) : list nat :=
  match fn_of h x with Some f => gf_in f | None => [] end.
(** [x] was used, directly or not, to compute [t] *)
Inductive below (h : heap) (t : nat) : nat -> Prop :=
  | below_root : below h t t
  | below_in x y : below h t x -> y ∈ inputs h x -> below h t y.
(** No backward has passed through an intermediate that [t] was computed from (one may have
    started at [t]), and none was switched to requires_grad(false). *)
Definition untraversed (h : heap) (t : nat) : Prop :=
  forall x r f, below h t x -> h_ten h !! x = Some r -> t_fn r = Some f -> t_rg r = true /\ (x <> t -> gf_acc f = 0).
(** a call that is neither backward() nor requires_grad(false) *)
Definition building (o : op) : Prop := (forall t, o <> OBackward t) /\ (forall t, o <> ORequires t false).

(** tensorImpl.cpp:336-345: what backward() does before its main loop: check, count the
    consumers of every node, set the root's gradient to ones *)
Definition prepare (t : nat) : E unit :=
  let! r := get_ten t in
  run_expect (t_rg r) ;;;
  run_expect (match t_fn r with Some _ => true | None => false end) ;;;
  run_expect (lnumel (t_lay r) =? 1) ;;;
  refresh_n_outway t ;;;
  let! o := ones_like t in
  let! r := get_ten t in
  set_ten t (with_grad r (Some o)) ;;;
  let! v := bump in
  upd_fn t (fun g => gf_with_ver g v).
(** one iteration of the main loop for each of the given nodes, in order *)
Definition process_all (xs : list nat) : E unit := mapM_ (fun x => let! new := process x in mret tt) xs.
End with_fops.
