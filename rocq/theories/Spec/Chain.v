(** Chains of views. *)
From Verif.Spec Require Export View Reshape.

Section with_fops.
Context {fo : FOps}.

(** the calls that return a tensor on a buffer of its own; abs is left out since it copies
    the layout of its argument (see C31) *)
Definition allocates (o : op) : bool :=
  makes_fresh o ||
  match o with
  | OAdd _ _ | OSub _ _ | OMul _ _ | ODiv _ _ | ONeg _ | OCmp _ _ _ | OSum _ | OMean _
  | OMax _ | OMin _ | OCat _ _ => true
  | _ => false
  end.

(** [o] asks for a view of [t] in [h]. The sizes given to reshape are representable, not
    below -1, and their product does not wrap. *)
Inductive view_call (h : heap) (t : nat) : op -> Prop :=
| VSlice s : view_call h t (OSlice (Some t) s)
| VTranspose i j : view_call h t (OTranspose (Some t) i j)
| VDetach : view_call h t (ODetach (Some t))
| VReshape xs : Forall in_ll xs -> Forall (fun x => -1 <= x) xs -> given xs < 2 ^ 64 ->
    view_call h t (OReshape (Some t) xs)
| VReshapeAs u r : h_ten h !! u = Some r -> Forall (fun n => 0 <= n) (shape r) ->
    size_prod (shape r) < 2 ^ 64 -> view_call h t (OReshapeAs (Some t) (Some u)).

(** In the state [h], [t] comes from a newly created tensor by calls for views, with any
    other calls in between. *)
Inductive derived : heap -> nat -> Prop :=
| DNew h o t h' r : reachable h -> allocates o = true -> exec o h = (Ok (RHandle (Some t)), h') ->
    h_ten h' !! t = Some r -> Forall (fun n => 0 <= n) (shape r) -> fits (t_dt r) (shape r) ->
    derived h' t
| DOther h t o x h' : derived h t -> exec o h = (x, h') -> derived h' t
| DView h t o t' h' : derived h t -> view_call h t o -> exec o h = (Ok (RHandle (Some t')), h') ->
    derived h' t'.
End with_fops.
