(** What a program can still reach, and what it has lost. *)
From Verif.Spec Require Export Own.

Section with_fops.
Context {fo : FOps}.

(** the handles that a call is given *)
Definition passed (o : op) : list handle :=
  match o with
  | OScalar _ _ | ONew _ _ | OInit _ | OZeros _ _ | OOnes _ _ | OFullInt _ _ _ | OFullDouble _ _ _
  | OEye _ _ _ | OFromBlob _ _ _ | ORandn _ _ _ => []
  | OAdd a b | OSub a b | OMul a b | ODiv a b | OCmp _ a b | OAddEq a b | OReshapeAs a b => [a; b]
  | OCat ts _ => ts
  | OZerosLike a | OOnesLike a | ORandnLike a _ | OPos a | ONeg a | OTypeTo a _ | OSlice a _
  | OTranspose a _ _ | OReshape a _ | OSum a | OMean a | OAbs a | OMax a | OMin a | OContiguous a
  | OClone a | ODetach a | OGrad a | OBackward a | OZeroGrad a | ORequires a _ | ORetain a _ | ORelease a
  | QAll a | QToString a | QSize a | QStride a | QNumel a | QType a | QRequires a | QRetain a | QContiguous a => [a]
  end.

(** The tensors that the handles [H] keep alive, and the buffers that these use. All other
    objects have been freed by the shared pointers (there are no cycles: C62). *)
Definition alive (h : heap) (H : list nat) (x : nat) : Prop := exists y, y ∈ H /\ rtc (owns h) y x.
Definition in_use (h : heap) (H : list nat) (s : nat) : Prop :=
  exists x r, alive h H x /\ h_ten h !! x = Some r /\ t_sto r = s.
(** [h'] differs from [h] only in objects that the handles [H] do not keep alive; those may be
    anything. Identifiers are not reused. *)
Definition agree (h : heap) (H : list nat) (h' : heap) : Prop :=
  length (h_ten h') = length (h_ten h) /\ length (h_sto h') = length (h_sto h) /\ h_ver h' = h_ver h /\
  (forall x, alive h H x -> h_ten h' !! x = h_ten h !! x) /\
  (forall s, in_use h H s -> h_sto h' !! s = h_sto h !! s).
(** a handle that the program has, or that a later call makes *)
Definition usable (h : heap) (H : list nat) (x : nat) : Prop := alive h H x \/ (length (h_ten h) <= x)%nat.
(** What the handles [H] did not keep alive in [h] is in [g] as in [h0]. *)
Definition untouched (h : heap) (H : list nat) (h0 g : heap) : Prop :=
  (forall x, ~ usable h H x -> h_ten g !! x = h_ten h0 !! x) /\
  (forall s, ~ (in_use h H s \/ (length (h_sto h) <= s)%nat) -> h_sto g !! s = h_sto h0 !! s).
(** In the later state [g], usable handles keep alive only what was alive in [h] or is new. *)
Definition still_lost (h : heap) (H : list nat) (g : heap) : Prop :=
  (forall H' x, (forall y, y ∈ H' -> usable h H y) -> alive g H' x -> usable h H x) /\
  (forall H' s, (forall y, y ∈ H' -> usable h H y) -> in_use g H' s -> in_use h H s \/ (length (h_sto h) <= s)%nat).

(** A machine that frees. After the calls [ops] with the outcomes [rs] the program holds the
    handles [H]. It may pass them to calls, copy or drop them, and between calls everything that they do not
    keep alive may turn into anything. *)
Definition holds (r : outcome ret) (H : list nat) : list nat :=
  match r with Ok (RHandle (Some x)) => x :: H | _ => H end.
Inductive freeing : list op -> list (outcome ret) -> list nat -> heap -> Prop :=
| FStart : freeing [] [] [] empty_heap
| FCall ops rs H h o r h' : freeing ops rs H h -> (forall x, Some x ∈ passed o -> x ∈ H) -> exec o h = (r, h') ->
    (forall u, r <> UB u) -> r <> Diverge -> freeing (ops ++ [o]) (rs ++ [r]) (holds r H) h'
| FDrop ops rs H h H' : freeing ops rs H h -> (forall x, x ∈ H' -> x ∈ H) -> freeing ops rs H' h
| FFree ops rs H h h' : freeing ops rs H h -> agree h H h' -> freeing ops rs H h'.
End with_fops.
