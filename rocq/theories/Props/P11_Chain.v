(** Chains of views. *)
From Verif.Proofs Require Import ChainEx.

(** C25: a tensor obtained from a newly created one by any chain of slicing, transposing,
    reshaping and detaching, with any other calls in between, has its elements at distinct
    places inside the buffer, and the buffer has its element type. [sto_blob x] is [None]
    when the buffer has been released.
    Partial: the sizes given to reshape are at least -1 and their product does not wrap (see
    C25_refuted), and the byte size of the first tensor does not wrap ([fits] in
    [derived]). *)
Theorem C25_views_partial : forall {fo : FOps} h t, derived h t ->
  exists r x, h_ten h !! t = Some r /\ h_sto h !! t_sto r = Some x /\ sto_ty x = t_dt r /\ lay_inj (t_lay r) /\
    forall cs, sto_blob x = Some cs -> lay_in (t_lay r) (Z.of_nat (length cs)).
Proof. exact @derived_views. Qed.
Print Assumptions C25_views_partial.

(** zeros [3;4], gradients requested, [::-2], transposed, reshaped to [8;1], [1::3] *)
Example C25_example : derived c25_5 10 /\ shape (rec_of c25_5 10) = [3; 1].
Proof. exact c25_chain. Qed.

(** reshape {-2,-6} of twelve elements is accepted; element [0;12] is outside. *)
Theorem C25_refuted :
  exists (h0 h : @heap Ieee) t r x idx, derived h0 0 /\ exec (OReshape (Some 0%nat) [-2; -6]) h0 = (Ok (RHandle (Some t)), h) /\
    h_ten h !! t = Some r /\ h_sto h !! t_sto r = Some x /\ in_range (shape r) idx /\
    match sto_blob x with Some cs => Z.of_nat (length cs) <= pos (t_lay r) idx | None => False end.
Proof. exact views_refuted. Qed.
Print Assumptions C25_refuted.
