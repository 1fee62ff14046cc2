(** Reshaping. *)
From Verif.Spec Require Export View.

(** the index of [ss'] whose rank in row-major order is that of [idx] in [ss] *)
Definition same_rank (ss ss' idx : list Z) : list Z :=
  nth (Z.to_nat (row_major ss idx)) (indices ss') [].

(** entries of a signed size vector: a size, or -1 for one to be computed *)
Definition wildcards (xs : list Z) : nat := length (filter (fun x => x = -1) xs).
(** product of the given sizes *)
Definition given (xs : list Z) : Z := size_prod (filter (fun x => x <> -1) xs).
(** [xs] asks for shape [ss] of [n] elements *)
Definition asks_for (xs : list Z) (n : Z) (ss : list Z) : Prop :=
  Forall2 (fun x s => 0 <= s /\ (x = s \/ x = -1)) xs ss /\ (wildcards xs <= 1)%nat /\
  size_prod ss = n.

Definition in_ll (z : Z) : Prop := - 2 ^ 63 <= z < 2 ^ 63.

Section with_fops.
Context {fo : FOps}.
(** From [h] to [h'] the tensor [t'] of shape [ss] was added; it has the dtype and tracking
    of [r] and the elements [v] of [r] in row-major order. *)
Definition reshaped (h h' : heap) (r : tensor) (v : list Z -> val) (t' : nat) (ss : list Z) : Prop :=
  data_kept h h' /\ h_ten h !! t' = None /\
  exists r' w, h_ten h' !! t' = Some r' /\ t_dt r' = t_dt r /\ shape r' = ss /\ t_rg r' = t_rg r /\
    holds h' r' w /\ map w (indices ss) = map v (indices (shape r)).
(** one stride per dimension, and no product of stride and size overflows *)
Definition plain_lay (l : layout) : Prop :=
  Forall2 (fun st n => in_ll (st * n) /\ n < 2 ^ 63) (strides l) (sizes l).
End with_fops.
