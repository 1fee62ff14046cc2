(** Nested initializer lists. *)
From Verif.Spec Require Export Result Grad.
From Verif.Model Require Export Api.

Section with_fops.
Context {fo : FOps}.

(** [t] is a rectangular nesting of shape [ss] with leaves of type [dt] *)
Inductive rectangular : tinit -> list Z -> dtype -> Prop :=
| RectLeaf dt xs : rectangular (TLeaf dt xs) [Z.of_nat (length xs)] dt
| RectNode ts ss dt : ts <> [] -> Forall (fun t => rectangular t ss dt) ts ->
    rectangular (TNode ts) (Z.of_nat (length ts) :: ss) dt.
(** following [idx] from the outermost list leads to the number [v] *)
Inductive leaf_at : tinit -> list Z -> val -> Prop :=
| AtLeaf dt xs i v : 0 <= i -> xs !! Z.to_nat i = Some v -> leaf_at (TLeaf dt xs) [i] v
| AtNode ts i t idx v : 0 <= i -> ts !! Z.to_nat i = Some t -> leaf_at t idx v ->
    leaf_at (TNode ts) (i :: idx) v.
(** the numbers are values of their declared type *)
Inductive typed : tinit -> Prop :=
| TypedLeaf dt xs : Forall (has_ty dt) xs -> typed (TLeaf dt xs)
| TypedNode ts : Forall typed ts -> typed (TNode ts).
(** there is no empty list of lists *)
Inductive no_empty_node : tinit -> Prop :=
| FullLeaf dt xs : no_empty_node (TLeaf dt xs)
| FullNode ts : ts <> [] -> Forall no_empty_node ts -> no_empty_node (TNode ts).
(** Lists are built from the inside out and from left to right. [built t]: [t] is empty, or
    rectangular *)
Definition built (t : tinit) : Prop := t = TNode [] \/ exists ss dt, rectangular t ss dt.
(** a mismatch is met first *)
Inductive mismatched : tinit -> Prop :=
| MisHere t ts ss dt : rectangular t ss dt -> Forall built ts -> Exists (fun u => ~ rectangular u ss dt) ts ->
    mismatched (TNode (t :: ts))
| MisBelow ts t ts' : Forall built ts -> mismatched t -> mismatched (TNode (ts ++ t :: ts')).
(** a list that begins with the empty list is met first: its leaf type, which was never
    assigned, is compared with itself *)
Inductive unassigned : tinit -> Prop :=
| UnHere ts : Forall built ts -> unassigned (TNode (TNode [] :: ts))
| UnBelow ts t ts' : Forall built ts -> unassigned t -> unassigned (TNode (ts ++ t :: ts')).
End with_fops.
