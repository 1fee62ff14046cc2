(** Concatenation along one dimension. *)
From Verif.Spec Require Export Result.

(** The part of a concatenation of parts of lengths [ns] that position [i] falls in, and the
    position inside that part. *)
Fixpoint owner (ns : list Z) (i : Z) : nat * Z :=
  match ns with
  | [] => (O, i)
  | n :: r => if i <? n then (O, i) else let '(k, j) := owner r (i - n) in (S k, j)
  end.
Definition total_len (ns : list Z) : Z := fold_right Z.add 0 ns.

(** [s] agrees with [s0] except possibly in dimension [d] *)
Definition same_but (d : nat) (s0 s : list Z) : Prop :=
  length s = length s0 /\ forall j, j <> d -> s !! j = s0 !! j.
Global Instance same_but_dec d s0 s : Decision (same_but d s0 s).
Proof.
  destruct (decide (length s = length s0 /\
    Forall (fun j => j <> d -> s !! j = s0 !! j) (seq 0 (length s0)))) as [H|H]; [left|right].
  - destruct H as [H1 H2]. split; [done|]. intros j Hj.
    destruct (decide (j < length s0)%nat) as [Hl|Hl].
    + rewrite Forall_forall in H2. apply H2; [|done]. apply elem_of_seq. lia.
    + rewrite !lookup_ge_None_2; [done|lia..].
  - intros [H1 H2]. apply H. split; [done|]. apply Forall_forall. auto.
Defined.

Section with_fops.
Context {fo : FOps}.
(** sizes of the inputs along dimension [d] *)
Definition sizes_along (d : nat) (rs : list tensor) : list Z :=
  map (fun r => nth d (shape r) 0) rs.
(** dtype and shape of the concatenation of tensors [rs], the first of which is [r0] *)
Definition cat_type (r0 : tensor) (rs : list tensor) : dtype :=
  fold_left (fun t r => dt_join t (t_dt r)) rs (t_dt r0).
Definition cat_shape (d : nat) (r0 : tensor) (rs : list tensor) : list Z :=
  <[d := total_len (sizes_along d rs)]> (shape r0).
End with_fops.
