(** a += b as one pass over the cells, whatever cells the operands share. *)
From Verif.Spec Require Export Inplace Accept.

Section with_fops.
Context {fo : FOps}.
(** the value in cell [p] of buffer [s], if there is one *)
Definition memory := nat -> Z -> option val.
Definition memory_of (h : heap) : memory := fun s p =>
  match cells h s with
  | Some cs => if 0 <=? p then match cs !! Z.to_nat p with Some c => c | None => None end else None
  | None => None
  end.
Definition put_cell (m : memory) (s : nat) (p : Z) (x : val) : memory :=
  fun s' p' => if decide (s' = s /\ p' = p) then Some x else m s' p'.
(** the cell of tensor [r] that index [sv] of a larger shape falls on *)
Definition onto_cell (r : tensor) (sv : list Z) : Z := pos (t_lay r) (bidx (shape r) sv).
Definition falls_in (r : tensor) (sv : list Z) : Prop := in_range (shape r) (bidx (shape r) sv).
Global Instance falls_in_dec r sv : Decision (falls_in r sv).
Proof. unfold falls_in, in_range. apply _. Defined.

(** One index after the other: read both cells, add, write. The pass ends at the first index
    that is outside one of the operands. *)
Inductive pass := Done (m : memory) | Refused (m : memory) | Undefined.
Fixpoint add_pass (ra rb : tensor) (l : list (list Z)) (m : memory) : pass :=
  match l with
  | [] => Done m
  | sv :: l' =>
      if decide (falls_in ra sv /\ falls_in rb sv) then
        match m (t_sto ra) (onto_cell ra sv), m (t_sto rb) (onto_cell rb sv) with
        | Some x, Some y =>
            match add_step (t_dt ra) (t_dt rb) x y with
            | Some z => add_pass ra rb l' (put_cell m (t_sto ra) (onto_cell ra sv) z)
            | None => Undefined
            end
        | _, _ => Undefined
        end
      else Refused m
  end.
(** only the cells of buffer [s] may differ, and [h'] has the values [m] *)
Definition memory_now (h h' : heap) (s : nat) (m : memory) : Prop :=
  h_ten h' = h_ten h /\ (forall s', s' <> s -> h_sto h' !! s' = h_sto h !! s') /\
  forall s' p, memory_of h' s' p = m s' p.
End with_fops.
