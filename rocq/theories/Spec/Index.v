(** Specification vocabulary: shapes, multi-indices, the row-major order. None of
    this refers to the model of the library. *)
From stdpp Require Export prelude.
From Coq Require Export ZArith Lia.
Global Open Scope Z_scope.

(** number of elements of a shape, as an unbounded integer *)
Fixpoint size_prod (ss : list Z) : Z :=
  match ss with [] => 1 | n :: r => n * size_prod r end.

(** [idx] is a multi-index of shape [ss] *)
Definition in_range (ss idx : list Z) : Prop := Forall2 (fun n i => 0 <= i < n) ss idx.

(** the multi-indices of a shape in row-major order: the last index runs fastest *)
Fixpoint indices (ss : list Z) : list (list Z) :=
  match ss with
  | [] => [[]]
  | n :: r => flat_map (fun i => map (cons i) (indices r)) (seqZ 0 n)
  end.

(** row-major linear position *)
Fixpoint row_major (ss idx : list Z) : Z :=
  match ss, idx with
  | _ :: r, i :: k => i * size_prod r + row_major r k
  | _, _ => 0
  end.

(** sum of products *)
Fixpoint dot (st idx : list Z) : Z :=
  match st, idx with
  | s :: st', i :: idx' => s * i + dot st' idx'
  | _, _ => 0
  end.

(** lexicographic order on indices *)
Fixpoint lex_lt (a b : list Z) : Prop :=
  match a, b with
  | x :: a', y :: b' => x < y \/ (x = y /\ lex_lt a' b')
  | _, _ => False
  end.
