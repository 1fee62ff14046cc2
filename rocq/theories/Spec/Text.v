(** Nested bracket form of an array. *)
From Verif.Spec Require Export Result.
From Verif.Model Require Export Types.

(** [f idx] is the text of element [idx] *)
Fixpoint brackets (ss : list Z) (f : list Z -> string) : string :=
  match ss with
  | [] => f []
  | n :: ss' => "[" +:+ String.concat ", " (map (fun i => brackets ss' (fun idx => f (i :: idx))) (seqZ 0 n)) +:+ "]"
  end.
