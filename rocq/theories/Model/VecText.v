(** types.cpp:49-77: the text of size and stride vectors. *)
From Verif.Model Require Export Types.

(** types.cpp:52-60, the loop of iter_to_string; [s] is the text so far. std::to_string of a
    size_t or long long is its decimal form, as in [val_str]. *)
Fixpoint iter_text (s : string) (begin : bool) (l : list Z) : string :=
  match l with
  | [] => s
  | i :: l' => if begin then iter_text (s +:+ pretty i) false l' else iter_text (s +:+ (", " +:+ pretty i)) begin l'
  end.
(** types.cpp:49-61 iter_to_string, 63-69 SizeVec::to_string and SignedVec::to_string, 71-77
    operator<<, which writes that text. *)
Definition vec_to_string (l : list Z) : string := iter_text "[" true l +:+ "]".
