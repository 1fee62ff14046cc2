(** Reading a printed vector of integers. *)
From Verif.Spec Require Export Decimal.
From Coq Require Import Ascii.
Local Open Scope Z_scope.

(** [m]: a minus sign has been read; [n]: the number the digits so far make, if there are any *)
Fixpoint read_items (s : string) (m : bool) (n : option Z) : option (list Z) :=
  match s, n with
  | String "]" EmptyString, Some n => Some [if m then - n else n]
  | String "," (String " " s'), Some n => cons (if m then - n else n) <$> read_items s' false None
  | String "-" s', None => if m then None else read_items s' true None
  | String c s', _ => match digit c with Some d => read_items s' m (Some (10 * default 0 n + d)) | None => None end
  | EmptyString, _ => None
  end.
Definition read_vector (s : string) : option (list Z) :=
  match s with String "[" (String "]" EmptyString) => Some [] | String "[" s' => read_items s' false None | _ => None end.
