(** Reading printed numbers. *)
From Verif.Model Require Import Ieee.
From Verif.Spec Require Export Round Text.
From Coq Require Import QArith Qabs Ascii.
Local Open Scope Z_scope.

Definition digit (c : ascii) : option Z :=
  let n := Z.of_N (N_of_ascii c) - 48 in if (0 <=? n) && (n <? 10) then Some n else None.
(** [n] are the digits so far, [k] the number of them after the point *)
Fixpoint read_digits (s : string) (n : Z) (k : option nat) : option Q :=
  match s with
  | EmptyString => Some (inject_Z n / inject_Z (10 ^ Z.of_nat (default 0%nat k)))%Q
  | String c s' =>
      if bool_decide (c = "."%char) then match k with None => read_digits s' n (Some 0%nat) | Some _ => None end
      else match digit c with Some d => read_digits s' (10 * n + d) (S <$> k) | None => None end
  end.
Definition read_number (s : string) : option Q :=
  match s with String "-" s' => Qopp <$> read_digits s' 0 None | _ => read_digits s 0 None end.
(** [d] is a multiple of 10^-6 and none is nearer to [q]; if another one is as near, [d] is an
    even multiple *)
Definition six_decimals (q d : Q) : Prop :=
  exists r, (d == r # 1000000)%Q /\ forall j,
    (Qabs (d - q) <= Qabs ((j # 1000000) - q))%Q /\
    (Qabs (d - q) == Qabs ((j # 1000000) - q) -> j = r \/ Z.even r = true)%Q.
