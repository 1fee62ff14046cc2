(** Vocabulary for the parts that hold of properties that fail in general. *)
From Verif.Spec Require Export Tensor Result.
From Verif.Model Require Export Api.

Section with_fops.
Context {fo : FOps}.
(** the type and shape of the tensor a call is asked to create *)
Definition requested (o : op) : option (dtype * list Z) :=
  match o with
  | ONew ss dt | OZeros ss dt | OOnes ss dt | OFullInt ss _ dt | OFullDouble ss _ dt | OFromBlob _ ss dt => Some (dt, ss)
  | OEye n m dt => Some (dt, [n; m])
  | ORandn ss F32 _ => Some (F32, ss)
  | _ => None
  end.

(** byte [p] of the buffer of an integer tensor, the integers being stored in two's
    complement with the least significant byte first *)
Definition byte_at (h : heap) (r : tensor) (p : Z) : option Z :=
  let w := size_of (t_dt r) in
  match cells h (t_sto r) with
  | Some cs => match cs !! Z.to_nat (p / w) with
               | Some (Some (VI z)) => Some ((z mod 2 ^ width (t_dt r)) / 256 ^ (p mod w) mod 256)
               | _ => None
               end
  | None => None
  end.

(** the first cell of the buffer of [r] contains [x] *)
Definition first_cell (h : heap) (r : tensor) (x : val) : Prop :=
  exists cs, cells h (t_sto r) = Some cs /\ cs !! 0%nat = Some (Some x) /\ has_ty (t_dt r) x.

(** [kg] is the tensor of slopes that [x], computed from [a], has stored: 1 at [best] and 0
    elsewhere *)
Definition slopes_at (h : heap) (x a : nat) (ss : list Z) (best : list Z) : Prop :=
  exists r f kg rk, h_ten h !! x = Some r /\ t_fn r = Some f /\ gf_kind f = KnownGradBack kg /\ gf_in f = [a] /\
    h_ten h !! kg = Some rk /\ shape rk = ss /\
    holds h rk (fun idx => if decide (idx = best) then (if floating (t_dt rk) then VF (f_of_Z (fmt (t_dt rk)) 1) else VI 1)
                           else zero_val (t_dt rk)).
End with_fops.
