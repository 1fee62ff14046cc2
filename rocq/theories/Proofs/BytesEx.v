(** all() on floats. *)
From Verif.Proofs Require Export Bytes PartEx.
From Verif.Model Require Import Ieee Api.
From Coq Require Import Floats.SpecFloat.
#[local] Existing Instance Ieee.

Definition same_float (x y : spec_float) : bool :=
  match x, y with
  | S754_zero s, S754_zero s' => Bool.eqb s s'
  | S754_infinity s, S754_infinity s' => Bool.eqb s s'
  | S754_finite s m e, S754_finite s' m' e' => Bool.eqb s s' && (m =? m')%positive && (e =? e')
  | _, _ => false
  end.
Lemma same_float_eq x y : same_float x y = true -> x = y /\ x <> S754_nan.
Proof.
  destruct x as [s|s| |s m e], y as [s'|s'| |s' m' e']; cbn [same_float]; try done.
  - by intros ->%eqb_prop.
  - by intros ->%eqb_prop.
  - intros [[->%eqb_prop ->%Pos.eqb_eq]%andb_true_iff ->%Z.eqb_eq]%andb_true_iff. done.
Qed.
Definition pattern_b (T : dtype) (v : @val Ieee) (z : Z) : bool :=
  (0 <=? z) && (z <? 2 ^ (8 * size_of T)) &&
  match v with
  | VI n => negb (floating T) && (z =? n mod 2 ^ (8 * size_of T))
  | VF x => floating T && same_float (decode (match T with F32 => FT32 | _ => FT64 end) z) x
  end.
Lemma pattern_check T v z : pattern_b T v z = true -> pattern T v z.
Proof.
  unfold pattern_b, pattern. intros [[H1%Z.leb_le H2%Z.ltb_lt]%andb_true_iff H3]%andb_true_iff. split; [done|]. destruct v.
  - by apply andb_true_iff in H3 as [?%negb_true_iff ?%Z.eqb_eq].
  - apply andb_true_iff in H3 as [? [H3 H4]%same_float_eq]. split; [done|]. split; [congruence|done].
Qed.
Lemma byte_check h r p b z :
  match cells h (t_sto r) with
  | Some cs => match cs !! Z.to_nat (p / size_of (t_dt r)) with Some (Some v) => pattern_b (t_dt r) v z | _ => false end
  | None => false end = true ->
  b = z / 256 ^ (p mod size_of (t_dt r)) mod 256 -> byte_is h r p b.
Proof.
  intros H ->. destruct (cells h (t_sto r)) as [cs|] eqn:Hc; [|done]. destruct (cs !! _) as [[v|]|] eqn:Hl; try done.
  exists cs, v, z. split; [done|]. split; [done|]. split; [by apply pattern_check|done].
Qed.
(** 0: in f32, the number with the pattern 0x101 (a subnormal) and 0;  2: ones in f32 *)
Definition part_float : list op := [OFromBlob [@VF Ieee (decode FT32 257); @VF Ieee (S754_zero false)] [2] F32; OOnes [2] F32].
Lemma ex16_float : let h := after part_float in
  reachable h /\ tensor_at h 0 (rec_of h 0) (contents h (rec_of h 0)) /\ t_dt (rec_of h 0) = F32 /\
  (forall idx, in_range (shape (rec_of h 0)) idx -> byte_is h (rec_of h 0) (pos (t_lay (rec_of h 0)) idx) 1) /\
  (exec (QAll #0) h).1 = Ok (RBool true) /\
  tensor_at h 2 (rec_of h 2) (contents h (rec_of h 2)) /\ t_dt (rec_of h 2) = F32 /\ Forall (fun n => 0 < n) (shape (rec_of h 2)) /\
  pos (t_lay (rec_of h 2)) [0] = 0 /\ pattern F32 (contents h (rec_of h 2) [0]) 1065353216 /\ 1065353216 mod 256 = 0 /\
  (exec (QAll #2) h).1 = Ok (RBool false).
Proof.
  cbv zeta. split; [reached|]. split; [at_of|]. split; [vm|]. split.
  { intros idx Hi. apply (byte_check _ _ _ _ 257).
    - revert idx Hi. apply in_all. vm.
    - apply Z.eqb_eq. revert idx Hi. apply (in_all (fun idx => _ =? _)). vm. }
  split; [vm|]. split; [at_of|]. split; [vm|]. split; [decide_it|]. split; [vm|]. split; [apply pattern_check; vm|]. split; vm.
Qed.
