(** In-place addition. *)
From Verif.Proofs Require Import InplaceEx.

(** C39: a += b with b broadcast into a's shape. [add_step L R x y] is the C++ value of an
    object [x : L] after x = x + y; [wrote]: the elements of a became [w], every tensor sees
    that through the cells it shares with a, no other cell and no tensor record changed. *)
Theorem C39_elementwise : forall {fo : FOps} h a b ra rb va vb,
  tensor_at h a ra va -> tensor_at h b rb vb -> t_sto ra <> t_sto rb -> lay_inj (t_lay ra) ->
  t_rg ra = false -> compatible (shape ra) (shape rb) -> no_zero_one (shape ra) (shape rb) ->
  bshape (shape ra) (shape rb) = shape ra ->
  let e idx := add_step (t_dt ra) (t_dt rb) (va idx) (vb (bidx (shape rb) idx)) in
  (forall w, (forall idx, in_range (shape ra) idx -> e idx = Some (w idx)) ->
     exists h', exec (OAddEq (Some a) (Some b)) h = (Ok RUnit, h') /\ wrote h h' ra w) /\
  ((exists idx, in_range (shape ra) idx /\ e idx = None) ->
     exists u h', exec (OAddEq (Some a) (Some b)) h = (UB u, h') /\ step_ub u).
Proof. exact @addeq_elementwise. Qed.
Print Assumptions C39_elementwise.
(** a += a *)
Theorem C39_self : forall {fo : FOps} h a ra va,
  tensor_at h a ra va -> lay_inj (t_lay ra) -> t_rg ra = false ->
  let e idx := add_step (t_dt ra) (t_dt ra) (va idx) (va idx) in
  (forall w, (forall idx, in_range (shape ra) idx -> e idx = Some (w idx)) ->
     exists h', exec (OAddEq (Some a) (Some a)) h = (Ok RUnit, h') /\ wrote h h' ra w) /\
  ((exists idx, in_range (shape ra) idx /\ e idx = None) ->
     exists u h', exec (OAddEq (Some a) (Some a)) h = (UB u, h') /\ step_ub u).
Proof. exact @addeq_self. Qed.
Print Assumptions C39_self.
Theorem C39_tracked : forall {fo : FOps} h a b ra rb,
  h_ten h !! a = Some ra -> h_ten h !! b = Some rb -> t_rg ra = true ->
  exec (OAddEq (Some a) (Some b)) h = (Throw RuntimeError, h).
Proof. exact @addeq_tracked. Qed.
Print Assumptions C39_tracked.

(** the reversed view 1 of tensor 0, plus the i32 column 4 *)
Example C39_example :
  tensor_at demo 1 (rec 1) (arr 1) /\ tensor_at demo 4 (rec 4) (arr 4) /\
  t_sto (rec 1) <> t_sto (rec 4) /\ lay_inj (t_lay (rec 1)) /\ t_rg (rec 1) = false /\
  compatible (shape (rec 1)) (shape (rec 4)) /\ no_zero_one (shape (rec 1)) (shape (rec 4)) /\
  bshape (shape (rec 1)) (shape (rec 4)) = shape (rec 1) /\
  map (fun idx => add_step I16 I32 (arr 1 idx) (arr 4 (bidx (shape (rec 4)) idx)))
    (indices (shape (rec 1))) = map (fun z => Some (VI z)) [10; 8; -2; -4] /\
  t_rg (rec 6) = true /\ (exec (OAddEq (Some 6%nat) (Some 7%nat)) demo).1 = Throw RuntimeError.
Proof.
  do 2 (split; [demo_at|]). split; [apply (bool_decide_eq_false_1 (t_sto _ = t_sto _)); vm|].
  split; [inj_ok|]. split; [vm|]. split; [decide_it|].
  split; [apply no_zero_one_pos; repeat constructor|]. split_and!; vm.
Qed.

(** C40: in general every element of a receives all the elements of b that broadcasting
    puts on it, one after the other in row-major order ([onto]). *)
Theorem C40_reduces : forall {fo : FOps} h a b ra rb va vb,
  tensor_at h a ra va -> tensor_at h b rb vb -> t_sto ra <> t_sto rb -> lay_inj (t_lay ra) ->
  t_rg ra = false -> compatible (shape ra) (shape rb) -> no_zero_one (shape ra) (shape rb) ->
  let e idx := add_all (t_dt ra) (t_dt rb) (va idx) (onto (shape ra) (shape rb) vb idx) in
  (forall w, (forall idx, in_range (shape ra) idx -> e idx = Some (w idx)) ->
     exists h', exec (OAddEq (Some a) (Some b)) h = (Ok RUnit, h') /\ wrote h h' ra w) /\
  ((exists idx, in_range (shape ra) idx /\ e idx = None) ->
     exists u h', exec (OAddEq (Some a) (Some b)) h = (UB u, h') /\ step_ub u).
Proof. exact @addeq_spec. Qed.
Print Assumptions C40_reduces.
(** on integers without overflow that is the exact sum *)
Theorem C40_integer_sum : forall {fo : FOps} T U x ys,
  floating T = false -> floating U = false -> width U <= width T -> 32 <= width T ->
  Forall (fun k => in_width (width T) (x + zsum (take k ys)) = true) (seq 0 (S (length ys))) ->
  Forall (fun y => in_width (width U) y = true) ys ->
  add_all T U (VI x) (map VI ys) = Some (VI (x + zsum ys)).
Proof. exact @add_all_int. Qed.
Print Assumptions C40_integer_sum.

(** the f32 vector 2 = (10, 20) plus the [2,2] matrix 3 = ((1,0),(1,1)) *)
Example C40_example :
  tensor_at demo 2 (rec 2) (arr 2) /\ tensor_at demo 3 (rec 3) (arr 3) /\
  t_sto (rec 2) <> t_sto (rec 3) /\ lay_inj (t_lay (rec 2)) /\ t_rg (rec 2) = false /\
  compatible (shape (rec 2)) (shape (rec 3)) /\ no_zero_one (shape (rec 2)) (shape (rec 3)) /\
  map (fun idx => add_all F32 I8 (arr 2 idx) (onto (shape (rec 2)) (shape (rec 3)) (arr 3) idx))
    (indices (shape (rec 2))) = map Some [f32 12; f32 21] /\
  Forall (fun k => in_width (width I32) (7 + zsum (take k [100; -3; 5])) = true) (seq 0 4).
Proof.
  do 2 (split; [demo_at|]). split; [apply (bool_decide_eq_false_1 (t_sto _ = t_sto _)); vm|].
  split; [inj_ok|]. split; [vm|]. split; [decide_it|].
  split; [apply no_zero_one_pos; repeat constructor|]. split; [vm|decide_it].
Qed.
