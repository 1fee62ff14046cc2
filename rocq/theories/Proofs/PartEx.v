(** Checks for the examples about the parts of properties that fail in general. *)
From Verif.Proofs Require Export Part1 Part2 Part3 Part4 InplaceEx Orders Sequential.
From Coq Require Import Floats.SpecFloat.
From Verif.Model Require Import Api Ieee.
#[local] Existing Instance Ieee.

Lemma ordered_vi (l : list (@val Ieee)) : forallb (fun x => match x with VI _ => true | VF _ => false end) l = true -> ordered l.
Proof.
  rewrite forallb_forall. intros H. apply ordered_int. intros x Hx. apply elem_of_list_In in Hx. specialize (H x Hx).
  destruct x as [z|]; [by exists z|done].
Qed.
Lemma ordered_vf (l : list (@val Ieee)) :
  forallb (fun x : @val Ieee => match x with VI _ => false | VF y => SFeqb y y end) l = true -> ordered l.
Proof.
  rewrite forallb_forall. intros H. apply ordered_ieee.
  - intros x Hx ->. apply elem_of_list_In in Hx. specialize (H _ Hx). done.
  - intros x y Hx Hy. apply elem_of_list_In in Hx, Hy. pose proof (H _ Hx). pose proof (H _ Hy). by destruct x, y.
Qed.
Lemma in_all (f : list Z -> bool) ss : forallb f (indices ss) = true -> forall idx, in_range ss idx -> f idx = true.
Proof. rewrite forallb_forall. intros H idx Hi. by apply H, elem_of_list_In, elem_of_indices. Qed.

(** 0: [3, 1, 4, 2];  1: its slice [1, 4, 2];  2: its slice [1, 2] *)
Definition part_ops : list op := [ivec [3; 1; 4; 2]; OSlice #0 (chars "1:"); OSlice #0 (chars "1::2")].
(** 0: [3, 1, 4, 2], tracked;  1: its slice [1, 4, 2];  4: its slice [1, 2] *)
Definition part_tracked : list op := [Refute2.vec [3; 1; 4; 2]; ORequires #0 true; OSlice #0 (chars "1:"); OSlice #0 (chars "1::2")].
(** 0: [257, 0] in i16;  1: [1, 1] in i16 *)
Definition part_wide : list op := [OFromBlob (map VI [257; 0]) [2] I16; OFromBlob (map VI [1; 1]) [2] I16].
(** 0: [1, 2, 3, 4];  1: its first three elements;  2: its last three *)
Definition part_over : list op := [ivec [1; 2; 3; 4]; OSlice #0 (chars ":-1"); OSlice #0 (chars "1:")].


Lemma ex29 : let h := after part_ops in
  reachable h /\ tensor_at h 1 (rec_of h 1) (contents h (rec_of h 1)) /\ tensor_at h 2 (rec_of h 2) (contents h (rec_of h 2)) /\
  t_rg (rec_of h 1) = false /\ t_rg (rec_of h 2) = false /\ first_cell h (rec_of h 1) (VI 3) /\ first_cell h (rec_of h 2) (VI 3) /\
  ordered (VI 3 :: row_elems (shape (rec_of h 1)) (contents h (rec_of h 1))) /\
  ordered (VI 3 :: row_elems (shape (rec_of h 2)) (contents h (rec_of h 2))) /\
  row_elems (shape (rec_of h 1)) (contents h (rec_of h 1)) = map VI [1; 4; 2] /\
  row_elems (shape (rec_of h 2)) (contents h (rec_of h 2)) = map VI [1; 2] /\
  elems (exec (OMax #1) h).2 3 = Some [VI 4] /\ elems (exec (OMax #2) h).2 3 = Some [VI 3] /\
  elems (exec (OMin #2) h).2 3 = Some [VI 1].
Proof.
  cbv zeta. split; [reached|]. do 2 (split; [at_of|]). do 2 (split; [vm|]).
  do 2 (split; [exists (map Some (map VI [3; 1; 4; 2])); split; [vm|]; split; [vm|]; apply has_ty_int; split; vm|]).
  do 2 (split; [apply ordered_vi; vm|]). split_and!; vm.
Qed.

Lemma ex52 : let h := after part_tracked in
  reachable h /\ tensor_at h 1 (rec_of h 1) (contents h (rec_of h 1)) /\ tensor_at h 4 (rec_of h 4) (contents h (rec_of h 4)) /\
  t_rg (rec_of h 1) = true /\ t_rg (rec_of h 4) = true /\ fits (t_dt (rec_of h 1)) (shape (rec_of h 1)) /\
  fits (t_dt (rec_of h 4)) (shape (rec_of h 4)) /\ first_cell h (rec_of h 1) (f64 3) /\ first_cell h (rec_of h 4) (f64 3) /\
  ordered (f64 3 :: row_elems (shape (rec_of h 1)) (contents h (rec_of h 1))) /\
  ordered (f64 3 :: row_elems (shape (rec_of h 4)) (contents h (rec_of h 4))) /\
  row_elems (shape (rec_of h 1)) (contents h (rec_of h 1)) = map f64 [1; 4; 2] /\
  row_elems (shape (rec_of h 4)) (contents h (rec_of h 4)) = map f64 [1; 2] /\
  (exec (OMax #1) h).1 = Ok (RHandle #6) /\ elems (exec (OMax #1) h).2 6 = Some [f64 4] /\
  elems (exec (OMax #1) h).2 7 = Some (map f64 [0; 1; 0]) /\ (exec (OMax #4) h).1 = Throw RuntimeError.
Proof.
  cbv zeta. split; [reached|]. do 2 (split; [at_of|]). do 2 (split; [vm|]). do 2 (split; [fits_ok|]).
  do 2 (split; [exists (map Some (map f64 [3; 1; 4; 2])); split; [vm|]; split; [vm|]; apply has_ty_float; vm|]).
  do 2 (split; [apply ordered_vf; vm|]). split_and!; vm.
Qed.

Lemma ex31 : let h := after part_ops in
  tensor_at h 2 (rec_of h 2) (contents h (rec_of h 2)) /\ fits (t_dt (rec_of h 2)) (shape (rec_of h 2)) /\
  (forall idx, in_range (shape (rec_of h 2)) idx -> is_Some (abs_val (t_dt (rec_of h 2)) (contents h (rec_of h 2) idx))) /\
  in_range (shape (rec_of h 2)) [1] /\ size_prod (shape (rec_of h 2)) = 2 /\ pos (t_lay (rec_of h 2)) [1] = 3.
Proof.
  cbv zeta. split; [at_of|]. split; [fits_ok|]. split.
  - intros idx Hi. erewrite (defined_check (fun idx => abs_val _ (contents _ _ idx)) (shape (rec_of (after part_ops) 2))); [by eexists|vm|done].
  - split; [apply elem_of_indices; decide_it|]. split_and!; vm.
Qed.

Lemma ex16 : let h := after part_wide in
  reachable h /\ tensor_at h 0 (rec_of h 0) (contents h (rec_of h 0)) /\ floating (t_dt (rec_of h 0)) = false /\
  (forall idx, in_range (shape (rec_of h 0)) idx ->
     byte_at h (rec_of h 0) (pos (t_lay (rec_of h 0)) idx) = Some 1 /\ (1 = 0 \/ 1 = 1)) /\
  contents h (rec_of h 0) [1] = VI 0 /\ (exec (QAll #0) h).1 = Ok (RBool true) /\
  tensor_at h 1 (rec_of h 1) (contents h (rec_of h 1)) /\ t_dt (rec_of h 1) = I16 /\ row_major_lay (t_lay (rec_of h 1)) /\
  (forall idx, in_range (shape (rec_of h 1)) idx -> contents h (rec_of h 1) idx = VI 1).
Proof.
  cbv zeta. split; [reached|]. split; [at_of|]. split; [vm|]. split.
  { intros idx Hi. split; [|by right]. apply (bool_decide_eq_true_1 (_ = _)). revert idx Hi. apply in_all. vm. }
  split; [vm|]. split; [vm|]. split; [at_of|]. split; [vm|]. split; [intros idx Hi; apply (bool_decide_eq_true_1 (_ = _)); revert idx Hi; apply in_all; vm|].
  intros idx Hi. assert (negb (differ (contents (after part_wide) (rec_of (after part_wide) 1) idx) (VI 1)) = true) as H by (revert idx Hi; apply in_all; vm).
  destruct (contents _ _ idx) as [z|]; simpl in H; [|done]. f_equal. lia.
Qed.

Lemma ex56 : let h := after part_over in
  reachable h /\ tensor_at h 1 (rec_of h 1) (contents h (rec_of h 1)) /\ tensor_at h 2 (rec_of h 2) (contents h (rec_of h 2)) /\
  lay_inj (t_lay (rec_of h 1)) /\ t_rg (rec_of h 1) = false /\ shape (rec_of h 1) = [3] /\ shape (rec_of h 2) = [3] /\
  t_sto (rec_of h 1) = t_sto (rec_of h 2) /\
  (forall i j, in_range [3] i -> in_range [3] j -> row_major [3] i < row_major [3] j ->
     pos (t_lay (rec_of h 1)) i <> pos (t_lay (rec_of h 2)) (bidx [3] j)) /\
  elems (exec (OAddEq #1 #2) h).2 0 = Some (map VI [3; 5; 7; 4]).
Proof.
  cbv zeta. split; [reached|]. do 2 (split; [at_of|]). split; [inj_ok|]. do 4 (split; [vm|]). split; [|vm].
  intros i j Hi Hj. apply elem_of_indices in Hi, Hj. vm_compute in Hi, Hj. set_unfold in Hi. set_unfold in Hj.
  destruct Hi as [->|[->|[->|[]]]], Hj as [->|[->|[->|[]]]]; vm_compute; congruence.
Qed.
Lemma ex56_pass : let h := after part_over in
  reachable h /\ tensor_at h 0 (rec_of h 0) (contents h (rec_of h 0)) /\ tensor_at h 1 (rec_of h 1) (contents h (rec_of h 1)) /\
  tensor_at h 2 (rec_of h 2) (contents h (rec_of h 2)) /\ t_rg (rec_of h 1) = false /\ t_rg (rec_of h 2) = false /\
  match add_pass (rec_of h 2) (rec_of h 1) (indices (larger_shape [3] [3])) (memory_of h) with
  | Done m => Some (map (m (t_sto (rec_of h 0))) [0; 1; 2; 3]) | _ => None end = Some (map (fun z => Some (VI z)) [1; 3; 6; 10]) /\
  match add_pass (rec_of h 1) (rec_of h 0) (indices (larger_shape [3] [4])) (memory_of h) with
  | Refused m => Some (map (m (t_sto (rec_of h 0))) [0; 1; 2; 3]) | _ => None end = Some (map (fun z => Some (VI z)) [2; 4; 6; 4]).
Proof.
  cbv zeta. split; [reached|]. do 3 (split; [at_of|]). split_and!; vm.
Qed.
