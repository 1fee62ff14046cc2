(** Iteration, creation. *)
From Verif.Proofs Require Import Samples.

(** C01: a whole-tensor loop performs its action once per multi-index of the shape, in
    row-major order; once for a 0-dimensional shape, never if a dimension is 0. [S] is
    the state, [act] the action; the action may throw, which ends the loop. *)
Theorem C01_iteration : forall (S : Type) (ss : list Z) (act : list Z -> M S unit) (s : S),
  Forall (fun n => 0 <= n) ss ->
  for_each_sizevec ss act s = mapM_ act (indices ss) s.
Proof. exact @for_each_run. Qed.
Print Assumptions C01_iteration.

(** [indices ss] is exactly the multi-indices of [ss], each once, in lexicographic
    order; there are as many as the product of the sizes. *)
Theorem C01_indices : forall ss,
  Forall (fun n => 0 <= n) ss ->
  (forall idx, idx ∈ indices ss <-> in_range ss idx) /\ NoDup (indices ss) /\
  Z.of_nat (length (indices ss)) = size_prod ss /\
  (forall i j x y, indices ss !! i = Some x -> indices ss !! j = Some y ->
     ((i < j)%nat <-> lex_lt x y)) /\
  indices [] = [[]].
Proof. exact indices_spec. Qed.
Print Assumptions C01_indices.

Example C01_example :
  indices [2; 0; 3] = [] /\ length (indices [2; 3]) = 6%nat /\
  indices [2; 2] = [[0; 0]; [0; 1]; [1; 0]; [1; 1]].
Proof. vm_compute; repeat split. Qed.

(** C02: a fresh tensor of shape [ss] has a buffer of exactly as many cells as elements,
    every element in its row-major cell, distinct elements in distinct cells. *)
Theorem C02_fresh_layout : forall {fo : FOps} h ss dt,
  Forall (fun n => 0 <= n < two64) ss -> fits dt ss ->
  exists t r cs h', exec (ONew ss dt) h = (Ok (RHandle (Some t)), h') /\ extends h h' /\
    h_ten h !! t = None /\ h_ten h' !! t = Some r /\ h_sto h !! t_sto r = None /\
    t_dt r = dt /\ shape r = ss /\ backed h' r cs /\
    Z.of_nat (length cs) = size_prod ss /\
    row_major_lay (t_lay r) /\ lay_inj (t_lay r) /\
    forall p, 0 <= p < Z.of_nat (length cs) -> exists idx, in_range ss idx /\ pos (t_lay r) idx = p.
Proof. exact @new_layout. Qed.
Print Assumptions C02_fresh_layout.

Example C02_example : Forall (fun n => 0 <= n < two64) [3; 0; 2] /\ fits F64 [3; 0; 2] /\
  Forall (fun n => 0 <= n < two64) [300; 40; 2] /\ fits F64 [300; 40; 2].
Proof. split; [shape_ok|]. split; [fits_ok|]. split; [shape_ok|fits_ok]. Qed.

(** C03: from_blob. *)
Theorem C03_from_blob : forall {fo : FOps} h ss dt data d,
  Forall (fun n => 0 <= n < two64) ss -> fits dt ss ->
  size_prod ss <= Z.of_nat (length data) -> Forall (has_ty dt) data ->
  exists t h', exec (OFromBlob data ss dt) h = (Ok (RHandle (Some t)), h') /\
    new_tensor h h' t dt ss false (fun idx => nth (Z.to_nat (row_major ss idx)) data d).
Proof. exact @from_blob_new. Qed.
Print Assumptions C03_from_blob.

Example C03_example :
  Forall (fun n => 0 <= n < two64) [2; 2] /\ fits I16 [2; 2] /\
  size_prod [2; 2] <= Z.of_nat (length (map VI [5; -6; 7; 8])) /\
  Forall (has_ty I16) (map VI [5; -6; 7; 8]).
Proof.
  split; [shape_ok|]. split; [fits_ok|]. split; [fits_ok|].
  repeat (apply Forall_cons_2; [split; reflexivity|]). apply Forall_nil_2.
Qed.

(** C04: zeros, ones, full, eye, zeros_like, ones_like. *)
Theorem C04_zeros : forall {fo : FOps} h ss dt,
  Forall (fun n => 0 <= n < two64) ss -> fits dt ss ->
  exists t h', exec (OZeros ss dt) h = (Ok (RHandle (Some t)), h') /\
    new_tensor h h' t dt ss false (fun _ => if floating dt then VF f_zero else VI 0).
Proof. exact @zeros_new. Qed.
Print Assumptions C04_zeros.

Theorem C04_ones : forall {fo : FOps} h ss dt,
  Forall (fun n => 0 <= n < two64) ss -> fits dt ss ->
  exists t h', exec (OOnes ss dt) h = (Ok (RHandle (Some t)), h') /\
    new_tensor h h' t dt ss false
      (fun _ => if floating dt then VF (f_of_Z (fmt dt) 1) else VI 1).
Proof. exact @ones_new. Qed.
Print Assumptions C04_ones.

Theorem C04_full_int : forall {fo : FOps} h ss dt n,
  Forall (fun n => 0 <= n < two64) ss -> fits dt ss ->
  exists t h', exec (OFullInt ss n dt) h = (Ok (RHandle (Some t)), h') /\
    new_tensor h h' t dt ss false
      (fun _ => if floating dt then VF (f_of_Z (fmt dt) n) else VI (reduce (width dt) n)).
Proof. exact @full_int_new. Qed.
Print Assumptions C04_full_int.

Theorem C04_full_double : forall {fo : FOps} h ss dt x,
  Forall (fun n => 0 <= n < two64) ss -> fits dt ss ->
  (forall w, cpp_cvt F64 dt (VF x) = Some w ->
   exists t h', exec (OFullDouble ss x dt) h = (Ok (RHandle (Some t)), h') /\
     new_tensor h h' t dt ss false (fun _ => w)) /\
  (cpp_cvt F64 dt (VF x) = None -> exists h', exec (OFullDouble ss x dt) h = (UB FloatRange, h')).
Proof. exact @full_double_new. Qed.
Print Assumptions C04_full_double.

Theorem C04_eye : forall {fo : FOps} h n m dt,
  0 <= n < two64 -> 0 <= m < two64 -> fits dt [n; m] ->
  exists t h', exec (OEye n m dt) h = (Ok (RHandle (Some t)), h') /\
    new_tensor h h' t dt [n; m] false
      (fun idx => match idx with
                  | [i; j] => if i =? j then (if floating dt then VF (f_of_Z (fmt dt) 1) else VI 1)
                              else (if floating dt then VF f_zero else VI 0)
                  | _ => if floating dt then VF f_zero else VI 0 end).
Proof. exact @eye_new. Qed.
Print Assumptions C04_eye.

Theorem C04_like : forall {fo : FOps} h t r v,
  tensor_at h t r v -> fits (t_dt r) (shape r) ->
  (exists u h', exec (OZerosLike (Some t)) h = (Ok (RHandle (Some u)), h') /\
     new_tensor h h' u (t_dt r) (shape r) false
       (fun _ => if floating (t_dt r) then VF f_zero else VI 0)) /\
  (exists u h', exec (OOnesLike (Some t)) h = (Ok (RHandle (Some u)), h') /\
     new_tensor h h' u (t_dt r) (shape r) false
       (fun _ => if floating (t_dt r) then VF (f_of_Z (fmt (t_dt r)) 1) else VI 1)).
Proof. exact @like_new. Qed.
Print Assumptions C04_like.

Example C04_example :
  Forall (fun n => 0 <= n < two64) [2; 3] /\ fits F32 [2; 3] /\ fits F32 [3; 4] /\
  cpp_cvt F64 I8 (f64 (-5)) = Some (VI (-5)) /\ cpp_cvt F64 I8 (f64 200) = None /\
  tensor_at demo 1 (rec 1) (arr 1) /\ fits (t_dt (rec 1)) (shape (rec 1)).
Proof.
  split; [shape_ok|]. split; [fits_ok|]. split; [fits_ok|].
  split; [vm|]. split; [vm|].
  split; [demo_at|fits_ok].
Qed.
