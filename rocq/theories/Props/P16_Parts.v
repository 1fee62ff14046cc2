(** What does hold of properties that fail in general. *)
From Verif.Proofs Require Import PartEx BytesEx.

(** C16: all() on integers reads the bytes at the positions of the elements, not multiplied by
    the size of an element, and answers whether all of them are 1.
    Partial: the property asks for an answer about the elements. *)
Theorem C16_bytes_partial : forall {fo : FOps} h t r v b,
  tensor_at h t r v -> floating (t_dt r) = false ->
  (forall idx, in_range (shape r) idx -> byte_at h r (pos (t_lay r) idx) = Some (b idx) /\ (b idx = 0 \/ b idx = 1)) ->
  exists x, exec (QAll (Some t)) h = (Ok (RBool x), h) /\ (x = true <-> forall idx, in_range (shape r) idx -> b idx = 1).
Proof. exact @all_bytes. Qed.
Print Assumptions C16_bytes_partial.

(** so, unless elements are one byte wide, all() of ones laid out in a row is false *)
Theorem C16_wide : forall {fo : FOps} h t r v,
  tensor_at h t r v -> floating (t_dt r) = false -> t_dt r <> I8 -> row_major_lay (t_lay r) -> 2 <= size_prod (shape r) ->
  (forall idx, in_range (shape r) idx -> v idx = VI 1) ->
  exec (QAll (Some t)) h = (Ok (RBool false), h).
Proof. exact @all_wide. Qed.
Print Assumptions C16_wide.
(** all() of [257, 0] is true; [1, 1] *)
Example C16_parts_example : let h := after part_wide in
  reachable h /\ tensor_at h 0 (rec_of h 0) (contents h (rec_of h 0)) /\ floating (t_dt (rec_of h 0)) = false /\
  (forall idx, in_range (shape (rec_of h 0)) idx ->
     byte_at h (rec_of h 0) (pos (t_lay (rec_of h 0)) idx) = Some 1 /\ (1 = 0 \/ 1 = 1)) /\
  contents h (rec_of h 0) [1] = VI 0 /\ (exec (QAll #0) h).1 = Ok (RBool true) /\
  tensor_at h 1 (rec_of h 1) (contents h (rec_of h 1)) /\ t_dt (rec_of h 1) = I16 /\ row_major_lay (t_lay (rec_of h 1)) /\
  (forall idx, in_range (shape (rec_of h 1)) idx -> contents h (rec_of h 1) idx = VI 1).
Proof. exact ex16. Qed.

(** What all() does on every type: in row-major order it reads, as bool, the byte at the position
    of each element; the first byte that is not 1 decides, and one that is not 0 either is no
    bool (undefined behaviour). The bytes are those of the IEEE formats ([decode]) and of two's
    complement; a NaN has no byte here, its pattern being unspecified. *)
Theorem C16_outcome : forall h t r v b,
  tensor_at h t r v ->
  (forall idx, in_range (shape r) idx -> byte_is h r (pos (t_lay r) idx) (b idx)) ->
  exec (QAll (Some t)) h = (verdict (map b (indices (shape r))), h).
Proof. exact all_outcome. Qed.
Print Assumptions C16_outcome.
(** so all() is false for every non-empty tensor at the start of its buffer whose first element
    has a zero low byte, whatever the other elements: ones in f32 or f64, 256, ... *)
Theorem C16_low : forall h t r v z,
  tensor_at h t r v -> Forall (fun n => 0 < n) (shape r) -> pos (t_lay r) (map (fun _ => 0) (shape r)) = 0 ->
  pattern (t_dt r) (v (map (fun _ => 0) (shape r))) z -> z mod 256 = 0 ->
  exec (QAll (Some t)) h = (Ok (RBool false), h).
Proof. exact all_low. Qed.
Print Assumptions C16_low.
(** all() of a subnormal and 0 is true; of ones, false *)
Example C16_float_example : let h := after part_float in
  reachable h /\ tensor_at h 0 (rec_of h 0) (contents h (rec_of h 0)) /\ t_dt (rec_of h 0) = F32 /\
  (forall idx, in_range (shape (rec_of h 0)) idx -> byte_is h (rec_of h 0) (pos (t_lay (rec_of h 0)) idx) 1) /\
  (exec (QAll #0) h).1 = Ok (RBool true) /\
  tensor_at h 2 (rec_of h 2) (contents h (rec_of h 2)) /\ t_dt (rec_of h 2) = F32 /\ Forall (fun n => 0 < n) (shape (rec_of h 2)) /\
  pos (t_lay (rec_of h 2)) [0] = 0 /\ pattern F32 (contents h (rec_of h 2) [0]) 1065353216 /\ 1065353216 mod 256 = 0 /\
  (exec (QAll #2) h).1 = Ok (RBool false).
Proof. exact ex16_float. Qed.

(** C29: max() and min() compare the elements of the view and, besides, the first cell [x0] of
    the buffer, whether or not it belongs to the view. The result is an element of the view if
    one of them beats that cell; otherwise it is that cell.
    Partial: the property asks for an element of the view. *)
Theorem C29_max_partial : forall {fo : FOps} h t r v x0,
  tensor_at h t r v -> t_rg r = false -> first_cell h r x0 -> ordered (x0 :: row_elems (shape r) v) ->
  exists m t' h',
    exec (OMax (Some t)) h = (Ok (RHandle (Some t')), h') /\ new_tensor h h' t' (t_dt r) [] false (fun _ => m) /\
    (forall idx, in_range (shape r) idx -> val_le (v idx) m = true) /\
    ((exists idx, in_range (shape r) idx /\ val_le (v idx) x0 = false) -> exists best, in_range (shape r) best /\ m = v best) /\
    ((forall idx, in_range (shape r) idx -> val_le (v idx) x0 = true) -> m = x0).
Proof. exact @max_part. Qed.
Print Assumptions C29_max_partial.
Theorem C29_min_partial : forall {fo : FOps} h t r v x0,
  tensor_at h t r v -> t_rg r = false -> first_cell h r x0 -> ordered (x0 :: row_elems (shape r) v) ->
  exists m t' h',
    exec (OMin (Some t)) h = (Ok (RHandle (Some t')), h') /\ new_tensor h h' t' (t_dt r) [] false (fun _ => m) /\
    (forall idx, in_range (shape r) idx -> val_le m (v idx) = true) /\
    ((exists idx, in_range (shape r) idx /\ val_le x0 (v idx) = false) -> exists best, in_range (shape r) best /\ m = v best) /\
    ((forall idx, in_range (shape r) idx -> val_le x0 (v idx) = true) -> m = x0).
Proof. exact @min_part. Qed.
Print Assumptions C29_min_partial.
(** the slices [1, 4, 2] and [1, 2] of [3, 1, 4, 2] *)
Example C29_parts_example : let h := after part_ops in
  reachable h /\ tensor_at h 1 (rec_of h 1) (contents h (rec_of h 1)) /\ tensor_at h 2 (rec_of h 2) (contents h (rec_of h 2)) /\
  t_rg (rec_of h 1) = false /\ t_rg (rec_of h 2) = false /\ first_cell h (rec_of h 1) (VI 3) /\ first_cell h (rec_of h 2) (VI 3) /\
  ordered (VI 3 :: row_elems (shape (rec_of h 1)) (contents h (rec_of h 1))) /\
  ordered (VI 3 :: row_elems (shape (rec_of h 2)) (contents h (rec_of h 2))) /\
  row_elems (shape (rec_of h 1)) (contents h (rec_of h 1)) = map VI [1; 4; 2] /\
  row_elems (shape (rec_of h 2)) (contents h (rec_of h 2)) = map VI [1; 2] /\
  elems (exec (OMax #1) h).2 3 = Some [VI 4] /\ elems (exec (OMax #2) h).2 3 = Some [VI 3] /\
  elems (exec (OMin #2) h).2 3 = Some [VI 1].
Proof. exact ex29. Qed.

(** C31: abs() writes outside its result whenever the positions of the elements reach beyond
    their number. When they do not, it stays inside: C30. *)
Theorem C31_outside : forall {fo : FOps} h t r v,
  tensor_at h t r v -> fits (t_dt r) (shape r) ->
  (forall idx, in_range (shape r) idx -> is_Some (abs_val (t_dt r) (v idx))) ->
  (exists idx, in_range (shape r) idx /\ size_prod (shape r) <= pos (t_lay r) idx) ->
  exists h', exec (OAbs (Some t)) h = (UB OutOfBounds, h').
Proof. exact @abs_outside. Qed.
Print Assumptions C31_outside.
Example C31_example : let h := after part_ops in
  tensor_at h 2 (rec_of h 2) (contents h (rec_of h 2)) /\ fits (t_dt (rec_of h 2)) (shape (rec_of h 2)) /\
  (forall idx, in_range (shape (rec_of h 2)) idx -> is_Some (abs_val (t_dt (rec_of h 2)) (contents h (rec_of h 2) idx))) /\
  in_range (shape (rec_of h 2)) [1] /\ size_prod (shape (rec_of h 2)) = 2 /\ pos (t_lay (rec_of h 2)) [1] = 3.
Proof. exact ex31. Qed.

(** C37: randn rejects integer types, creates what it should at f32, and at f64 always writes
    outside its buffer unless that is empty. The samples [xs] are arbitrary. *)
Theorem C37_reject : forall {fo : FOps} h ss dt xs,
  floating dt = false -> exec (ORandn ss dt xs) h = (Throw RuntimeError, h).
Proof. exact @randn_reject. Qed.
Print Assumptions C37_reject.
Theorem C37_f32_partial : forall {fo : FOps} h ss xs,
  Forall (fun n => 0 <= n < two64) ss -> fits F32 ss ->
  exists t h', exec (ORandn ss F32 xs) h = (Ok (RHandle (Some t)), h') /\
    new_tensor h h' t F32 ss false (fun idx => VF (nth (Z.to_nat (row_major ss idx)) xs f_zero)).
Proof. exact @randn_new. Qed.
Print Assumptions C37_f32_partial.
Theorem C37_f64 : forall {fo : FOps} h ss xs,
  Forall (fun n => 0 <= n < two64) ss -> fits F32 ss -> 0 < size_prod ss ->
  exists h', exec (ORandn ss F64 xs) h = (UB OutOfBounds, h').
Proof. exact @randn_f64. Qed.
Print Assumptions C37_f64.
Theorem C37_like : forall {fo : FOps} h a r xs,
  h_ten h !! a = Some r -> exec (ORandnLike (Some a) xs) h = exec (ORandn (shape r) (t_dt r) xs) h.
Proof. exact @randn_like_new. Qed.
Print Assumptions C37_like.
Example C37_example : Forall (fun n => 0 <= n < two64) [2; 3] /\ fits F32 [2; 3] /\ 0 < size_prod [2; 3] /\
  h_ten demo !! 0%nat = Some (rec 0) /\ floating (t_dt (rec 0)) = false.
Proof. split; [shape_ok|]. split; [fits_ok|]. split; [done|]. split; vm. Qed.

(** C41: when the operands can be broadcast, += throws only for a tracked destination, and
    then nothing has changed.
    Partial: for operands that cannot be broadcast see C41_refuted. *)
Theorem C41_partial : forall {fo : FOps} h a b ra rb va vb e h',
  tensor_at h a ra va -> tensor_at h b rb vb -> compatible (shape ra) (shape rb) -> no_zero_one (shape ra) (shape rb) ->
  exec (OAddEq (Some a) (Some b)) h = (Throw e, h') -> t_rg ra = true /\ h' = h.
Proof. exact @addeq_throw. Qed.
Print Assumptions C41_partial.
Example C41_example :
  tensor_at demo 6 (rec 6) (arr 6) /\ tensor_at demo 8 (rec 8) (arr 8) /\ compatible (shape (rec 6)) (shape (rec 8)) /\
  no_zero_one (shape (rec 6)) (shape (rec 8)) /\ (exec (OAddEq #6 #8) demo).1 = Throw RuntimeError.
Proof.
  do 2 (split; [demo_at|]). split; [decide_it|]. split; [apply no_zero_one_pos; repeat constructor|]. vm.
Qed.

(** Of all operands: += throws only for a tracked destination or shapes that are not
    accepted; with such shapes it throws, unless an addition before that is undefined. What
    the destination holds then is C56_pass. *)
Theorem C41_throws : forall {fo : FOps} h a b ra rb va vb e,
  tensor_at h a ra va -> tensor_at h b rb vb ->
  (exec (OAddEq (Some a) (Some b)) h).1 = Throw e -> e = RuntimeError /\ (t_rg ra = true \/ ~ accepts (shape ra) (shape rb)).
Proof. exact @addeq_throws. Qed.
Print Assumptions C41_throws.
Theorem C41_refuses : forall {fo : FOps} h a b ra rb va vb,
  tensor_at h a ra va -> tensor_at h b rb vb -> ~ accepts (shape ra) (shape rb) ->
  (exec (OAddEq (Some a) (Some b)) h).1 = Throw RuntimeError \/
  exists u, (exec (OAddEq (Some a) (Some b)) h).1 = UB u /\ step_ub u.
Proof. exact @addeq_refused. Qed.
Print Assumptions C41_refuses.
Example C41_refuses_example :
  tensor_at demo 0 (rec 0) (arr 0) /\ tensor_at demo 3 (rec 3) (arr 3) /\ ~ accepts (shape (rec 0)) (shape (rec 3)) /\
  shape (rec 0) = [2; 3] /\ shape (rec 3) = [2; 2] /\ (exec (OAddEq #0 #3) demo).1 = Throw RuntimeError.
Proof. do 2 (split; [demo_at|]). split; [decide_it|]. split_and!; vm. Qed.

(** C52: a tracked tensor. If an element beats the first cell [x0] of the buffer, the result
    is the extremum, and the slopes kept for backward are 1 there and 0 elsewhere; what
    backward makes of them is C45. Otherwise the call throws, unless the tensor is
    0-dimensional.
    Partial: the property excludes no tensor but empty ones. *)
Theorem C52_max_partial : forall {fo : FOps} h t r v x0,
  tensor_at h t r v -> t_rg r = true -> fits (t_dt r) (shape r) -> first_cell h r x0 -> ordered (x0 :: row_elems (shape r) v) ->
  ((exists idx, in_range (shape r) idx /\ val_le (v idx) x0 = false) ->
     exists best t' h', in_range (shape r) best /\ (forall idx, in_range (shape r) idx -> val_le (v idx) (v best) = true) /\
       exec (OMax (Some t)) h = (Ok (RHandle (Some t')), h') /\ new_tensor h h' t' (t_dt r) [] true (fun _ => v best) /\
       slopes_at h' t' t (shape r) best) /\
  (shape r <> [] -> (forall idx, in_range (shape r) idx -> val_le (v idx) x0 = true) ->
     exists h', exec (OMax (Some t)) h = (Throw RuntimeError, h')).
Proof. exact @max_tracked_part. Qed.
Print Assumptions C52_max_partial.
Theorem C52_min_partial : forall {fo : FOps} h t r v x0,
  tensor_at h t r v -> t_rg r = true -> fits (t_dt r) (shape r) -> first_cell h r x0 -> ordered (x0 :: row_elems (shape r) v) ->
  ((exists idx, in_range (shape r) idx /\ val_le x0 (v idx) = false) ->
     exists best t' h', in_range (shape r) best /\ (forall idx, in_range (shape r) idx -> val_le (v best) (v idx) = true) /\
       exec (OMin (Some t)) h = (Ok (RHandle (Some t')), h') /\ new_tensor h h' t' (t_dt r) [] true (fun _ => v best) /\
       slopes_at h' t' t (shape r) best) /\
  (shape r <> [] -> (forall idx, in_range (shape r) idx -> val_le x0 (v idx) = true) ->
     exists h', exec (OMin (Some t)) h = (Throw RuntimeError, h')).
Proof. exact @min_tracked_part. Qed.
Print Assumptions C52_min_partial.
(** the slices [1, 4, 2] and [1, 2] of a tracked [3, 1, 4, 2] *)
Example C52_parts_example : let h := after part_tracked in
  reachable h /\ tensor_at h 1 (rec_of h 1) (contents h (rec_of h 1)) /\ tensor_at h 4 (rec_of h 4) (contents h (rec_of h 4)) /\
  t_rg (rec_of h 1) = true /\ t_rg (rec_of h 4) = true /\ fits (t_dt (rec_of h 1)) (shape (rec_of h 1)) /\
  fits (t_dt (rec_of h 4)) (shape (rec_of h 4)) /\ first_cell h (rec_of h 1) (f64 3) /\ first_cell h (rec_of h 4) (f64 3) /\
  ordered (f64 3 :: row_elems (shape (rec_of h 1)) (contents h (rec_of h 1))) /\
  ordered (f64 3 :: row_elems (shape (rec_of h 4)) (contents h (rec_of h 4))) /\
  row_elems (shape (rec_of h 1)) (contents h (rec_of h 1)) = map f64 [1; 4; 2] /\
  row_elems (shape (rec_of h 4)) (contents h (rec_of h 4)) = map f64 [1; 2] /\
  (exec (OMax #1) h).1 = Ok (RHandle #6) /\ elems (exec (OMax #1) h).2 6 = Some [f64 4] /\
  elems (exec (OMax #1) h).2 7 = Some (map f64 [0; 1; 0]) /\ (exec (OMax #4) h).1 = Throw RuntimeError.
Proof. exact ex52. Qed.

(** C55: the number of bytes is computed modulo 2^64. If that exceeds what can be allocated,
    the call throws, and changes nothing that existed; otherwise the buffer gets that many
    bytes, whatever the shape.
    Partial: the property asks that the shape be rejected in the second case too. *)
Theorem C55_throws_partial : forall {fo : FOps} h o dt ss,
  requested o = Some (dt, ss) -> alloc_max < (size_of dt * size_prod ss) mod 2 ^ 64 ->
  exists h', exec o h = (Throw BadAlloc, h') /\ extends h h'.
Proof. exact @too_large_throws. Qed.
Print Assumptions C55_throws_partial.
Theorem C55_wraps : forall {fo : FOps} h dt ss, (size_of dt * size_prod ss) mod 2 ^ 64 <= alloc_max ->
  exists t h' r x cs, exec (ONew ss dt) h = (Ok (RHandle (Some t)), h') /\ h_ten h' !! t = Some r /\ shape r = ss /\
    h_sto h' !! t_sto r = Some x /\ sto_blob x = Some cs /\
    Z.of_nat (length cs) = (size_of dt * size_prod ss) mod 2 ^ 64 / size_of dt.
Proof. exact @new_wraps. Qed.
Print Assumptions C55_wraps.
Example C55_example : requested (OZeros [2 ^ 40; 2 ^ 20] I16) = Some (I16, [2 ^ 40; 2 ^ 20]) /\
  alloc_max < (size_of I16 * size_prod [2 ^ 40; 2 ^ 20]) mod 2 ^ 64 /\
  (size_of I16 * size_prod [2 ^ 31 + 1; 2 ^ 32]) mod 2 ^ 64 = 2 ^ 33 /\ 2 ^ 33 <= alloc_max.
Proof. split; [vm|]. split; [done|]. split; [vm|]. done. Qed.

(** C56: a += b is right for overlapping views, too, if no element of a is written before the
    element of b at the same place has been read for a later one.
    Partial: the property excludes no overlap. *)
Theorem C56_partial : forall {fo : FOps} h a b ra rb va vb,
  tensor_at h a ra va -> tensor_at h b rb vb -> lay_inj (t_lay ra) ->
  t_rg ra = false -> compatible (shape ra) (shape rb) -> no_zero_one (shape ra) (shape rb) ->
  bshape (shape ra) (shape rb) = shape ra ->
  (t_sto ra = t_sto rb -> forall i j, in_range (shape ra) i -> in_range (shape ra) j ->
     row_major (shape ra) i < row_major (shape ra) j -> pos (t_lay ra) i <> pos (t_lay rb) (bidx (shape rb) j)) ->
  let e idx := add_step (t_dt ra) (t_dt rb) (va idx) (vb (bidx (shape rb) idx)) in
  (forall w, (forall idx, in_range (shape ra) idx -> e idx = Some (w idx)) ->
     exists h', exec (OAddEq (Some a) (Some b)) h = (Ok RUnit, h') /\ wrote h h' ra w) /\
  ((exists idx, in_range (shape ra) idx /\ e idx = None) ->
     exists u h', exec (OAddEq (Some a) (Some b)) h = (UB u, h') /\ step_ub u).
Proof. exact @addeq_apart. Qed.
Print Assumptions C56_partial.
(** x = [1, 2, 3, 4]; x[:-1] += x[1:] *)
Example C56_parts_example : let h := after part_over in
  reachable h /\ tensor_at h 1 (rec_of h 1) (contents h (rec_of h 1)) /\ tensor_at h 2 (rec_of h 2) (contents h (rec_of h 2)) /\
  lay_inj (t_lay (rec_of h 1)) /\ t_rg (rec_of h 1) = false /\ shape (rec_of h 1) = [3] /\ shape (rec_of h 2) = [3] /\
  t_sto (rec_of h 1) = t_sto (rec_of h 2) /\
  (forall i j, in_range [3] i -> in_range [3] j -> row_major [3] i < row_major [3] j ->
     pos (t_lay (rec_of h 1)) i <> pos (t_lay (rec_of h 2)) (bidx [3] j)) /\
  elems (exec (OAddEq #1 #2) h).2 0 = Some (map VI [3; 5; 7; 4]).
Proof. exact ex56. Qed.

(** C41, C56: what += does for any two operands, overlapping or not, whatever their shapes and
    layouts: a single pass over the indices of the larger shape in row-major order, which
    reads both cells, adds, and writes, and which throws at the first index outside one of
    the operands, leaving what has been written. *)
Theorem C56_pass : forall {fo : FOps} h a b ra rb va vb,
  tensor_at h a ra va -> tensor_at h b rb vb -> t_rg ra = false ->
  match add_pass ra rb (indices (larger_shape (shape ra) (shape rb))) (memory_of h) with
  | Done m => exists h', exec (OAddEq (Some a) (Some b)) h = (Ok RUnit, h') /\ memory_now h h' (t_sto ra) m
  | Refused m => exists h', exec (OAddEq (Some a) (Some b)) h = (Throw RuntimeError, h') /\ memory_now h h' (t_sto ra) m
  | Undefined => exists u h', exec (OAddEq (Some a) (Some b)) h = (UB u, h') /\ step_ub u
  end.
Proof. exact @addeq_pass. Qed.
Print Assumptions C56_pass.
(** x = [1, 2, 3, 4]; x[1:] += x[:-1] gives running sums; x[:-1] += x throws after three
    additions *)
Example C56_pass_example : let h := after part_over in
  reachable h /\ tensor_at h 0 (rec_of h 0) (contents h (rec_of h 0)) /\ tensor_at h 1 (rec_of h 1) (contents h (rec_of h 1)) /\
  tensor_at h 2 (rec_of h 2) (contents h (rec_of h 2)) /\ t_rg (rec_of h 1) = false /\ t_rg (rec_of h 2) = false /\
  match add_pass (rec_of h 2) (rec_of h 1) (indices (larger_shape [3] [3])) (memory_of h) with
  | Done m => Some (map (m (t_sto (rec_of h 0))) [0; 1; 2; 3]) | _ => None end = Some (map (fun z => Some (VI z)) [1; 3; 6; 10]) /\
  match add_pass (rec_of h 1) (rec_of h 0) (indices (larger_shape [3] [4])) (memory_of h) with
  | Refused m => Some (map (m (t_sto (rec_of h 0))) [0; 1; 2; 3]) | _ => None end = Some (map (fun z => Some (VI z)) [2; 4; 6; 4]).
Proof. exact ex56_pass. Qed.
