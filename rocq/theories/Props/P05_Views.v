(** Transpose, detach, contiguity. *)
From Verif.Proofs Require Import Track Refute2.

(** C19: transpose. [new_view]: a new tensor on the same buffer whose element at [idx] is
    the cell of the source's element at [exchange i j idx]. *)
Theorem C19_transpose : forall {fo : FOps} h t r d0 d1,
  reachable h -> h_ten h !! t = Some r -> lay_ok (t_lay r) ->
  0 <= d0 < Z.of_nat (length (shape r)) -> 0 <= d1 < Z.of_nat (length (shape r)) -> d0 <> d1 ->
  exists t' h', exec (OTranspose (Some t) d0 d1) h = (Ok (RHandle (Some t')), h') /\
    new_view h h' r t' (exchange (Z.to_nat d0) (Z.to_nat d1) (shape r))
      (exchange (Z.to_nat d0) (Z.to_nat d1)) (t_rg r).
Proof. exact @transpose_view. Qed.
Print Assumptions C19_transpose.
Theorem C19_twice : forall {fo : FOps} h t r d0 d1,
  reachable h -> h_ten h !! t = Some r -> lay_ok (t_lay r) ->
  0 <= d0 < Z.of_nat (length (shape r)) -> 0 <= d1 < Z.of_nat (length (shape r)) -> d0 <> d1 ->
  exists t' t'' h' h'' r'', exec (OTranspose (Some t) d0 d1) h = (Ok (RHandle (Some t')), h') /\
    exec (OTranspose (Some t') d0 d1) h' = (Ok (RHandle (Some t'')), h'') /\
    h_ten h'' !! t'' = Some r'' /\ same_data r r''.
Proof. exact @transpose_twice. Qed.
Print Assumptions C19_twice.
Theorem C19_reject : forall {fo : FOps} h t r d0 d1,
  h_ten h !! t = Some r ->
  ~ (0 <= d0 < Z.of_nat (length (shape r))) \/ ~ (0 <= d1 < Z.of_nat (length (shape r))) \/ d0 = d1 ->
  exec (OTranspose (Some t) d0 d1) h = (Throw RuntimeError, h).
Proof. exact @transpose_reject. Qed.
Print Assumptions C19_reject.

(** the reversed view 1 of the demo history *)
Example C19_example :
  let h := after demo_ops in let r := rec_of h 1 in
  let h' := (exec (OTranspose (Some 1%nat) 0 1) h).2 in
  reachable h /\ h_ten h !! 1%nat = Some r /\ lay_ok (t_lay r) /\ shape r = [2; 2] /\
  exchange 0 1 [5; 6; 7] = [6; 5; 7] /\
  (exec (OTranspose (Some 1%nat) 0 1) h).1 = Ok (RHandle (Some 9%nat)) /\
  row_elems [2; 2] (contents h r) = map VI [3; 1; 6; 4] /\
  row_elems [2; 2] (contents h' (rec_of h' 9)) = map VI [3; 6; 1; 4].
Proof. cbv zeta. split; [reached|]. split; [vm|]. split; [decide_it|]. split_and!; vm. Qed.

(** C23: detach. The elements stay equal whatever is called later. *)
Theorem C23_detach : forall {fo : FOps} h t r, reachable h -> h_ten h !! t = Some r ->
  exists t' h' r', exec (ODetach (Some t)) h = (Ok (RHandle (Some t')), h') /\
    h_ten h !! t' = None /\ h_ten h' !! t' = Some r' /\ same_data r r' /\
    t_rg r' = false /\ t_fn r' = None /\ t_grad r' = None /\
    forall ops, elems (run h' ops).2 t' = elems (run h' ops).2 t.
Proof. exact @detach_shares. Qed.
Print Assumptions C23_detach.

(** the tracked tensor 6, detached (9), and added to *)
Example C23_example :
  let h := after demo_ops in
  let h' := (exec (ODetach (Some 6%nat)) h).2 in
  reachable h /\ t_rg (rec_of h 6) = true /\
  (exec (ODetach (Some 6%nat)) h).1 = Ok (RHandle (Some 9%nat)) /\
  elems h' 6 = Some (map f64 [1; 2; -3]) /\
  elems (run h' [OAddEq (Some 9%nat) (Some 8%nat)]).2 6 = Some (map f64 [4; 5; 0]).
Proof. cbv zeta. split; [reached|]. split_and!; vm. Qed.

(** C24: contiguity. [row_major ss idx] is the rank of [idx] in the row-major order. *)
Theorem C24_sound : forall {fo : FOps} h r cs idx,
  backed h r cs -> is_contiguous (t_lay r) = true -> in_range (shape r) idx ->
  pos (t_lay r) idx = offset (t_lay r) + row_major (shape r) idx.
Proof. exact @is_contiguous_sound. Qed.
Print Assumptions C24_sound.
Theorem C24_fresh : forall {fo : FOps} o h u h',
  reachable h -> makes_fresh o = true -> exec o h = (Ok (RHandle (Some u)), h') ->
  exec (QContiguous (Some u)) h' = (Ok (RBool true), h').
Proof. exact @fresh_contiguous. Qed.
Print Assumptions C24_fresh.

(** a row of tensor 7, which starts in the middle of the buffer, and the reversed view 1 *)
Example C24_example :
  let h := after (demo_ops ++ [OSlice (Some 7%nat) (chars "1")]) in
  (exists cs, backed h (rec_of h 9) cs) /\ is_contiguous (t_lay (rec_of h 9)) = true /\
  offset (t_lay (rec_of h 9)) = 3 /\ shape (rec_of h 9) = [3] /\
  is_contiguous (t_lay (rec_of h 1)) = false /\
  (exec (OClone (Some 1%nat)) h).1 = Ok (RHandle (Some 10%nat)) /\
  makes_fresh (OClone (Some 1%nat)) = true.
Proof.
  cbv zeta. split; [|split_and!; vm].
  assert (tensor_at (after (demo_ops ++ [OSlice (Some 7%nat) (chars "1")])) 9
    (rec_of (after (demo_ops ++ [OSlice (Some 7%nat) (chars "1")])) 9)
    (contents (after (demo_ops ++ [OSlice (Some 7%nat) (chars "1")]))
      (rec_of (after (demo_ops ++ [OSlice (Some 7%nat) (chars "1")])) 9))) as [_ [(cs & Hb) _]] by at_of.
  by exists cs.
Qed.
