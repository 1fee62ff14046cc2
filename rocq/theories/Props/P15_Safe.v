(** Memory safety. *)
From Verif.Proofs Require Import SafeEx.

(** C54: a history of careful calls makes no memory error: no access outside a buffer, through
    a null one, at the wrong type, or to memory never initialised. What it may still do is
    throw, or overflow, divide by zero or convert out of range. It ends, too. [careful] is in
    Spec/Safe.v; what it asks besides live handles and sizes that make sense is owed to
    defects of the library.
    Partial: the property speaks of documented preconditions only. *)
Theorem C54_safe_partial : forall {fo : FOps} ops, careful_run empty_heap [] ops ->
  match run empty_heap ops with
  | (Ok _, _) => True
  | (UB u, _) => ~ memory_error u
  | _ => False
  end.
Proof. exact @careful_history. Qed.
Print Assumptions C54_safe_partial.
(** views, backward twice, quotients, in-place addition, cat, throwing calls *)
Example C54_example : careful_run empty_heap [] careful_ops /\
  match run empty_heap careful_ops with
  | (Ok rs, _) => rs !! 8%nat = Some (Ok (RString "[2.000000, 0.000000, 6.000000, 8.000000, 0.000000, 12.000000]")) /\
      rs !! 9%nat = Some (Throw RuntimeError) /\ rs !! 27%nat = Some (Throw RuntimeError)
  | _ => False
  end.
Proof. exact careful_example. Qed.

(** C54: most of what [careful] asks is needed: histories of calls, all but one careful, each
    of which ends in a memory error. *)
Theorem C54_needed : Forall (fun '(k, ops) => careful_except k empty_heap [] ops /\
  exists u h, run empty_heap ops = (UB u, h) /\ memory_error u) one_bad_call.
Proof. exact one_bad_call_matters. Qed.
Print Assumptions C54_needed.
Example C54_needed_example : length one_bad_call = 20%nat.
Proof. reflexivity. Qed.

(** abs() of a slice; backward from a quotient by a constant; backward twice through a slice *)
Theorem C54_refuted :
  ends_badly [ivec [1; -2; 3]; OSlice #0 (chars "1:"); OAbs #1] /\
  ends_badly [Refute2.vec [1; 2]; ORequires #0 true; Refute2.vec [3; 4]; ODiv #0 #1; OSum #2; OBackward #3] /\
  ends_badly [Refute2.vec [1; 2; 3]; ORequires #0 true; OSlice #0 (chars "1:"); OSum #1; OBackward #4; OBackward #4].
Proof. exact safe_refuted. Qed.
Print Assumptions C54_refuted.
