(** In-place addition. *)
From Verif.Spec Require Export Result.

Section with_fops.
Context {fo : FOps}.

(** the C++ type in which two operands are combined *)
Definition usual (L R : dtype) : dtype :=
  if floating L || floating R then common_float L R
  else if common_width L R =? 64 then I64 else I32.
(** value of an object [x : L] after x = x + y with [y : R]; None if undefined *)
Definition add_step (L R : dtype) (x y : val) : option val :=
  match cpp_arith AAdd L R (usual L R) x y with
  | Some z => cpp_cvt (usual L R) L z
  | None => None
  end.
(** ... after adding every value of a list in turn *)
Fixpoint add_all (L R : dtype) (x : val) (ys : list val) : option val :=
  match ys with
  | [] => Some x
  | y :: r => match add_step L R x y with Some x' => add_all L R x' r | None => None end
  end.

(** The elements of an array [v] of shape [sb] that broadcasting against shape [sa] puts
    on index [idx] of [sa], in row-major order of the common shape. *)
Definition onto (sa sb : list Z) (v : list Z -> val) (idx : list Z) : list val :=
  map (fun sv => v (bidx sb sv)) (filter (fun sv => bidx sa sv = idx) (indices (bshape sa sb))).

(** From [h] to [h'] the elements of [r] became [w]; every tensor on the same buffer sees
    the new values in the cells it shares with [r]; no other cell changed. *)
Definition wrote (h h' : heap) (r : tensor) (w : list Z -> val) : Prop :=
  h_ten h' = h_ten h /\
  (forall s, s <> t_sto r -> h_sto h' !! s = h_sto h !! s) /\
  holds h' r w /\
  forall r' j, t_sto r' = t_sto r ->
    (forall idx, in_range (shape r) idx -> pos (t_lay r') j = pos (t_lay r) idx ->
       elem h' r' j = Some (w idx)) /\
    ((forall idx, in_range (shape r) idx -> pos (t_lay r') j <> pos (t_lay r) idx) ->
       elem h' r' j = elem h r' j).

(** undefined element arithmetic, including a floating result that does not fit the
    integer type it is stored in *)
Definition step_ub (u : ub) : Prop := arith_ub u \/ u = FloatRange.
End with_fops.
