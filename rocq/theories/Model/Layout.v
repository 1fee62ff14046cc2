(** layouts.hpp / layouts.cpp: strided layouts. *)
From Verif.Model Require Export Types.

(** layouts.hpp:15-51  class Layout { SizeVec sizes; } and
    class StridedLayout { SignedVec strides; size_t offset; }.
    [sizes] and [offset] are size_t, [strides] long long. Layout objects are shared
    by pointer but never mutated after construction, so they are plain values here.
    The [sparse] layout of layouts.hpp:9 is never constructed by the library. *)
Record layout := Lay { sizes : list Z; strides : list Z; offset : Z }.
Global Instance layout_eq_dec : EqDecision layout.
Proof. solve_decision. Defined.

(** layouts.cpp:19 Layout::dim *)
Definition ldim (l : layout) : nat := length (sizes l).

(** layouts.cpp:21-26 Layout::numel (size_t product, wraps) *)
Definition numel_of (ss : list Z) : Z := fold_left (fun n s => u64 (n * s)) ss 1.
Definition lnumel (l : layout) : Z := numel_of (sizes l).

(** layouts.cpp:30-39: strides[sn-1] = 1; strides[idx-1] = strides[idx]*sizes[idx]
    (long long * size_t is a size_t product, stored back into a long long).
    The downward loop is written as recursion on the shape. *)
Fixpoint contig_strides (ss : list Z) : list Z :=
  match ss with
  | [] => []
  | _ :: r =>
      match r with
      | [] => [1]
      | s' :: _ =>
          let st := contig_strides r in
          s64 (u64 (nth 0 st 0 * s')) :: st
      end
  end.
Definition contig (ss : list Z) : layout := Lay ss (contig_strides ss) 0.

(** layouts.cpp:54-58: pos = offset; pos += strides[i] * index[i], all size_t *)
Fixpoint cnt_loop (pos : Z) (st idx : list Z) : outcome Z :=
  match idx with
  | [] => Ok pos
  | i :: idx' =>
      match st with
      | [] => UB OutOfBounds                 (* strides[i] past the vector *)
      | s :: st' => cnt_loop (u64 (pos + u64 (s * i))) st' idx'
      end
  end.
(** layouts.cpp:52-59 StridedLayout::cnt_from_index *)
Definition cnt_from_index (l : layout) (idx : list Z) : outcome Z :=
  let? _ := orun_expect (Nat.eqb (length idx) (ldim l)) in
  cnt_loop (offset l) (strides l) idx.

(** tensorImpl.cpp:20-36 TensorImpl::cnt_from_aug_index, first part: compute
    phy_index. The C++ loop runs i = 1..phy_dim over sizes[phy_dim-i] and
    index[idx_dim-i]; here both vectors are walked reversed. *)
Fixpoint aug_rev (rsizes rindex : list Z) : outcome (list Z) :=
  match rsizes with
  | [] => Ok []
  | s :: rs =>
      if negb (s =? 1) then
        match rindex with
        | [] => UB OutOfBounds               (* index[idx_dim - i] with i > idx_dim *)
        | i :: ri =>
            let? _ := orun_expect (i <? s) in
            let? rest := aug_rev rs ri in
            Ok (i :: rest)
        end
      else
        let? rest := aug_rev rs (tail rindex) in
        Ok (0 :: rest)
  end.
Definition cnt_from_aug_index (l : layout) (idx : list Z) : outcome Z :=
  let? r := aug_rev (rev (sizes l)) (rev idx) in
  cnt_from_index l (rev r).

(** layouts.cpp:92-100 StridedLayout::is_contiguous: from the last dimension down,
    step == strides[d], step *= sizes[d] *)
Fixpoint contiguous_rev (step : Z) (rstrides rsizes : list Z) : bool :=
  match rsizes, rstrides with
  | [], _ => true
  | n :: rn, s :: rs => if step =? s then contiguous_rev (s64 (u64 (step * n))) rs rn else false
  | _ :: _, [] => false    (* strides shorter than sizes: not constructible *)
  end.
Definition is_contiguous (l : layout) : bool :=
  contiguous_rev 1 (rev (firstn (ldim l) (strides l))) (rev (sizes l)).
