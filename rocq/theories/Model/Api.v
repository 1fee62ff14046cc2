(** tensor.cpp / tensor.hpp: the public API over handles, and histories of calls. *)
From Verif.Model Require Export Autograd.

Section with_fops.
Context {fo : FOps}.

(** layouts.cpp:61-82 to_string_from_helper. [off] is the byte offset (ptrdiff_t;
    the sums are size_t and wrap). Buffers are typed in the model, so the final
    dereference reads cell off / size_of. *)
Definition load_byte_off (dt : dtype) (s : nat) (off : Z) : E val :=
  if off mod size_of dt =? 0 then load dt s (off / size_of dt) else mub OutOfBounds.
Fixpoint join_strs (l : list string) : string :=
  match l with
  | [] => ""
  | [s] => s
  | s :: r => s +:+ ", " +:+ join_strs r
  end.
Fixpoint collect {A} (l : list Z) (f : Z -> E A) : E (list A) :=
  match l with
  | [] => mret []
  | i :: r => let! x := f i in let! xs := collect r f in mret (x :: xs)
  end.
Fixpoint to_string_helper (dt : dtype) (s : nat) (ss sts : list Z) (off : Z) : E string :=
  match ss with
  | [] => let! v := load_byte_off dt s off in mret (val_str v)
  | n :: ss' =>
      match sts with
      | [] => if n =? 0 then mret "[]" else mub OutOfBounds
      | st :: sts' =>
          let! parts := collect (seqZ 0 n) (fun i =>
            to_string_helper dt s ss' sts' (s64 (u64 (off + i * st * size_of dt)))) in
          mret ("[" +:+ join_strs parts +:+ "]")
      end
  end.
(** layouts.cpp:84-90, tensorImpl.cpp:66-68 *)
Definition impl_to_string (t : nat) : E string :=
  let! r := get_ten t in
  to_string_helper (t_dt r) (t_sto r) (sizes (t_lay r)) (strides (t_lay r))
    (s64 (u64 (offset (t_lay r) * size_of (t_dt r)))).

(** tensor.hpp:125-174 TensorInit: a brace list of numbers of one element type, or a
    brace list of TensorInits. *)
Inductive tinit :=
  | TLeaf (dt : dtype) (xs : list val)
  | TNode (ts : list tinit).
(** The members shape, dtype (None: never assigned), data. *)
Record spec := Spec { sp_shape : list Z; sp_dt : option dtype; sp_data : list val }.
(** tensor.hpp:129-132 is_same_spec, with short-circuit; reading an unassigned
    dtype is undefined. *)
Definition is_same_spec (l r : spec) : outcome bool :=
  if bool_decide (sp_shape l = sp_shape r) then
    match sp_dt l, sp_dt r with
    | Some a, Some b => Ok (bool_decide (a = b))
    | _, _ => UB Uninit
    end
  else Ok false.
(** std::all_of *)
Fixpoint all_same (first : spec) (l : list spec) : outcome bool :=
  match l with
  | [] => Ok true
  | x :: r =>
      let? b := is_same_spec x first in
      if b : bool then all_same first r else Ok false
  end.
(** tensor.hpp:152-174 *)
Definition node_spec (subs : list spec) : outcome spec :=
  match subs with
  | [] => Ok (Spec [] None [])
  | first :: _ =>
      let? b := all_same first subs in
      if b : bool then
        Ok (Spec (Z.of_nat (length subs) :: sp_shape first) (sp_dt first)
                 (List.concat (map sp_data subs)))
      else Throw InvalidArgument
  end.
(** tensor.hpp:142-150 (leaf) and 152-174 (node); arguments are built first *)
Fixpoint tinit_spec (t : tinit) : outcome spec :=
  match t with
  | TLeaf dt xs => Ok (Spec [Z.of_nat (length xs)] (Some dt) xs)
  | TNode ts =>
      let? subs := (fix go (ts : list tinit) : outcome (list spec) :=
                      match ts with
                      | [] => Ok []
                      | t :: r => let? s := tinit_spec t in
                                  let? ss := go r in Ok (s :: ss)
                      end) ts in
      node_spec subs
  end.
(** tensor.cpp:216-222 createImpl; None is the null handle *)
Definition create_impl (s : spec) : E (option nat) :=
  match sp_shape s with
  | [] => mret None
  | _ =>
      let! dt := lift (match sp_dt s with Some d => Ok d | None => UB Uninit end) in
      let! t := create dt (contig (sp_shape s)) false in
      let! r := get_ten t in
      let! st := get_sto (t_sto r) in
      set_sto (t_sto r) (Sto (sto_ty st) (sto_bytes st) (Some (map Some (sp_data s)))) ;;;
      mret (Some t)
  end.

(** A Tensor object holds a shared_ptr<TensorImpl> (tensor.hpp:28); null is None. *)
Notation handle := (option nat).

(** The public API. Handles are the tensor ids returned by earlier calls. *)
Inductive op :=
  | OScalar (dt : dtype) (v : val)                (* tensor.cpp:14-19 *)
  | ONew (ss : list Z) (dt : dtype)               (* tensor.cpp:28-29 *)
  | OInit (t : tinit)                             (* tensor.cpp:20, 24-27 *)
  | OZeros (ss : list Z) (dt : dtype)             (* tensor.cpp:44 *)
  | OOnes (ss : list Z) (dt : dtype)              (* tensor.cpp:48 *)
  | OZerosLike (a : handle)                       (* tensor.cpp:52 *)
  | OOnesLike (a : handle)                        (* tensor.cpp:56 *)
  | OFullInt (ss : list Z) (n : Z) (dt : dtype)   (* tensor.cpp:208 *)
  | OFullDouble (ss : list Z) (x : F) (dt : dtype) (* tensor.cpp:212 *)
  | OEye (n m : Z) (dt : dtype)                   (* tensor.cpp:60-65 *)
  | OFromBlob (d : list val) (ss : list Z) (dt : dtype) (* tensor.cpp:67 *)
  | ORandn (ss : list Z) (dt : dtype) (samples : list F) (* tensor.cpp:193 *)
  | ORandnLike (a : handle) (samples : list F)    (* tensor.cpp:197 *)
  | OAdd (a b : handle) | OSub (a b : handle)     (* tensor.cpp:84-90 *)
  | OMul (a b : handle) | ODiv (a b : handle)     (* tensor.cpp:96-102 *)
  | OPos (a : handle) | ONeg (a : handle)         (* tensor.cpp:92-94 *)
  | OCmp (c : cop) (a b : handle)                 (* tensor.cpp:169-191 *)
  | OAddEq (a b : handle)                         (* tensor.cpp:79 *)
  | OTypeTo (a : handle) (dt : dtype)             (* tensor.cpp:77 *)
  | OSlice (a : handle) (s : list ascii)          (* tensor.cpp:134 *)
  | OTranspose (a : handle) (d0 d1 : Z)           (* tensor.cpp:138-146 *)
  | OReshape (a : handle) (ss : list Z)           (* tensor.cpp:148-154 *)
  | OReshapeAs (a b : handle)                     (* tensor.cpp:156 *)
  | OCat (ts : list handle) (dim : Z)             (* tensor.cpp:201 *)
  | OSum (a : handle) | OMean (a : handle)        (* tensor.cpp:122-124 *)
  | OAbs (a : handle) | OMax (a : handle) | OMin (a : handle) (* tensor.cpp:126-130 *)
  | OContiguous (a : handle) | OClone (a : handle) | ODetach (a : handle) (* 161-165 *)
  | OGrad (a : handle)                            (* tensor.cpp:116 *)
  | OBackward (a : handle)                        (* tensor.cpp:32 *)
  | OZeroGrad (a : handle)                        (* tensor.cpp:132 *)
  | ORequires (a : handle) (b : bool)             (* tensor.cpp:106 *)
  | ORetain (a : handle) (b : bool)               (* tensor.cpp:114 *)
  | ORelease (a : handle)                         (* tensor.cpp:73 *)
  (* queries *)
  | QAll (a : handle)                             (* tensor.cpp:167 *)
  | QToString (a : handle)                        (* tensor.cpp:34 *)
  | QSize (a : handle)                            (* tensor.cpp:40 *)
  | QStride (a : handle)                          (* tensor.cpp:42 *)
  | QNumel (a : handle)                           (* tensor.cpp:71 *)
  | QType (a : handle)                            (* tensor.cpp:75 *)
  | QRequires (a : handle)                        (* tensor.cpp:104 *)
  | QRetain (a : handle)                          (* tensor.cpp:113 *)
  | QContiguous (a : handle).                     (* tensor.cpp:160 *)

Inductive ret :=
  | RHandle (h : handle) | RUnit | RBool (b : bool) | RString (s : string)
  | RSizes (l : list Z) | RInt (n : Z) | RType (t : dtype).

Definition new_handle (m : E nat) : E ret := let! t := m in mret (RHandle (Some t)).
Definition no_result (m : E unit) : E ret := m ;;; mret RUnit.
(** unary / binary member calls: a null fptr is dereferenced *)
Definition un (a : handle) (f : nat -> E nat) : E ret :=
  let! x := deref a in new_handle (f x).
Definition bin (a b : handle) (f : nat -> nat -> E nat) : E ret :=
  let! x := deref a in let! y := deref b in new_handle (f x y).
(** tensor.cpp:201-206 passes the pointers on. tensorImpl.cpp:809-821 meets a null one after
    it has checked [dim] and the inputs [xs] before. *)
Definition before_null (xs : list nat) (dim : Z) : E unit :=
  let! rs := get_all xs in
  match rs with
  | [] => mret tt
  | r0 :: rest =>
      let s0 := sizes (t_lay r0) in
      run_expect ((0 <=? dim) && (dim <? Z.of_nat (length s0))) ;;;
      run_expect (forallb (fun r => cat_compatible (Z.to_nat dim) s0 (sizes (t_lay r))) rest)
  end.
Fixpoint deref_all (xs : list nat) (ts : list handle) (dim : Z) : E (list nat) :=
  match ts with
  | [] => mret xs
  | None :: _ => before_null xs dim ;;; mub NullDeref
  | Some x :: r => deref_all (xs ++ [x]) r dim
  end.
(** tensor.cpp:106-111 *)
Definition set_requires_grad (t : nat) (b : bool) : E unit :=
  let! r := get_ten t in
  (if b then run_expect (is_float (t_dt r)) else mret tt) ;;;
  set_ten t (with_rg r b).
Definition query (a : handle) (f : tensor -> ret) : E ret :=
  let! x := deref a in let! r := get_ten x in mret (f r).

Definition exec (o : op) : E ret :=
  match o with
  | OScalar dt v => new_handle (create_scalar dt v)
  | ONew ss dt => new_handle (create dt (contig ss) true)
  | OInit t => let! s := lift (tinit_spec t) in let! x := create_impl s in mret (RHandle x)
  | OZeros ss dt => new_handle (zeros ss dt)
  | OOnes ss dt => new_handle (ones ss dt)
  | OZerosLike a => un a zeros_like
  | OOnesLike a => un a ones_like
  | OFullInt ss n dt => new_handle (full_int ss n dt)
  | OFullDouble ss x dt => new_handle (full_double ss x dt)
  | OEye n m dt => new_handle (eye n m dt)
  | OFromBlob d ss dt => new_handle (from_blob d ss dt)
  | ORandn ss dt xs => new_handle (op_randn ss dt xs)
  | ORandnLike a xs =>
      un a (fun t => let! r := get_ten t in op_randn (sizes (t_lay r)) (t_dt r) xs)
  | OAdd a b => bin a b op_add
  | OSub a b => bin a b op_sub
  | OMul a b => bin a b op_mul
  | ODiv a b => bin a b op_div
  | OPos a => un a op_pos
  | ONeg a => un a op_neg
  | OCmp c a b => bin a b (op_cmp c)
  | OAddEq a b => let! x := deref a in let! y := deref b in no_result (op_addeq x y)
  | OTypeTo a dt => un a (fun t => to_dtype t dt)
  | OSlice a s => un a (fun t => op_slice t s)
  | OTranspose a i j => un a (fun t => op_transpose t i j)
  | OReshape a ss => un a (fun t => op_reshape t ss)
  | OReshapeAs a b => bin a b op_reshape_as
  | OCat ts dim => let! xs := deref_all [] ts dim in new_handle (op_cat xs dim)
  | OSum a => un a op_sum
  | OMean a => un a op_mean
  | OAbs a => un a op_abs
  | OMax a => un a op_max
  | OMin a => un a op_min
  | OContiguous a => un a op_contiguous
  | OClone a => un a op_clone
  | ODetach a => un a op_detach
  | OGrad a => query a (fun r => RHandle (t_grad r))
  | OBackward a => let! x := deref a in no_result (backward x)
  | OZeroGrad a => let! x := deref a in no_result (zero_grad x)
  | ORequires a b => let! x := deref a in no_result (set_requires_grad x b)
  | ORetain a b =>
      let! x := deref a in let! r := get_ten x in no_result (set_ten x (with_ret r b))
  | ORelease a =>
      let! x := deref a in let! r := get_ten x in no_result (sto_release (t_sto r))
  | QAll a => let! x := deref a in let! b := op_all x in mret (RBool b)
  | QToString a =>
      match a with
      | None => mret (RString "[]")
      | Some x => let! s := impl_to_string x in mret (RString s)
      end
  | QSize a => query a (fun r => RSizes (sizes (t_lay r)))
  | QStride a => let! x := deref a in let! l := op_stride x in mret (RSizes l)
  | QNumel a => query a (fun r => RInt (lnumel (t_lay r)))
  | QType a => query a (fun r => RType (t_dt r))
  | QRequires a => query a (fun r => RBool (t_rg r))
  | QRetain a => query a (fun r => RBool (t_ret r))
  | QContiguous a => query a (fun r => RBool (is_contiguous (t_lay r)))
  end.

(** A client program: calls in sequence. A call that throws leaves its partial
    effects and the client may go on; undefined behaviour ends the run. *)
Fixpoint run (h : heap) (ops : list op) : outcome (list (outcome ret)) * heap :=
  match ops with
  | [] => (Ok [], h)
  | o :: rest =>
      match exec o h with
      | (UB u, h') => (UB u, h')
      | (Diverge, h') => (Diverge, h')
      | (r, h') =>
          match run h' rest with
          | (Ok rs, h'') => (Ok (r :: rs), h'')
          | x => x
          end
      end
  end.
End with_fops.
Notation handle := (option nat).
