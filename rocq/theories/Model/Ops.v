(** ops.hpp: the native kernels, and the dispatch tables of dispatcher.hpp.
    Each kernel takes the element types its template is instantiated at ([L], [R],
    [D], ...) separately from the tensors, as in the C++ code: the dispatch macros
    (dispatcher.hpp:2-163) map enumerators to template arguments one to one, and
    the model reports [BadType] if a buffer is accessed at another type. *)
From Verif.Model Require Export Utils.

Section with_fops.
Context {fo : FOps}.

Definition idx_aug (t : tensor) (sv : list Z) : E Z := lift (cnt_from_aug_index (t_lay t) sv).
Definition idx_exact (t : tensor) (sv : list Z) : E Z := lift (cnt_from_index (t_lay t) sv).
Definition load_aug (T : dtype) (t : tensor) (sv : list Z) : E val :=
  let! p := idx_aug t sv in load T (t_sto t) p.
Definition load_exact (T : dtype) (t : tensor) (sv : list Z) : E val :=
  let! p := idx_exact t sv in load T (t_sto t) p.

(** The common body of tensor_add/sub/mul/div: the element types are [L] and [R],
    the destination is written as type [D]. In an assignment the right-hand side
    is evaluated first (C++17). *)
Definition binary_body (o : aop) (D L R : dtype) (dst l r : tensor) (sv : list Z) : E unit :=
  let! a := load_aug L l sv in
  let! b := load_aug R r sv in
  let! v := lift (binop o L R a b) in
  let! p := idx_aug dst sv in
  store_cvt (prom L R) D (t_sto dst) p v.

(** ops.hpp:11-22 tensor_add<L,R> *)
Definition tensor_add (L R : dtype) (dst l r : tensor) : E unit :=
  let! rg := lift (broadcast_range (sizes (t_lay l)) (sizes (t_lay r))) in
  for_each_sizevec rg (binary_body AAdd L L R dst l r).
(** ops.hpp:24-36 tensor_sub<L,R> *)
Definition tensor_sub (L R : dtype) (dst l r : tensor) : E unit :=
  let! rg := lift (broadcast_range (sizes (t_lay l)) (sizes (t_lay r))) in
  for_each_sizevec rg (binary_body ASub (innc_common L R) L R dst l r).
(** ops.hpp:38-48 tensor_mul<L,R> *)
Definition tensor_mul (L R : dtype) (dst l r : tensor) : E unit :=
  for_each_sizevec (sizes (t_lay dst)) (binary_body AMul L L R dst l r).
(** ops.hpp:50-61 tensor_div<L,R> *)
Definition tensor_div (L R : dtype) (dst l r : tensor) : E unit :=
  for_each_sizevec (sizes (t_lay dst)) (binary_body ADiv (innc_common L R) L R dst l r).

(** ops.hpp:289-359 tensor_lt/gt/le/ge/eq/ne<L,R>: dst is written as char *)
Definition tensor_cmp (c : cop) (L R : dtype) (dst l r : tensor) : E unit :=
  for_each_sizevec (sizes (t_lay dst)) (fun sv =>
    let! a := load_aug L l sv in
    let! b := load_aug R r sv in
    let! v := lift (cmpop c L R a b) in
    let! p := idx_aug dst sv in
    store_cvt I8 I8 (t_sto dst) p (VI (if v : bool then 1 else 0))).

(** ops.hpp:63-78 tensor_fill<T,N> *)
Definition tensor_fill (T N : dtype) (tdata ndata : tensor) : E unit :=
  let! n := load N (t_sto ndata) 0 in
  let! num := lift (cvt N T n) in
  match sizes (t_lay tdata) with
  | [] => store T (t_sto tdata) (offset (t_lay tdata)) num
  | _ => for_each_sizevec (sizes (t_lay tdata)) (fun sv =>
           let! p := idx_exact tdata sv in store T (t_sto tdata) p num)
  end.

(** ops.hpp:80-87 tensor_eye<T>; size(0), size(1) exist since eye builds rank 2 *)
Definition tensor_eye (T : dtype) (tdata : tensor) : E unit :=
  let m := Z.min (nth 0 (sizes (t_lay tdata)) 0) (nth 1 (sizes (t_lay tdata)) 0) in
  mapM_ (fun i => let! p := idx_exact tdata [i; i] in
                  store_cvt I32 T (t_sto tdata) p (VI 1)) (seqZ 0 m).

(** ops.hpp:89-96 tensor_to_type<To,From> and ops.hpp:185-200 tensor_clone<To,From>:
    the same element copy (the layout checks always pass) *)
Definition copy_body (To From : dtype) (dst src : tensor) (sv : list Z) : E unit :=
  let! v := load_exact From src sv in
  let! p := idx_exact dst sv in
  store_cvt From To (t_sto dst) p v.
Definition tensor_to_type (To From : dtype) (dst src : tensor) : E unit :=
  for_each_sizevec (sizes (t_lay dst)) (copy_body To From dst src).
Definition tensor_clone (To From : dtype) (dst src : tensor) : E unit :=
  for_each_sizevec (sizes (t_lay dst)) (copy_body To From dst src).

(** ops.hpp:119 / ops.hpp:156: *to_ptr += from[sv] *)
Definition sum_body (To From : dtype) (dst src : tensor) (sv : list Z) : E unit :=
  let! x := load_exact From src sv in
  let! a := load To (t_sto dst) 0 in
  let! v := lift (binop AAdd To From a x) in
  store_cvt (prom To From) To (t_sto dst) 0 v.

(** ops.hpp:98-130 tensor_sum<To,From> *)
Definition tensor_sum (To From : dtype) (dst src : tensor) : E unit :=
  if lnumel (t_lay src) =? 0 then mret tt
  else match sizes (t_lay src) with
       | [] =>
           let! x := load From (t_sto src) (offset (t_lay src)) in
           store_cvt From To (t_sto dst) 0 x
       | ss => let! _ := odometer ss (plain (sum_body To From dst src)) in mret tt
       end.

(** ops.hpp:150, 167: *to_ptr = *to_ptr / n *)
Definition mean_div (To : dtype) (dst : tensor) (n : val) : E unit :=
  let! a := load To (t_sto dst) 0 in
  let! v := lift (binop ADiv To To a n) in
  store_cvt (prom To To) To (t_sto dst) 0 v.
(** ops.hpp:132-168 tensor_mean<To,From>; [ToType n = numel()] *)
Definition tensor_mean (To From : dtype) (dst src : tensor) : E unit :=
  if lnumel (t_lay src) =? 0 then mret tt
  else
    let! n := lift (cvt I64 To (VI (lnumel (t_lay src)))) in
    match sizes (t_lay src) with
    | [] =>
        let! x := load From (t_sto src) (offset (t_lay src)) in
        store_cvt From To (t_sto dst) 0 x ;;;
        mean_div To dst n
    | ss =>
        let! _ := odometer ss (plain (sum_body To From dst src)) in
        mean_div To dst n
    end.

(** ops.hpp:170-183 tensor_mul_acc_f<D,L,R>: *dst += l * r *)
Definition mul_acc_body (D L R : dtype) (dst l r : tensor) (sv : list Z) : E unit :=
  let! a := load_aug L l sv in
  let! b := load_aug R r sv in
  let! v := lift (binop AMul L R a b) in
  let! p := idx_aug dst sv in
  let! d := load D (t_sto dst) p in
  let! w := lift (binop AAdd D (prom L R) d v) in
  store_cvt (prom D (prom L R)) D (t_sto dst) p w.
Definition tensor_mul_acc_f (D L R : dtype) (dst l r : tensor) : E unit :=
  let! rg := lift (broadcast_range (sizes (t_lay dst)) (sizes (t_lay l))) in
  let! rg := lift (broadcast_range rg (sizes (t_lay r))) in
  for_each_sizevec rg (mul_acc_body D L R dst l r).

(** dispatcher.hpp:85-108 spec_list[dst_t-4][l_t-4][r_t] *)
Definition dispatch_ffi (dst_t l_t : dtype) : E unit :=
  if is_float dst_t && is_float l_t then mret tt else mub BadDispatch.
(** dispatcher.hpp:139-151 spec_list[l_t-4][r_t-4] *)
Definition dispatch_ff (l_t r_t : dtype) : E unit :=
  if is_float l_t && is_float r_t then mret tt else mub BadDispatch.

(** ops.hpp:202-233 tensor_abs<To,From> *)
Definition tensor_abs (To From : dtype) (dst src : tensor) (grad : option tensor) : E unit :=
  for_each_sizevec (sizes (t_lay dst)) (fun sv =>
    let! tmp := load_exact From src sv in
    let! ge := lift (cmpop CGe From I32 tmp (VI 0)) in
    let put (T : dtype) (v : val) : E unit :=
      let! p := idx_exact dst sv in store_cvt T To (t_sto dst) p v in
    let putg (z : Z) : E unit :=
      match grad with
      | None => mret tt
      | Some g => let! p := idx_exact g sv in store_cvt I32 From (t_sto g) p (VI z)
      end in
    if ge : bool then putg 1 ;;; put From tmp
    else
      putg (-1) ;;;
      let! m := lift (negop From tmp) in put (prom From I32) m).

(** The two extremum kernels keep a local SizeVec besides the heap. *)
Definition on_heap {X A} (m : E A) : M (heap * X) A := fun '(h, x) =>
  let '(o, h') := m h in (o, (h', x)).
(** ops.hpp:235-260 tensor_max<T> ([c = CGe]) and ops.hpp:262-287 tensor_min<T>
    ([c = CLe]) *)
Definition extremum_body (c : cop) (T : dtype) (dst src : tensor) (sv : list Z)
    : M (heap * list Z) unit :=
  let! t := on_heap (load_exact T src sv) in
  let! m := on_heap (load T (t_sto dst) 0) in
  let! keep := lift (cmpop c T T m t) in
  if keep : bool then mret tt
  else
    on_heap (store T (t_sto dst) 0 t) ;;;
    fun '(h, _) => (Ok tt, (h, sv)).
Definition tensor_extremum (c : cop) (T : dtype) (dst src : tensor) (grad : option tensor)
    : E unit :=
  let! first := load T (t_sto src) 0 in            (* *from_ptr: cell 0 of the buffer *)
  store T (t_sto dst) 0 first ;;;
  let! best := (fun h =>
    let '(o, (h', sv)) :=
      for_each_sizevec (sizes (t_lay src)) (extremum_body c T dst src) (h, []) in
    (match o with Ok _ => Ok sv | Throw e => Throw e | UB u => UB u | Diverge => Diverge end, h')) in
  match grad with
  | None => mret tt
  | Some g => let! p := idx_exact g best in store_cvt I32 T (t_sto g) p (VI 1)
  end.

(** ops.hpp:361-372 tensor_div_back_numerator<D,L,R>: *dst += out_grad / den *)
Definition tensor_div_back_numerator (D L R : dtype) (dst og den : tensor) : E unit :=
  for_each_sizevec (sizes (t_lay og)) (fun sv =>
    let! a := load_aug L og sv in
    let! b := load_aug R den sv in
    let! v := lift (binop ADiv L R a b) in
    let! p := idx_aug dst sv in
    let! d := load D (t_sto dst) p in
    let! w := lift (binop AAdd D (prom L R) d v) in
    store_cvt (prom D (prom L R)) D (t_sto dst) p w).

(** ops.hpp:374-388 tensor_div_back_denominator<Den,Quot>:
    dst[exact index] -= outgrad * quot / den *)
Definition tensor_div_back_denominator (Den Quot : dtype) (dst og quot den : tensor) : E unit :=
  for_each_sizevec (sizes (t_lay quot)) (fun sv =>
    let! a := load_aug Quot og sv in
    let! b := load_aug Quot quot sv in
    let! v := lift (binop AMul Quot Quot a b) in
    let! c := load_aug Den den sv in
    let! w := lift (binop ADiv (prom Quot Quot) Den v c) in
    let! p := idx_exact dst sv in
    let! d := load Den (t_sto dst) p in
    let! x := lift (binop ASub Den (prom (prom Quot Quot) Den) d w) in
    store_cvt (prom Den (prom (prom Quot Quot) Den)) Den (t_sto dst) p x).

(** ops.hpp:390-407 tensor_cat<To,From>; [to_ptr + offset + cnt] *)
Definition tensor_cat (To From : dtype) (dst src : tensor) (off : Z) : E unit :=
  for_each_sizevec (sizes (t_lay src)) (fun sv =>
    let! v := load_exact From src sv in
    let! p := idx_exact dst sv in
    store_cvt From To (t_sto dst) (u64 (off + p)) v).
End with_fops.
