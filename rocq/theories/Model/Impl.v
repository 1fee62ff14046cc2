(** tensorImpl.cpp (all but refresh_n_outway and backward) and the appliers of
    utils.hpp. Tensors are heap indices. *)
From Verif.Model Require Export Ops.

Section with_fops.
Context {fo : FOps}.

(** tensorImpl.cpp:72-86 constructor and create(dtype, view, data_) *)
Definition create_view (dt : dtype) (lay : layout) (s : nat) : E nat :=
  new_ten (Ten dt lay s None false false None).

(** tensorImpl.cpp:88-98 create(dtype, view, prealloc): a new storage of
    size_of(dtype)*numel bytes (size_t product), allocated unless prealloc=false.
    (The second alloc() of line 96 replaces the same fresh buffer.) *)
Definition create (dt : dtype) (lay : layout) (prealloc : bool) : E nat :=
  let bytes := u64 (size_of dt * lnumel lay) in
  let! blob := (if prealloc then let! b := lift (new_blob dt bytes) in mret (Some b)
                else mret None) in
  let! s := new_sto (Sto dt bytes blob) in
  create_view dt lay s.

(** tensorImpl.cpp:107-141 create(scalar) *)
Definition create_scalar (dt : dtype) (v : val) : E nat :=
  let! t := create dt (contig []) true in
  let! r := get_ten t in
  store dt (t_sto r) 0 v ;;;
  mret t.

(** ret->requires_grad = true; ret->grad_fn.reset(new K(ret, inputs))
    (function.cpp:14-18 initialises all counters to 0) *)
Definition track (ret : nat) (k : bkind) (inputs : list nat) : E unit :=
  let! r := get_ten ret in
  set_ten ret (with_fn (with_rg r true) (Some (Gfn k inputs 0 0 0))).

(** utils.hpp:58-75 apply_no_grad_binary_op *)
Definition apply_no_grad_binary_op
    (kernel : dtype -> dtype -> tensor -> tensor -> tensor -> E unit)
    (lhs rhs : nat) (order : bool) : E nat :=
  let! l := get_ten lhs in
  let! r := get_ten rhs in
  let lt := larger_type (t_dt l) (t_dt r) in
  let! rg := lift (broadcast_range (sizes (t_lay l)) (sizes (t_lay r))) in
  let! ret := create lt (contig rg) true in
  let! d := get_ten ret in
  (if order then kernel (t_dt l) (t_dt r) d l r
   else if bool_decide (t_dt l = lt) then kernel (t_dt l) (t_dt r) d l r
   else kernel (t_dt r) (t_dt l) d r l) ;;;
  mret ret.

(** utils.hpp:94-106 apply_binary_operator *)
Definition apply_binary_operator
    (kernel : dtype -> dtype -> tensor -> tensor -> tensor -> E unit) (k : bkind)
    (lhs rhs : nat) (order : bool) : E nat :=
  let! ret := apply_no_grad_binary_op kernel lhs rhs order in
  let! l := get_ten lhs in
  let! r := get_ten rhs in
  if negb (t_rg l) && negb (t_rg r) then mret ret
  else track ret k [lhs; rhs] ;;; mret ret.

(** tensorImpl.cpp:151-169 *)
Definition op_add (l r : nat) : E nat := apply_binary_operator tensor_add AddBack l r false.
Definition op_sub (l r : nat) : E nat := apply_binary_operator tensor_sub SubBack l r true.
Definition op_mul (l r : nat) : E nat := apply_binary_operator tensor_mul MulBack l r false.
Definition op_div (l r : nat) : E nat := apply_binary_operator tensor_div DivBack l r true.

(** tensorImpl.cpp:143-149 unary operators. create(char(0)) resolves to
    create(std::int32_t): char promotes to int, the other overloads are
    conversions. *)
Definition op_pos (t : nat) : E nat := mret t.
Definition op_neg (t : nat) : E nat :=
  let! z := create_scalar I32 (VI 0) in op_sub z t.

(** utils.hpp:77-85 apply_cmp_op; tensorImpl.cpp:171-193 *)
Definition op_cmp (c : cop) (lhs rhs : nat) : E nat :=
  let! l := get_ten lhs in
  let! r := get_ten rhs in
  let! rg := lift (broadcast_range (sizes (t_lay l)) (sizes (t_lay r))) in
  let! ret := create I8 (contig rg) true in
  let! d := get_ten ret in
  tensor_cmp c (t_dt l) (t_dt r) d l r ;;;
  mret ret.

(** tensorImpl.cpp:195-202 operator+= *)
Definition op_addeq (lhs rhs : nat) : E unit :=
  let! l := get_ten lhs in
  let! r := get_ten rhs in
  run_expect (negb (t_rg l)) ;;;
  tensor_add (t_dt l) (t_dt r) l l r.

(** tensorImpl.cpp:204-242 ones, zeros, *_like, full *)
Definition fill_new (ss : list Z) (dt : dtype) (tmp : nat) (nt : dtype) : E nat :=
  let! ret := create dt (contig ss) true in
  let! d := get_ten ret in
  let! n := get_ten tmp in
  tensor_fill dt nt d n ;;;
  mret ret.
Definition ones (ss : list Z) (dt : dtype) : E nat :=
  let! one := create_scalar I8 (VI 1) in fill_new ss dt one I8.
Definition zeros (ss : list Z) (dt : dtype) : E nat :=
  let! ret := create dt (contig ss) true in
  let! d := get_ten ret in
  sto_zero (t_sto d) ;;;
  mret ret.
Definition zeros_like (t : nat) : E nat :=
  let! r := get_ten t in zeros (sizes (t_lay r)) (t_dt r).
Definition ones_like (t : nat) : E nat :=
  let! r := get_ten t in ones (sizes (t_lay r)) (t_dt r).
Definition full_int (ss : list Z) (num : Z) (dt : dtype) : E nat :=
  let! tmp := create_scalar I64 (VI num) in fill_new ss dt tmp I64.
Definition full_double (ss : list Z) (num : F) (dt : dtype) : E nat :=
  let! tmp := create_scalar F64 (VF num) in fill_new ss dt tmp F64.

(** tensorImpl.cpp:244-253 eye *)
Definition eye (n m : Z) (dt : dtype) : E nat :=
  let! ret := create dt (contig [n; m]) true in
  let! d := get_ten ret in
  sto_zero (t_sto d) ;;;
  tensor_eye dt d ;;;
  mret ret.

(** tensorImpl.cpp:255-261 from_blob: memcpy of numel elements from the caller's
    buffer, given as the list of its elements; reading past it is undefined. *)
Definition from_blob (data : list val) (ss : list Z) (dt : dtype) : E nat :=
  let! ret := create dt (contig ss) true in
  let! d := get_ten ret in
  let! s := get_sto (t_sto d) in
  match sto_blob s with
  | None => mub NullDeref
  | Some cs =>
      if Z.of_nat (length data) <? Z.of_nat (length cs) then mub OutOfBounds
      else set_sto (t_sto d) (Sto (sto_ty s) (sto_bytes s)
                                (Some (map Some (firstn (length cs) data))))
  end ;;;
  mret ret.

(** tensorImpl.cpp:286-299 type(t) *)
Definition to_dtype (t : nat) (dt : dtype) : E nat :=
  let! r := get_ten t in
  if t_rg r && is_int dt then mthrow RuntimeError
  else if bool_decide (dt = t_dt r) then mret t
  else
    let! ret := create dt (contig (sizes (t_lay r))) true in
    let! d := get_ten ret in
    tensor_to_type dt (t_dt r) d r ;;;
    if negb (t_rg r) then mret ret
    else track ret CloneBack [t] ;;; mret ret.

(** tensorImpl.cpp:364-392 sum, mean; dtype <= i64 *)
Definition reduce_ty (dt : dtype) : dtype := if tynum dt <=? tynum I64 then I64 else F64.
Definition op_sum (t : nat) : E nat :=
  let! r := get_ten t in
  let! tf := zeros [] (reduce_ty (t_dt r)) in
  let! d := get_ten tf in
  tensor_sum (reduce_ty (t_dt r)) (t_dt r) d r ;;;
  (if t_rg r then track tf SumBack [t] else mret tt) ;;;
  mret tf.
Definition op_mean (t : nat) : E nat :=
  let! r := get_ten t in
  let! tf := zeros [] (reduce_ty (t_dt r)) in
  let! d := get_ten tf in
  tensor_mean (reduce_ty (t_dt r)) (t_dt r) d r ;;;
  (if t_rg r then track tf MeanBack [t] else mret tt) ;;;
  mret tf.

(** tensorImpl.cpp:394-407 abs: the result reuses the source's layout *)
Definition op_abs (t : nat) : E nat :=
  let! r := get_ten t in
  let! ret := create (t_dt r) (t_lay r) true in
  let! d := get_ten ret in
  if negb (t_rg r) then
    tensor_abs (t_dt r) (t_dt r) d r None ;;; mret ret
  else
    let! g := create (t_dt r) (t_lay r) true in
    let! gr := get_ten g in
    tensor_abs (t_dt r) (t_dt r) d r (Some gr) ;;;
    track ret (KnownGradBack g) [t] ;;;
    mret ret.

(** tensorImpl.cpp:409-435 max, min *)
Definition op_extremum (c : cop) (t : nat) : E nat :=
  let! r := get_ten t in
  let! ret := zeros [] (t_dt r) in
  let! d := get_ten ret in
  if negb (t_rg r) then
    tensor_extremum c (t_dt r) d r None ;;; mret ret
  else
    let! g := zeros_like t in
    let! gr := get_ten g in
    tensor_extremum c (t_dt r) d r (Some gr) ;;;
    track ret (KnownGradBack g) [t] ;;;
    mret ret.
Definition op_max := op_extremum CGe.
Definition op_min := op_extremum CLe.

(** tensorImpl.cpp:437-441 zero_grad *)
Definition zero_grad (t : nat) : E unit :=
  let! r := get_ten t in
  match t_grad r with
  | None => mret tt
  | Some g => let! gr := get_ten g in sto_zero (t_sto gr)
  end.

(** tensorImpl.cpp:443-453 share_grad_storage(to, from, to.view) *)
Definition share_grad_storage (to from : nat) : E unit :=
  let! f := get_ten from in
  match t_grad f with
  | None =>
      let! g := create (t_dt f) (t_lay f) false in
      set_ten from (with_grad f (Some g))
  | Some _ => mret tt
  end ;;;
  let! f := get_ten from in
  match t_grad f with
  | None => mub NullDeref
  | Some fg =>
      let! fgr := get_ten fg in
      let! t := get_ten to in
      let! g := create_view (t_dt t) (t_lay t) (t_sto fgr) in
      let! t := get_ten to in
      set_ten to (with_grad t (Some g))
  end.

(** Tail shared by the view operations (tensorImpl.cpp:556-561, 588-593, 696-701) *)
Definition finish_view (ret input : nat) : E nat :=
  let! i := get_ten input in
  if negb (t_rg i) then mret ret
  else
    track ret NoBack [input] ;;;
    share_grad_storage ret input ;;;
    mret ret.

(** tensorImpl.cpp:467-552: one dimension of operator[]. [n] = sizes[dim],
    [st] = strides[dim], [parts] = split_slice after trimming. Returns the
    (size, stride) pushed, or None for a dropped dimension, and the amount added to
    _offset. *)
Definition slice_dim (n st : Z) (parts : list (list ascii))
    : outcome (option (Z * Z) * Z) :=
  match parts with
  | [p0] =>                                         (* like a[-2], lines 475-482 *)
      let? idx := stoll p0 in
      let idx := if idx <? 0 then s64 (u64 (idx + n)) else idx in
      let? _ := orun_expect ((0 <=? idx) && (idx <? s64 n)) in
      let? d := schk (st * idx) in
      Ok (None, d)
  | _ =>                                            (* like a[-2:], lines 483-551 *)
      let empty := Ok (Some (0, 0), 0) in
      if n =? 0 then empty else
      let p i := nth i parts [] in                  (* missing parts become "" *)
      let? step := match p 2%nat with
                   | [] => Ok 1
                   | s => let? z := stoll s in
                          let? _ := orun_expect (negb (z =? 0)) in Ok z
                   end in
      (* beg: None means "push 0 and continue" *)
      let? beg := match p 0%nat with
                  | [] => Ok (Some (if 0 <? step then 0 else s64 (u64 (n - 1))))
                  | s =>
                      let? b := stoll s in
                      let b := if b <? 0 then s64 (u64 (b + n)) else b in
                      if (b <? 0) && negb (0 <? step) then Ok None else
                      let b := if b <? 0 then 0 else b in
                      if s64 n <=? b then
                        (if 0 <? step then Ok None else Ok (Some (s64 (u64 (n - 1)))))
                      else Ok (Some b)
                  end in
      match beg with
      | None => empty
      | Some beg =>
          let? fin := match p 1%nat with
                      | [] => Ok (Some (if 0 <? step then s64 n else -1))
                      | s =>
                          let? e := stoll s in
                          let e := if e <? 0 then s64 (u64 (e + n)) else e in
                          if 0 <? step then
                            if e <=? 0 then Ok None
                            else Ok (Some (if s64 n <? e then s64 n else e))
                          else
                            let e := if e <? 0 then -1 else e in
                            let? n1 := schk (s64 n - 1) in
                            if n1 <=? e then Ok None else Ok (Some e)
                      end in
          match fin with
          | None => empty
          | Some fin =>
              if ((0 <? step) && (fin <=? beg)) || ((step <? 0) && (beg <=? fin)) then empty
              else
                let? df := schk (fin - beg) in
                let? _ := schk (Z.abs df) in        (* std::abs(LLONG_MIN) *)
                let? _ := schk (Z.abs step) in
                let size := Z.quot (Z.abs df - 1) (Z.abs step) + 1 in
                let? st' := schk (step * st) in
                let? d := schk (beg * st) in
                Ok (Some (size, st'), d)
          end
      end
  end.

(** tensorImpl.cpp:467-474: the loop over dimensions *)
Fixpoint slice_dims (ss sts : list Z) (each : list (list ascii)) (off : Z)
    : outcome (list Z * list Z * Z) :=
  match ss, sts with
  | [], _ => Ok ([], [], off)
  | n :: ss', st :: sts' =>
      let '(parts, each') := match each with
                             | [] => ([[]; []; []], [])
                             | e :: r => (map trim (ssplit e ":"%char), r)
                             end in
      let? x := slice_dim n st parts in
      let? y := slice_dims ss' sts' each' (u64 (off + snd x)) in
      Ok (match fst x with
          | Some (n', st') => (n' :: y.1.1, st' :: y.1.2, y.2)
          | None => y
          end)
  | _ :: _, [] => UB OutOfBounds
  end.

(** tensorImpl.cpp:455-565 operator[] *)
Definition slice_layout (lay : layout) (slice : list ascii) : outcome layout :=
  let each := ssplit slice ","%char in
  let? _ := orun_expect (Nat.leb (length each) (length (sizes lay))) in
  let? y := slice_dims (sizes lay) (strides lay) each (offset lay) in
  Ok (Lay y.1.1 y.1.2 y.2).
Definition op_slice (t : nat) (slice : list ascii) : E nat :=
  let! r := get_ten t in
  let! lay := lift (slice_layout (t_lay r) slice) in
  let! ret := create_view (t_dt r) lay (t_sto r) in
  finish_view ret t.

(** std::swap(v[i], v[j]) *)
Definition swap_at (i j : nat) (l : list Z) : list Z :=
  <[i := nth j l 0]> (<[j := nth i l 0]> l).
(** tensorImpl.cpp:567-594 transpose *)
Definition op_transpose (t : nat) (dim0 dim1 : Z) : E nat :=
  let! r := get_ten t in
  let d := Z.of_nat (ldim (t_lay r)) in
  run_expect ((0 <=? dim0) && (0 <=? dim1) && (dim0 <? d) && (dim1 <? d)) ;;;
  run_expect (negb (dim0 =? dim1)) ;;;
  let i := Z.to_nat dim0 in let j := Z.to_nat dim1 in
  let lay := Lay (swap_at i j (sizes (t_lay r))) (swap_at i j (strides (t_lay r)))
                 (offset (t_lay r)) in
  let! ret := create_view (t_dt r) lay (t_sto r) in
  finish_view ret t.

(** tensorImpl.cpp:731-739 clone *)
Definition op_clone (t : nat) : E nat :=
  let! r := get_ten t in
  let! ret := create (t_dt r) (contig (sizes (t_lay r))) true in
  let! d := get_ten ret in
  tensor_clone (t_dt r) (t_dt r) d r ;;;
  if negb (t_rg r) then mret ret
  else track ret CloneBack [t] ;;; mret ret.
(** tensorImpl.cpp:727-729 and layouts.cpp:102-104 contiguous *)
Definition op_contiguous (t : nat) : E nat := op_clone t.

(** tensorImpl.cpp:596-627 regularize_size *)
Definition minus_ones (ss : list Z) : nat := length (List.filter (Z.eqb (-1)) ss).
Definition regularize_size (ss : list Z) (numel : Z) : outcome (list Z) :=
  match ss with
  | [] => let? _ := orun_expect (numel =? 1) in Ok []
  | _ =>
      let? _ := orun_expect (Nat.leb (minus_ones ss) 1) in
      if Nat.eqb (minus_ones ss) 1 then
        (* s *= sizes_[i] for i != minus_one_index, size_t *)
        let s := fold_left (fun s z => if z =? -1 then s else u64 (s * z)) ss 1 in
        if s =? 0 then UB DivByZero                 (* numel % s *)
        else
          let? _ := orun_expect (numel mod s =? 0) in
          Ok (map (fun z => if z =? -1 then u64 (s64 (numel / s)) else u64 z) ss)
      else Ok (map u64 ss)
  end.

(** tensorImpl.cpp:674-676: strides[i-1] != strides[i] * (long long)sizes_[i] *)
Fixpoint isometry (ss sts : list Z) {struct ss} : outcome bool :=
  match ss, sts with
  | _ :: ss', st0 :: sts' =>
      match ss', sts' with
      | s :: _, st :: _ =>
          let? p := schk (st * s64 s) in
          let? rest := isometry ss' sts' in
          Ok ((st0 =? p) && rest)
      | _, _ => Ok true
      end
  | _, _ => Ok true
  end.
(** tensorImpl.cpp:682-686: strides from a given last stride *)
Fixpoint strides_from (last : Z) (ss : list Z) : list Z :=
  match ss with
  | [] => []
  | _ :: r =>
      match r with
      | [] => [last]
      | s' :: _ =>
          let st := strides_from last r in
          s64 (u64 (nth 0 st 0 * s')) :: st
      end
  end.

(** tensorImpl.cpp:629-702 reshape(input, SizeVec). The std::sort of lines 664-672
    only permutes the order in which sizes_ and strides are copied onto
    themselves; with more strides than sizes it writes past sizes_. *)
Definition op_reshape_sv (t : nat) (ss : list Z) : E nat :=
  let! r := get_ten t in
  let v := t_lay r in
  let numel := numel_of ss in
  run_expect (numel =? lnumel v) ;;;
  let ret_early : E (option nat) :=
    if numel =? 1 then
      let! tf := create_view (t_dt r) (Lay ss (map (fun _ => 1) ss) (offset v)) (t_sto r) in
      if negb (t_rg r) then mret (Some tf)
      else track tf NoBack [t] ;;; share_grad_storage tf t ;;; mret None  (* falls through *)
    else mret None in
  let! early := ret_early in
  match early with
  | Some tf => mret tf
  | None =>
      (if Nat.ltb (ldim v) (length (strides v)) then mub OutOfBounds else mret tt) ;;;
      let! iso := lift (isometry (sizes v) (strides v)) in
      let! p := (if iso : bool then
          let! sts := (match ss with
                       | [] => mret (strides v)
                       | _ => match last (strides v) with
                              | None => mub OutOfBounds   (* strides[size()-1], empty *)
                              | Some st => mret (strides_from st ss)
                              end
                       end) in
          let! tf := create_view (t_dt r) (Lay ss sts (offset v)) (t_sto r) in
          mret (tf, t)
        else
          let! m := op_clone t in
          let! mr := get_ten m in
          let! tf := create_view (t_dt r) (contig ss) (t_sto mr) in
          mret (tf, m)) in
      let '(tf, last_node) := p in
      let! i := get_ten t in
      if negb (t_rg i) then mret tf
      else
        track tf NoBack [last_node] ;;;
        share_grad_storage tf last_node ;;;
        mret tf
  end.
(** tensorImpl.cpp:708-717 reshape(input, SignedVec) *)
Definition op_reshape (t : nat) (ss : list Z) : E nat :=
  let! r := get_ten t in
  let! ss' := lift (regularize_size ss (lnumel (t_lay r))) in
  op_reshape_sv t ss'.
(** tensorImpl.cpp:719-721 reshape_as *)
Definition op_reshape_as (t o : nat) : E nat :=
  let! r := get_ten o in op_reshape_sv t (sizes (t_lay r)).

(** tensorImpl.cpp:741-743 detach *)
Definition op_detach (t : nat) : E nat :=
  let! r := get_ten t in create_view (t_dt r) (t_lay r) (t_sto r).

(** tensorImpl.cpp:763-765: the byte at blob + cnt_from_index(sv), read as bool.
    The element index is used as a byte offset. *)
Definition load_bool_byte (s : nat) (pos : Z) : E bool :=
  let! r := get_sto s in
  match sto_blob r with
  | None => mub NullDeref
  | Some cs =>
      let w := size_of (sto_ty r) in
      if (0 <=? pos) && (pos <? w * Z.of_nat (length cs)) then
        match cs !! Z.to_nat (pos / w) with
        | Some (Some v) =>
            let b := nth (Z.to_nat (pos mod w)) (val_bytes (sto_ty r) v) 0 in
            if b =? 0 then mret false else if b =? 1 then mret true else mub BadBool
        | Some None => mub Uninit
        | None => mub OutOfBounds
        end
      else mub OutOfBounds
  end.
(** tensorImpl.cpp:745-776 all *)
Definition op_all (t : nat) : E bool :=
  let! r := get_ten t in
  let ss := sizes (t_lay r) in
  if existsb (Z.eqb 0) ss then mret true
  else match ss with
       | [] => let! p := idx_exact r [] in load_bool_byte (t_sto r) p
       | _ =>
           let! o := odometer ss (fun sv =>
             let! p := idx_exact r sv in
             let! b := load_bool_byte (t_sto r) p in
             mret (if b : bool then None else Some false)) in
           mret (match o with Some b => b | None => true end)
       end.

(** tensorImpl.cpp:778-800 randn. The samples of the normal distribution are an
    input. Both branches create an f32 tensor; the f64 branch then writes numel
    doubles through the f32 buffer: double i occupies bytes [8i, 8i+8). *)
Definition randn_write (dt : dtype) (s : nat) (i : Z) (x : F) : E unit :=
  if bool_decide (dt = F32) then store F32 s i (VF x)
  else
    let! r := get_sto s in
    match sto_blob r with
    | None => mub NullDeref
    | Some cs =>
        if 8 * i + 8 <=? 4 * Z.of_nat (length cs) then
          (* two f32 cells now hold the halves of a double: treated as indeterminate *)
          set_sto s (Sto (sto_ty r) (sto_bytes r)
            (Some (<[Z.to_nat (2 * i) := None]> (<[Z.to_nat (2 * i + 1) := None]> cs))))
        else mub OutOfBounds
    end.
Definition op_randn (ss : list Z) (dt : dtype) (samples : list F) : E nat :=
  run_expect (is_float dt) ;;;
  let! ret := create F32 (contig ss) true in
  let! d := get_ten ret in
  mapM_ (fun i => randn_write dt (t_sto d) i (nth (Z.to_nat i) samples f_zero))
        (seqZ 0 (lnumel (t_lay d))) ;;;
  mret ret.

(** tensorImpl.cpp:58-64 stride(): typeid(view) is shared_ptr<Layout>, never
    shared_ptr<StridedLayout>, so the else branch is always taken. *)
Definition op_stride (t : nat) : E (list Z) :=
  let! r := get_ten t in mthrow RuntimeError.

(** tensorImpl.cpp:806-853 cat. Null inputs are dealt with in Api.v, deref_all. *)
Fixpoint get_all (ts : list nat) : E (list tensor) :=
  match ts with
  | [] => mret []
  | t :: r => let! x := get_ten t in let! xs := get_all r in mret (x :: xs)
  end.
(** lines 811-821: ranks agree and sizes agree outside [dim] *)
Definition cat_compatible (dim : nat) (s0 s : list Z) : bool :=
  Nat.eqb (length s0) (length s) &&
  forallb (fun j => Nat.eqb j dim || (nth j s0 0 =? nth j s 0)) (seq 0 (length s0)).
(** lines 832-839 *)
Fixpoint cat_copy (dt : dtype) (dim : nat) (dst : tensor) (ts : list tensor) (soff : Z)
    : E unit :=
  match ts with
  | [] => mret tt
  | t :: r =>
      tensor_cat dt (t_dt t) dst t (u64 (soff * nth dim (strides (t_lay dst)) 0)) ;;;
      cat_copy dt dim dst r (u64 (soff + nth dim (sizes (t_lay t)) 0))
  end.
Definition op_cat (ts : list nat) (dim : Z) : E nat :=
  let! rs := get_all ts in
  match rs with
  | [] => mub OutOfBounds                           (* input_ts[0] *)
  | r0 :: rest =>
      let s0 := sizes (t_lay r0) in
      run_expect ((0 <=? dim) && (dim <? Z.of_nat (length s0))) ;;;
      let d := Z.to_nat dim in
      run_expect (forallb (fun r => cat_compatible d s0 (sizes (t_lay r))) rest) ;;;
      let total := fold_left (fun n r => u64 (n + nth d (sizes (t_lay r)) 0)) rs 0 in
      let dt := fold_left (fun t r => larger_type t (t_dt r)) rs (t_dt r0) in
      let! ret := create dt (contig (<[d := total]> s0)) true in
      let! dr := get_ten ret in
      cat_copy dt d dr rs 0 ;;;
      if existsb t_rg rs then track ret (CatBack dim) ts ;;; mret ret
      else mret ret
  end.
End with_fops.
