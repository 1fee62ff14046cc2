(** function.cpp, and refresh_n_outway / backward of tensorImpl.cpp. *)
From Verif.Model Require Export Impl.

Section with_fops.
Context {fo : FOps}.

(** [*ptr] on a possibly null shared_ptr<TensorImpl> *)
Definition deref {A} (o : option A) : E A :=
  match o with Some a => mret a | None => mub NullDeref end.

(** function.cpp:57 get_out_grad *)
Definition out_grad (this : nat) : E nat :=
  let! r := get_ten this in deref (t_grad r).

(** Update of a grad_fn field; the node is known to exist where it is used. *)
Definition upd_fn (t : nat) (f : gradfn -> gradfn) : E unit :=
  let! r := get_ten t in
  match t_fn r with
  | None => mub NullDeref
  | Some g => set_ten t (with_fn r (Some (f g)))
  end.
Definition gf_with_acc (g : gradfn) (n : Z) : gradfn :=
  Gfn (gf_kind g) (gf_in g) (gf_nout g) n (gf_ver g).
Definition gf_with_nout (g : gradfn) (n : Z) : gradfn :=
  Gfn (gf_kind g) (gf_in g) n (gf_acc g) (gf_ver g).
Definition gf_with_ver (g : gradfn) (n : Z) : gradfn :=
  Gfn (gf_kind g) (gf_in g) (gf_nout g) (gf_acc g) n.

(** function.cpp:41-55 try_accumulate_update (zero_init is always true) *)
Definition try_accumulate_update (prev : nat) : E unit :=
  let! p := get_ten prev in
  if negb (t_rg p) then mret tt
  else
    match t_fn p with
    | Some _ => upd_fn prev (fun g => gf_with_acc g (gf_acc g + 1))
    | None => mret tt
    end ;;;
    match t_grad p with
    | None =>
        let! g := create (t_dt p) (t_lay p) true in
        let! p' := get_ten prev in
        set_ten prev (with_grad p' (Some g)) ;;;
        let! gr := get_ten g in
        sto_zero (t_sto gr)
    | Some g =>
        let! gr := get_ten g in
        let! a := sto_is_alloc (t_sto gr) in
        if a : bool then mret tt
        else sto_alloc (t_sto gr) ;;; sto_zero (t_sto gr)
    end.

(** function.cpp:22-24 tensor_mul_add_f *)
Definition tensor_mul_add_f (dst l r : nat) : E unit :=
  let! d := get_ten dst in
  let! a := get_ten l in
  let! b := get_ten r in
  dispatch_ffi (t_dt d) (t_dt a) ;;;
  tensor_mul_acc_f (t_dt d) (t_dt a) (t_dt b) d a b.

(** function.cpp:26-39 try_accumulate_grad *)
Definition try_accumulate_grad (prev : nat) (w o : option nat) : E unit :=
  let! p := get_ten prev in
  if negb (t_rg p) then mret tt
  else
    try_accumulate_update prev ;;;
    match o with
    | None =>
        match w with
        | None => mret tt
        | Some w =>
            let! p := get_ten prev in
            let! g := deref (t_grad p) in
            op_addeq g w
        end
    | Some o =>
        let! w := deref w in
        let! wr := get_ten w in
        let! p := get_ten prev in
        let! g := deref (t_grad p) in
        if is_float (t_dt wr) then tensor_mul_add_f g w o else tensor_mul_add_f g o w
    end.

(** function.cpp:75-79 tensor_div_back_numerator_f *)
Definition tensor_div_back_numerator_f (dst l r : nat) : E unit :=
  let! d := get_ten dst in
  let! a := get_ten l in
  let! b := get_ten r in
  dispatch_ffi (t_dt d) (t_dt a) ;;;
  tensor_div_back_numerator (t_dt d) (t_dt a) (t_dt b) d a b.

(** input_tfs[i]; the constructors always pass enough inputs *)
Definition input (ins : list nat) (i : nat) : E nat := deref (ins !! i).

(** function.cpp:116-130 CatBack::step_back, the loop *)
Fixpoint cat_back (this : nat) (dim : Z) (ins : list nat) (s : Z) : E unit :=
  match ins with
  | [] => mret tt
  | t :: rest =>
      let! me := get_ten this in
      let! x := get_ten t in
      let st := nth (Z.to_nat dim) (strides (t_lay me)) 0 in
      let! g := deref (t_grad me) in
      let! gr := get_ten g in
      let! v := create_view (t_dt me)
                  (Lay (sizes (t_lay x)) (strides (t_lay me)) (u64 (s * st))) (t_sto gr) in
      try_accumulate_grad t (Some v) None ;;;
      cat_back this dim rest (u64 (s + nth (Z.to_nat dim) (sizes (t_lay x)) 0))
  end.

(** function.cpp:59-140: step_back of each Backward subclass *)
Definition step_back (this : nat) (k : bkind) (ins : list nat) : E unit :=
  match k with
  | AddBack =>                                                   (* 59-62 *)
      let! a := input ins 0 in let! b := input ins 1 in
      let! g := out_grad this in
      try_accumulate_grad a (Some g) None ;;;
      let! g := out_grad this in
      try_accumulate_grad b (Some g) None
  | SubBack =>                                                   (* 64-68 *)
      let! a := input ins 0 in let! b := input ins 1 in
      let! g := out_grad this in
      try_accumulate_grad a (Some g) None ;;;
      let! g := out_grad this in
      let! m := create_scalar I32 (VI (-1)) in
      try_accumulate_grad b (Some g) (Some m)
  | MulBack =>                                                   (* 70-73 *)
      let! a := input ins 0 in let! b := input ins 1 in
      let! g := out_grad this in
      try_accumulate_grad a (Some b) (Some g) ;;;
      let! g := out_grad this in
      try_accumulate_grad b (Some a) (Some g)
  | DivBack =>                                                   (* 80-88 *)
      let! a := input ins 0 in let! b := input ins 1 in
      try_accumulate_update a ;;;
      let! ar := get_ten a in
      let! ga := deref (t_grad ar) in
      let! g := out_grad this in
      tensor_div_back_numerator_f ga g b ;;;
      try_accumulate_update b ;;;
      let! br := get_ten b in
      let! me := get_ten this in
      dispatch_ff (t_dt br) (t_dt me) ;;;
      let! gb := deref (t_grad br) in
      let! g := out_grad this in
      let! gbr := get_ten gb in
      let! gr := get_ten g in
      tensor_div_back_denominator (t_dt br) (t_dt me) gbr gr me br
  | SumBack =>                                                   (* 90-94 *)
      let! a := input ins 0 in
      let! o := ones_like a in
      let! g := out_grad this in
      try_accumulate_grad a (Some o) (Some g)
  | MeanBack =>                                                  (* 96-102 *)
      let! a := input ins 0 in
      let! ar := get_ten a in
      let! f := full_double (sizes (t_lay ar))
                  (f_div FT64 (f_of_Z FT64 1) (f_of_Z FT64 (lnumel (t_lay ar)))) (t_dt ar) in
      try_accumulate_grad a (Some f) None
  | NoBack =>                                                    (* 104 *)
      let! a := input ins 0 in
      try_accumulate_grad a None None
  | CloneBack =>                                                 (* 106-108 *)
      let! a := input ins 0 in
      let! g := out_grad this in
      try_accumulate_grad a (Some g) None
  | CatBack dim => cat_back this dim ins 0                       (* 116-130 *)
  | KnownGradBack kg =>                                          (* 138-140 *)
      let! a := input ins 0 in
      let! g := out_grad this in
      try_accumulate_grad a (Some kg) (Some g)
  end.

Definition get_fn (t : nat) : E gradfn :=
  let! r := get_ten t in deref (t_fn r).
(** ++Backward::global_back_version *)
Definition bump : E Z := fun h =>
  let v := h_ver h + 1 in (Ok v, Hp (h_sto h) (h_ten h) v).
Definition global_version : E Z := fun h => (Ok (h_ver h), h).

(** tensorImpl.cpp:309-316: the inner loop of the first traversal; returns the
    nodes pushed *)
Fixpoint visit_reset (ins : list nat) : E (list nat) :=
  match ins with
  | [] => mret []
  | i :: rest =>
      let! r := get_ten i in
      let! v := global_version in
      match t_fn r with
      | Some g =>
          if gf_ver g <? v then
            set_ten i (with_fn r (Some (gf_with_nout (gf_with_ver g v) 0))) ;;;
            let! q := visit_reset rest in mret (i :: q)
          else visit_reset rest
      | None => visit_reset rest
      end
  end.
(** tensorImpl.cpp:323-331: the inner loop of the second traversal *)
Fixpoint visit_count (ins : list nat) : E (list nat) :=
  match ins with
  | [] => mret []
  | i :: rest =>
      let! r := get_ten i in
      let! v := global_version in
      match t_fn r with
      | Some g =>
          let g1 := gf_with_nout g (gf_nout g + 1) in
          if gf_ver g <? v then
            set_ten i (with_fn r (Some (gf_with_ver g1 v))) ;;;
            let! q := visit_count rest in mret (i :: q)
          else
            set_ten i (with_fn r (Some g1)) ;;;
            visit_count rest
      | None => visit_count rest
      end
  end.
(** tensorImpl.cpp:353-360: the inner loop of backward *)
Fixpoint visit_ready (ins : list nat) : E (list nat) :=
  match ins with
  | [] => mret []
  | i :: rest =>
      let! r := get_ten i in
      let! v := global_version in
      match t_fn r with
      | Some g =>
          if (gf_ver g <? v) && (gf_acc g =? gf_nout g) then
            set_ten i (with_fn r (Some (gf_with_ver g v))) ;;;
            let! q := visit_ready rest in mret (i :: q)
          else visit_ready rest
      | None => visit_ready rest
      end
  end.

(** while (!q.empty()) { t = front; pop; body(t) pushes }. The fuel given below is
    the number of tensors; no node is pushed twice. *)
Fixpoint bfs (fuel : nat) (body : nat -> E (list nat)) (q : list nat) : E unit :=
  match q with
  | [] => mret tt
  | t :: q' =>
      match fuel with
      | O => fun h => (Diverge, h)
      | S f => let! new := body t in bfs f body (q' ++ new)
      end
  end.
Definition heap_size : E nat := fun h => (Ok (length (h_ten h)), h).

(** tensorImpl.cpp:301-333 refresh_n_outway *)
Definition refresh_n_outway (t : nat) : E unit :=
  let! n := heap_size in
  let! v := bump in
  upd_fn t (fun g => gf_with_ver (gf_with_nout g 0) v) ;;;
  bfs n (fun x => let! g := get_fn x in visit_reset (gf_in g)) [t] ;;;
  let! v := bump in
  upd_fn t (fun g => gf_with_ver g v) ;;;
  bfs n (fun x => let! g := get_fn x in visit_count (gf_in g)) [t].

(** tensorImpl.cpp:348-360: one iteration of the main loop *)
Definition process (t : nat) : E (list nat) :=
  let! g := get_fn t in
  step_back t (gf_kind g) (gf_in g) ;;;
  let! r := get_ten t in
  (if t_ret r then mret tt else set_ten t (with_grad r None)) ;;;
  let! g := get_fn t in
  visit_ready (gf_in g).

(** tensorImpl.cpp:335-362 backward *)
Definition backward (t : nat) : E unit :=
  let! r := get_ten t in
  run_expect (t_rg r) ;;;
  run_expect (match t_fn r with Some _ => true | None => false end) ;;;
  run_expect (lnumel (t_lay r) =? 1) ;;;
  let! n := heap_size in
  refresh_n_outway t ;;;
  let! o := ones_like t in
  let! r := get_ten t in
  set_ten t (with_grad r (Some o)) ;;;
  let! v := bump in
  upd_fn t (fun g => gf_with_ver g v) ;;;
  bfs n process [t].
End with_fops.
