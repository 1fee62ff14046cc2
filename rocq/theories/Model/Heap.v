(** storage.hpp/.cpp, and the fields of TensorImpl and Backward. *)
From Verif.Model Require Export Layout.

Section with_fops.
Context {fo : FOps}.

(** A cell of a buffer: an element or an indeterminate value. *)
Notation cell := (option val).

(** storage.hpp:5-19 UntypedStorage { size_t size (bytes); unique_ptr<uint8_t[]> blob }.
    The C++ buffer is untyped; every buffer is only ever used at the dtype it was
    created for, except by [all] and [randn], which are modelled at byte level.
    The model records that dtype and reports [BadType] for any other access. *)
Record storage := Sto {
  sto_ty : dtype;
  sto_bytes : Z;
  sto_blob : option (list cell)
}.

(** function.hpp:8-104: the subclasses of Backward (SingletonBack is never built) *)
Inductive bkind :=
  | AddBack | SubBack | MulBack | DivBack | SumBack | MeanBack | NoBack | CloneBack
  | CatBack (dim : Z)
  | KnownGradBack (grad : nat).

(** function.hpp:8-18 class Backward. [this_tf] is the owning tensor. The counters
    are size_t in C++; they count edges, so wrap-around is not modelled. *)
Record gradfn := Gfn {
  gf_kind : bkind;
  gf_in : list nat;
  gf_nout : Z;          (* n_outway *)
  gf_acc : Z;           (* accumulated_n_outway *)
  gf_ver : Z            (* back_version *)
}.

(** tensorImpl.hpp:12-29 class TensorImpl; pointers to TensorImpl / UntypedStorage
    are indices into the heap. [dlayout] is always [strided]; [_version] is unused. *)
Record tensor := Ten {
  t_dt : dtype;
  t_lay : layout;
  t_sto : nat;
  t_grad : option nat;
  t_rg : bool;          (* requires_grad *)
  t_ret : bool;         (* retain_grad *)
  t_fn : option gradfn
}.

(** All live objects; [h_ver] is Backward::global_back_version (function.cpp:12).
    Objects are never freed in the model. *)
Record heap := Hp { h_sto : list storage; h_ten : list tensor; h_ver : Z }.

Definition empty_heap : heap := Hp [] [] 0.

Definition E (A : Type) : Type := M heap A.

Definition get_ten (t : nat) : E tensor := fun h =>
  match h_ten h !! t with Some r => (Ok r, h) | None => (UB NullDeref, h) end.
Definition get_sto (s : nat) : E storage := fun h =>
  match h_sto h !! s with Some r => (Ok r, h) | None => (UB NullDeref, h) end.
Definition set_ten (t : nat) (r : tensor) : E unit := fun h =>
  (Ok tt, Hp (h_sto h) (<[t := r]> (h_ten h)) (h_ver h)).
Definition set_sto (s : nat) (r : storage) : E unit := fun h =>
  (Ok tt, Hp (<[s := r]> (h_sto h)) (h_ten h) (h_ver h)).
Definition new_ten (r : tensor) : E nat := fun h =>
  (Ok (length (h_ten h)), Hp (h_sto h) (h_ten h ++ [r]) (h_ver h)).
Definition new_sto (r : storage) : E nat := fun h =>
  (Ok (length (h_sto h)), Hp (h_sto h ++ [r]) (h_ten h) (h_ver h)).

(** Field updates. *)
Definition with_grad (r : tensor) (g : option nat) : tensor :=
  Ten (t_dt r) (t_lay r) (t_sto r) g (t_rg r) (t_ret r) (t_fn r).
Definition with_rg (r : tensor) (b : bool) : tensor :=
  Ten (t_dt r) (t_lay r) (t_sto r) (t_grad r) b (t_ret r) (t_fn r).
Definition with_ret (r : tensor) (b : bool) : tensor :=
  Ten (t_dt r) (t_lay r) (t_sto r) (t_grad r) (t_rg r) b (t_fn r).
Definition with_fn (r : tensor) (f : option gradfn) : tensor :=
  Ten (t_dt r) (t_lay r) (t_sto r) (t_grad r) (t_rg r) (t_ret r) f.

(** Largest buffer operator new[] can return (47-bit user address space). *)
Definition alloc_max : Z := 140737488355328.

(** storage.cpp:4, 8-9: new uint8_t[size], uninitialised *)
Definition fresh_cells (t : dtype) (bytes : Z) : list cell :=
  replicate (Z.to_nat (bytes / size_of t)) None.
Definition new_blob (t : dtype) (bytes : Z) : outcome (list cell) :=
  if bytes <=? alloc_max then Ok (fresh_cells t bytes) else Throw BadAlloc.

(** storage.cpp:4 UntypedStorage::alloc *)
Definition sto_alloc (s : nat) : E unit :=
  let! r := get_sto s in
  let! b := lift (new_blob (sto_ty r) (sto_bytes r)) in
  set_sto s (Sto (sto_ty r) (sto_bytes r) (Some b)).
(** storage.cpp:14-18 UntypedStorage::zero_ *)
Definition sto_zero (s : nat) : E unit :=
  let! r := get_sto s in
  match sto_blob r with
  | None => mret tt
  | Some cs => set_sto s (Sto (sto_ty r) (sto_bytes r)
                            (Some (map (fun _ => Some (zero_val (sto_ty r))) cs)))
  end.
(** storage.cpp:22 UntypedStorage::release *)
Definition sto_release (s : nat) : E unit :=
  let! r := get_sto s in
  set_sto s (Sto (sto_ty r) (sto_bytes r) None).
(** storage.cpp:24 UntypedStorage::is_alloc *)
Definition sto_is_alloc (s : nat) : E bool :=
  let! r := get_sto s in
  mret (match sto_blob r with Some _ => true | None => false end).

(** [reinterpret_cast<T*>(blob)[pos]] as an rvalue, [T] given by [t] *)
Definition load (t : dtype) (s : nat) (pos : Z) : E val :=
  let! r := get_sto s in
  match sto_blob r with
  | None => mub NullDeref
  | Some cs =>
      if bool_decide (sto_ty r = t) then
        if (0 <=? pos) && (pos <? Z.of_nat (length cs)) then
          match cs !! Z.to_nat pos with
          | Some (Some v) => mret v
          | Some None => mub Uninit
          | None => mub OutOfBounds
          end
        else mub OutOfBounds
      else mub BadType
  end.

(** [reinterpret_cast<T*>(blob)[pos] = v]; [v] is already of type [t] *)
Definition store (t : dtype) (s : nat) (pos : Z) (v : val) : E unit :=
  let! r := get_sto s in
  match sto_blob r with
  | None => mub NullDeref
  | Some cs =>
      if bool_decide (sto_ty r = t) then
        if (0 <=? pos) && (pos <? Z.of_nat (length cs)) then
          set_sto s (Sto (sto_ty r) (sto_bytes r)
                       (Some (<[Z.to_nat pos := Some v]> cs)))
        else mub OutOfBounds
      else mub BadType
  end.

(** assignment of a value of type [from]: converts, then stores *)
Definition store_cvt (from t : dtype) (s : nat) (pos : Z) (v : val) : E unit :=
  let! v' := lift (cvt from t v) in store t s pos v'.
End with_fops.
Notation cell := (option val).
