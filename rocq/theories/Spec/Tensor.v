(** Specification vocabulary: what a tensor record denotes in a heap. Only the data
    types of the model are used here, none of its functions. *)
From Verif.Spec Require Export Index.
From Verif.Model Require Export Heap.

Section with_fops.
Context {fo : FOps}.

(** exact position (unbounded integers) of a multi-index in a strided layout *)
Definition pos (l : layout) (idx : list Z) : Z := offset l + dot (strides l) idx.

(** the cells of storage [s], if it is allocated *)
Definition cells (h : heap) (s : nat) : option (list cell) :=
  match h_sto h !! s with Some st => sto_blob st | None => None end.

(** element of tensor [r] at [idx] *)
Definition elem (h : heap) (r : tensor) (idx : list Z) : option val :=
  match cells h (t_sto r) with
  | Some cs => if 0 <=? pos (t_lay r) idx
               then match cs !! Z.to_nat (pos (t_lay r) idx) with
                    | Some c => c | None => None end
               else None
  | None => None
  end.

(** The layout makes sense: one stride per dimension, machine-sized fields. *)
Definition lay_ok (l : layout) : Prop :=
  (length (sizes l) <= length (strides l))%nat /\
  Forall (fun n => 0 <= n < two64) (sizes l) /\ 0 <= offset l < two64.

(** every element lies in a buffer of [n] cells *)
Definition lay_in (l : layout) (n : Z) : Prop :=
  forall idx, in_range (sizes l) idx -> 0 <= pos l idx < n.
(** distinct indices have distinct cells *)
Definition lay_inj (l : layout) : Prop :=
  forall i j, in_range (sizes l) i -> in_range (sizes l) j -> pos l i = pos l j -> i = j.

(** Tensor [r] is backed in [h] by an allocated buffer [cs] of its element type that
    contains all its elements. *)
Definition backed (h : heap) (r : tensor) (cs : list cell) : Prop :=
  (exists b, h_sto h !! t_sto r = Some (Sto (t_dt r) b (Some cs))) /\
  lay_ok (t_lay r) /\ lay_in (t_lay r) (Z.of_nat (length cs)) /\
  Z.of_nat (length cs) < two63.

(** Tensor [r] holds in [h] the array [v]: it is backed and every element is
    initialised to the corresponding value, of the right type. *)
Definition holds (h : heap) (r : tensor) (v : list Z -> val) : Prop :=
  (exists cs, backed h r cs) /\
  forall idx, in_range (sizes (t_lay r)) idx ->
    elem h r idx = Some (v idx) /\ has_ty (t_dt r) (v idx).

(** [h'] has everything [h] has, unchanged, and possibly more. *)
Definition extends (h h' : heap) : Prop :=
  (forall s x, h_sto h !! s = Some x -> h_sto h' !! s = Some x) /\
  (forall t x, h_ten h !! t = Some x -> h_ten h' !! t = Some x).

(** The fields of a tensor other than its autograd state. *)
Definition same_data (a b : tensor) : Prop :=
  t_dt a = t_dt b /\ t_lay a = t_lay b /\ t_sto a = t_sto b.

(** All tensors and all buffers of [h] are in [h'] with the same shape, dtype,
    layout, buffer and contents; autograd fields may differ. *)
Definition data_kept (h h' : heap) : Prop :=
  (forall s x, h_sto h !! s = Some x -> h_sto h' !! s = Some x) /\
  (forall t x, h_ten h !! t = Some x ->
     exists x', h_ten h' !! t = Some x' /\ same_data x x').
End with_fops.
