(** Programs whose graphs backward() can differentiate: which calls they make. *)
From Verif.Spec Require Export Deriv Chain Init Sized Calls Cat Part Result Inplace.
From Verif.Model Require Export Exact Api.
#[local] Existing Instance Exact.

(** The program holds tensor [a], and its record is [r]. *)
Definition at_hand (h : heap) (H : list nat) (a : nat) (r : tensor) : Prop :=
  a ∈ H /\ h_ten h !! a = Some r.
Definition shape_fits (dt : dtype) (ss : list Z) : Prop :=
  Forall (fun n => 0 <= n < two64) ss /\ fits dt ss.
(** the elements fill a buffer of as many cells *)
Definition dense (l : layout) : Prop := lay_in l (size_prod (sizes l)) /\ lay_inj l.

(** Calls that return a tensor, and what is asked of their operands. [H] are the tensors the
    program holds; gradients are not among them. *)
Inductive may_call (h : heap) (H : list nat) : op -> Prop :=
| CScalar dt v : has_ty dt v -> may_call h H (OScalar dt v)
| CInit t ss dt : rectangular t ss dt -> typed t -> Forall (fun n => n < two64) ss -> fits dt ss -> may_call h H (OInit t)
| CZeros ss dt : shape_fits dt ss -> may_call h H (OZeros ss dt)
| COnes ss dt : shape_fits dt ss -> may_call h H (OOnes ss dt)
| CZerosLike a r : at_hand h H a r -> may_call h H (OZerosLike (Some a))
| COnesLike a r : at_hand h H a r -> may_call h H (OOnesLike (Some a))
| CFullInt ss n dt : shape_fits dt ss -> may_call h H (OFullInt ss n dt)
| CFullDouble ss q dt : shape_fits dt ss -> may_call h H (OFullDouble ss q dt)
| CEye n m dt : shape_fits dt [n; m] -> may_call h H (OEye n m dt)
| CFromBlob data ss dt : shape_fits dt ss -> Forall (has_ty dt) data ->
    size_prod ss <= Z.of_nat (length data) -> may_call h H (OFromBlob data ss dt)
| CArith o a b ra rb : at_hand h H a ra -> at_hand h H b rb ->
    compatible (shape ra) (shape rb) -> no_zero_one (shape ra) (shape rb) ->
    fits (dt_join (t_dt ra) (t_dt rb)) (bshape (shape ra) (shape rb)) ->
    (** a quotient that is tracked: see C51 *)
    (o = ADiv -> t_rg ra || t_rg rb = true ->
     t_rg ra = true /\ t_rg rb = true /\ shape rb = bshape (shape ra) (shape rb)) ->
    may_call h H (exec_arith o (Some a) (Some b))
| CNeg a r : at_hand h H a r -> fits (dt_join I32 (t_dt r)) (shape r) -> may_call h H (ONeg (Some a))
| CPos a r : at_hand h H a r -> may_call h H (OPos (Some a))
| CCmp c a b ra rb : at_hand h H a ra -> at_hand h H b rb ->
    compatible (shape ra) (shape rb) -> no_zero_one (shape ra) (shape rb) ->
    fits I8 (bshape (shape ra) (shape rb)) -> may_call h H (OCmp c (Some a) (Some b))
| CType a r dt : at_hand h H a r -> fits dt (shape r) -> may_call h H (OTypeTo (Some a) dt)
| CClone a r : at_hand h H a r -> may_call h H (OClone (Some a))
| CContiguous a r : at_hand h H a r -> may_call h H (OContiguous (Some a))
| CSum a r : at_hand h H a r -> may_call h H (OSum (Some a))
| CMean a r : at_hand h H a r -> may_call h H (OMean (Some a))
| CAbs a r : at_hand h H a r -> dense (t_lay r) -> may_call h H (OAbs (Some a))
(** max and min need a defined cell at the start of the buffer (C29); a 0-dimensional tensor
    that is tracked is excluded *)
| CMax a r x0 : at_hand h H a r -> first_cell h r x0 -> (t_rg r = true -> shape r <> []) -> may_call h H (OMax (Some a))
| CMin a r x0 : at_hand h H a r -> first_cell h r x0 -> (t_rg r = true -> shape r <> []) -> may_call h H (OMin (Some a))
| CCat ts r0 rs dim : Forall2 (at_hand h H) ts (r0 :: rs) ->
    shape_fits (cat_type r0 (r0 :: rs)) (cat_shape (Z.to_nat dim) r0 (r0 :: rs)) ->
    may_call h H (OCat (map Some ts) dim)
| CSlice a r s : at_hand h H a r -> Forall (fun n => n < two63) (shape r) -> may_call h H (OSlice (Some a) s)
| CTranspose a r i j : at_hand h H a r -> may_call h H (OTranspose (Some a) i j)
| CReshape a r xs : at_hand h H a r -> Forall in_ll xs -> Forall (fun x => -1 <= x) xs -> given xs < 2 ^ 64 ->
    may_call h H (OReshape (Some a) xs)
| CReshapeAs a b r rb : at_hand h H a r -> at_hand h H b rb -> size_prod (shape rb) < 2 ^ 64 ->
    may_call h H (OReshapeAs (Some a) (Some b))
| CDetach a r : at_hand h H a r -> may_call h H (ODetach (Some a)).

(** t.backward() can be called: [t] has one element, is computed from tracked tensors and is
    no view; and no earlier backward has passed through another node below it, listed in [T] *)
Record may_start (h : heap) (H : list nat) (T : nat -> Prop) (t : nat) : Prop := MayStart {
  mb_held : t ∈ H;
  mb_node : is_node h t;
  mb_view : ~ is_view h t;
  mb_one : size_prod (shape_of h t) = 1;
  mb_lay : lay_of h t = contig (shape_of h t);
  mb_first : forall x, below h t x -> x <> t -> ~ T x
}.
(** backward() can also be called on a view with one element, but passes no gradient on (C49) *)
Record may_start_view (h : heap) (H : list nat) (T : nat -> Prop) (t : nat) : Prop := MayStartView {
  mv_held : t ∈ H;
  mv_view : is_view h t;
  mv_one : size_prod (shape_of h t) = 1;
  mv_first : forall x, below h t x -> x <> t -> ~ T x
}.
(** [may_start], and backward() is claimed to follow the derivative: no mean lies below [t] (C50) *)
Record may_backward (h : heap) (H : list nat) (T : nat -> Prop) (t : nat) : Prop := MayBackward {
  mb_start :> may_start h H T t;
  mb_mean : forall x f, below h t x -> fn_of h x = Some f -> gf_kind f = MeanBack -> x = t
}.

(** the slope that abs, max or min has stored at its node *)
Definition kg_of (k : bkind) : list nat := match k with KnownGradBack kg => [kg] | _ => [] end.
(** the graph of [x] has a node whose own data, operand or stored slope lies in the buffer [s] *)
Definition uses (h : heap) (x s : nat) : Prop :=
  exists y f z r, below h x y /\ fn_of h y = Some f /\ z ∈ y :: gf_in f ++ kg_of (gf_kind f) /\
    h_ten h !! z = Some r /\ t_sto r = s.

(** [program ops H T h]: the calls [ops] lead to the state [h], in which the program holds the
    tensors [H] and has passed by backward() through the nodes [T]. *)
Inductive program : list op -> list nat -> (nat -> Prop) -> heap -> Prop :=
| PStart : program [] [] (fun _ => False) empty_heap
| PCall ops H T h o x h' : program ops H T h -> may_call h H o -> exec o h = (Ok (RHandle (Some x)), h') ->
    program (ops ++ [o]) (x :: H) T h'
(** any other call that returns a new tensor and does not track it; its operands may be gradients *)
| PNew ops H T h o x dt ss w h' : program ops H T h -> size_ok o -> exec o h = (Ok (RHandle (Some x)), h') ->
    new_tensor h h' x dt ss false w -> fits dt ss -> program (ops ++ [o]) (x :: H) T h'
(** queries, and calls that are rejected; they may leave unreachable tensors behind *)
| PLook ops H T h o x h' : program ops H T h -> size_ok o -> exec o h = (x, h') -> extends h h' ->
    (forall u, x <> UB u) -> x <> Diverge -> program (ops ++ [o]) H T h'
(** requires_grad(true) on a leaf *)
| PRequires ops H T h a r h' : program ops H T h -> at_hand h H a r -> ~ is_node h a -> dense (t_lay r) ->
    exec (ORequires (Some a) true) h = (Ok RUnit, h') -> program (ops ++ [ORequires (Some a) true]) H T h'
| PRetain ops H T h a r b h' : program ops H T h -> at_hand h H a r ->
    exec (ORetain (Some a) b) h = (Ok RUnit, h') -> program (ops ++ [ORetain (Some a) b]) H T h'
(** zero_grad() on a leaf *)
| PZero ops H T h a r h' : program ops H T h -> at_hand h H a r -> ~ is_node h a ->
    exec (OZeroGrad (Some a)) h = (Ok RUnit, h') -> program (ops ++ [OZeroGrad (Some a)]) H T h'
| PBackward ops H T h t h' : program ops H T h -> may_start h H T t \/ may_start_view h H T t ->
    exec (OBackward (Some t)) h = (Ok RUnit, h') ->
    program (ops ++ [OBackward (Some t)]) H (fun x => T x \/ below h t x /\ is_node h x) h'
(** a call that replaces the elements of [a], such as += (C39), when no tensor that the program
    holds was computed from the old ones. Only nodes of held tensors count as passed; [PForget]
    drops the others. *)
| PWrite ops H T h o y a r w h' : program ops H T h -> size_ok o -> at_hand h H a r ->
    exec o h = (Ok y, h') -> wrote h h' r w -> (forall x, x ∈ H -> ~ uses h x (t_sto r)) ->
    (forall x, T x -> exists y, y ∈ H /\ below h y x) -> program (ops ++ [o]) H T h'
(** the program may give up tensors *)
| PForget ops H T h H' T' : program ops H T h -> (forall x, x ∈ H' -> x ∈ H) ->
    (forall x, T' x <-> T x /\ exists y, y ∈ H' /\ below h y x) -> program ops H' T' h.

(** no node has been passed *)
Definition none : nat -> Prop := fun _ => False.
(** One step of gradient descent on the leaf [a] with the rate [c]: g = a.grad(); s = g * c;
    d = a.detach(); d += s; a.zero_grad() *)
Definition update (a c g s d : nat) : list op :=
  [OGrad (Some a); OMul (Some g) (Some c); ODetach (Some a); OAddEq (Some d) (Some s); OZeroGrad (Some a)].
(** [a] has a gradient tensor with data *)
Definition has_gradient (h : heap) (a : nat) : Prop :=
  exists r g rg, h_ten h !! a = Some r /\ t_grad r = Some g /\ tensor_at h g rg (contents h rg).
(** a tracked leaf [a], and a rate [c] that broadcasts into its shape *)
Definition may_update (h : heap) (H : list nat) (c a : nat) : Prop :=
  exists ra rc, at_hand h H a ra /\ ~ is_node h a /\ t_rg ra = true /\ at_hand h H c rc /\ t_rg rc = false /\
    compatible (shape ra) (shape rc) /\ no_zero_one (shape ra) (shape rc) /\
    bshape (shape ra) (shape rc) = shape ra /\ fits (dt_join (t_dt ra) (t_dt rc)) (shape ra).
(** two tensors on different buffers *)
Definition apart (h : heap) (x y : nat) : Prop :=
  forall rx ry, h_ten h !! x = Some rx -> h_ten h !! y = Some ry -> t_sto rx <> t_sto ry.
(** the same step on several leaves; [ids] are the tensors it makes *)
Fixpoint updates (c : nat) (ls : list nat) (ids : list (nat * nat * nat)) : list op :=
  match ls, ids with
  | a :: ls', (g, s, d) :: ids' => update a c g s d ++ updates c ls' ids'
  | _, _ => []
  end.

(** ** what the nodes compute *)
Definition qabs (q : Qc) : Qc := if decide (q < 0)%Qc then (- q)%Qc else q.
(** its slope; at 0, where there is none, the library takes 1 *)
Definition qsign (q : Qc) : Qc := if decide (q < 0)%Qc then (-1)%Qc else 1%Qc.
Definition greatest (ss : list Z) (f : list Z -> Qc) (q : Qc) : Prop :=
  (exists idx, in_range ss idx /\ q = f idx) /\ forall idx, in_range ss idx -> (f idx <= q)%Qc.
Definition least (ss : list Z) (f : list Z -> Qc) (q : Qc) : Prop :=
  (exists idx, in_range ss idx /\ q = f idx) /\ forall idx, in_range ss idx -> (q <= f idx)%Qc.
(** With the values [v], tensor [x] is what a node of kind [k] makes of the tensors [ins].
    The nodes with a stored factor are those of abs, max and min: abs keeps the shape, and
    the value that max has stored is greatest among those stored in its operand. *)
Definition computes (h : heap) (v : nat -> list Z -> Qc) (x : nat) (k : bkind) (ins : list nat) : Prop :=
  let S := shape_of h in
  match k, ins with
  | AddBack, [a; b] => forall idx, in_range (S x) idx -> v x idx = (v a (bidx (S a) idx) + v b (bidx (S b) idx))%Qc
  | SubBack, [a; b] => forall idx, in_range (S x) idx -> v x idx = (v a (bidx (S a) idx) - v b (bidx (S b) idx))%Qc
  | MulBack, [a; b] => forall idx, in_range (S x) idx -> v x idx = (v a (bidx (S a) idx) * v b (bidx (S b) idx))%Qc
  | DivBack, [a; b] => forall idx, in_range (S x) idx -> v x idx = (v a (bidx (S a) idx) / v b (bidx (S b) idx))%Qc
  | SumBack, [a] => v x [] = sum_over (S a) (v a)
  | MeanBack, [a] => v x [] = (sum_over (S a) (v a) / qc_of_Z (size_prod (S a)))%Qc
  | CloneBack, [a] => forall idx, in_range (S x) idx -> v x idx = v a idx
  | NoBack, [a] => forall idx idx', in_range (S x) idx -> in_range (S a) idx' ->
      pos (lay_of h x) idx = pos (lay_of h a) idx' -> v x idx = v a idx'
  | CatBack dim, _ => forall idx, in_range (S x) idx ->
      let dm := Z.to_nat dim in
      let '(k, j) := owner (map (fun a => nth dm (S a) 0) ins) (nth dm idx 0) in
      match ins !! k with Some a => v x idx = v a (<[dm := j]> idx) | None => False end
  | KnownGradBack kg, [a] =>
      S x = S a /\ (forall idx, in_range (S x) idx -> v x idx = qabs (v a idx)) \/
      S x = [] /\ S a <> [] /\
        if decide (Forall (fun idx => (value h a idx <= value h x [])%Qc) (indices (S a)))
        then greatest (S a) (v a) (v x []) else least (S a) (v a) (v x [])
  | _, _ => False
  end.

(** ** the derivative *)
(** [q] is the derivative of the only element of [t] with respect to element [i] of the leaf
    [a]: the rate of change of [t] when that element changes at rate 1 and no other element of
    a leaf changes *)
Definition derivative (h : heap) (t a : nat) (i : list Z) (q : Qc) : Prop :=
  exists d : tangent, obeys h t d /\
    (forall x idx, below h t x -> ~ is_node h x -> tracked h x -> d x idx = if decide (x = a /\ idx = i) then 1%Qc else 0%Qc) /\
    q = d t (map (fun _ => 0) (shape_of h t)).
(** [q] is the derivative of the only element of [t] with respect to element [j] of the tensor
    [u] below it, computed or not: the rate of change of [t] when that element of [u] is made to
    change at rate 1, and no other element of [u] or of a leaf changes *)
Definition derivative_at (h : heap) (t u : nat) (j : list Z) (q : Qc) : Prop :=
  exists d : tangent,
    (forall x f, below h t x -> x <> u -> fn_of h x = Some f -> rule h d x (gf_kind f) (gf_in f)) /\
    (forall x idx, below h t x -> ~ tracked h x -> d x idx = 0%Qc) /\
    (forall x idx, below h t x -> x = u \/ ~ is_node h x /\ tracked h x -> d x idx = if decide (x = u /\ idx = j) then 1%Qc else 0%Qc) /\
    q = d t (map (fun _ => 0) (shape_of h t)).
(** [d] is how things change when element [i] of the leaf [a] changes at rate 1, no other
    element of a leaf does, and the means below [t] are held fast *)
Definition cut_tangent (h : heap) (t a : nat) (i : list Z) (d : tangent) : Prop :=
  obeys_cut h t d /\
  forall x idx, below h t x -> ~ is_node h x -> tracked h x -> d x idx = if decide (x = a /\ idx = i) then 1%Qc else 0%Qc.
