(** What backward() computes when requires_grad(false) has been called on intermediates, or
    earlier passes have gone through them: the derivative with the nodes that the pass does not
    reach held fast. *)
From Verif.Spec Require Export Stale Program.
From Verif.Model Require Export Exact Api.
#[local] Existing Instance Exact.

(** [d] follows the rules at the nodes below [t] that the pass reaches ([open], Spec/Stale.v) and
    at the tracked views; the other nodes below [t], and tensors that are not tracked, do not
    change. A view passes on what it gets even if the pass does not reach it, because its
    gradient lies on the buffer of its operand's. *)
Definition obeys_open (h : heap) (t : nat) (d : tangent) : Prop :=
  (forall x f, below h t x -> fn_of h x = Some f -> open h t x \/ is_view h x /\ tracked h x -> rule h d x (gf_kind f) (gf_in f)) /\
  (forall x idx, below h t x -> is_node h x -> ~ open h t x -> ~ is_view h x -> d x idx = 0%Qc) /\
  (forall x idx, below h t x -> ~ tracked h x -> d x idx = 0%Qc).
(** [q] is the rate of change of the only element of [t] when element [i] of the leaf [a] changes
    at rate 1, no other element of a leaf does, and the nodes that the pass does not reach are
    held fast *)
Definition derivative_open (h : heap) (t a : nat) (i : list Z) (q : Qc) : Prop :=
  exists d : tangent, obeys_open h t d /\
    (forall x idx, below h t x -> ~ is_node h x -> tracked h x -> d x idx = if decide (x = a /\ idx = i) then 1%Qc else 0%Qc) /\
    q = d t (map (fun _ => 0) (shape_of h t)).
(** requires_grad(false) on the tensors [ys] *)
Definition cuts (ys : list nat) : list op := map (fun y => ORequires (Some y) false) ys.
(** [h1] is [h] with requires_grad false at [ys] *)
Definition cut_heap (h : heap) (ys : list nat) (h1 : heap) : Prop :=
  h_sto h1 = h_sto h /\ h_ver h1 = h_ver h /\
  forall x, h_ten h1 !! x = (fun r => if decide (x ∈ ys) then Ten (t_dt r) (t_lay r) (t_sto r) (t_grad r) false (t_ret r) (t_fn r) else r) <$> h_ten h !! x.
(** In the graph below [t] after the cuts: tracked views look at tracked tensors, and a quotient
    that the pass reaches has tracked operands (C51). *)
Definition cut_fits (h : heap) (t : nat) : Prop :=
  forall x f, below h t x -> fn_of h x = Some f ->
    (gf_kind f = NoBack /\ tracked h x \/ gf_kind f = DivBack /\ open h t x) -> forall a, a ∈ gf_in f -> tracked h a.
(** backward() from [t] where earlier passes have gone through some of the nodes below [t], listed
    in [T]: those have no gradient now, and no view below [t] is one of them or looks at one *)
Record may_again (h : heap) (H : list nat) (T : nat -> Prop) (t : nat) : Prop := MayAgain {
  ma_held : t ∈ H;
  ma_node : is_node h t;
  ma_view : ~ is_view h t;
  ma_one : size_prod (shape_of h t) = 1;
  ma_lay : lay_of h t = contig (shape_of h t);
  ma_mean : forall x f, below h t x -> fn_of h x = Some f -> gf_kind f = MeanBack -> x = t;
  ma_bare : forall x r, below h t x -> x <> t -> T x -> h_ten h !! x = Some r -> t_grad r = None;
  ma_clear : forall x y, below h t x -> is_view h x -> below h x y -> ~ T y
}.
