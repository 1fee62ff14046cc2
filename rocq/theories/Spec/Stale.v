(** Which nodes a pass of backward() reaches when some have been passed before, or had
    requires_grad(false) called on them. *)
From Verif.Spec Require Export Graph.

Section with_fops.
Context {fo : FOps}.
(** how many times the nodes below [t], listed in [R], use [y] as an operand *)
Definition times (h : heap) (R : list nat) (y : nat) : Z :=
  Z.of_nat (length (filter (fun z => z = y) (R ≫= inputs h))).
Definition nodes_below (h : heap) (t : nat) (R : list nat) : Prop :=
  NoDup R /\ forall x, x ∈ R <-> below h t x /\ is_node h x.
(** never passed *)
Definition unpassed (h : heap) (x : nat) : Prop :=
  exists r f, h_ten h !! x = Some r /\ t_fn r = Some f /\ t_rg r = true /\ gf_acc f = 0.
(** its counter does not reach the number of uses below [t] again *)
Definition stopped (h : heap) (t x : nat) : Prop :=
  exists r f R, h_ten h !! x = Some r /\ t_fn r = Some f /\ nodes_below h t R /\
    if t_rg r then times h R x <= gf_acc f else gf_acc f <> times h R x.
(** [x], and every intermediate between [x] and the root [t], is unpassed; the state of the
    root itself does not matter *)
Definition open (h : heap) (t x : nat) : Prop :=
  below h t x /\ is_node h x /\ forall c, below h t c -> below h c x -> c <> t -> unpassed h c.
(** What a pass from [t] over the nodes in [order] does to the record [r] of [x]: dtype, layout,
    buffer and flags stay. The gradient stays unless [x] is the root or an operand of a
    processed node, or if [x] is not tracked; a tracked leaf that is such an operand has one. Backward nodes keep their kind and operands and
    their counters grow by the number of uses in [order]. *)
Definition passed_over (h : heap) (t : nat) (order : list nat) (x : nat) (r r' : tensor) : Prop :=
  same_data r r' /\ t_rg r' = t_rg r /\ t_ret r' = t_ret r /\
  (x <> t -> (forall p, p ∈ order -> x ∉ inputs h p) -> t_grad r' = t_grad r) /\
  (t_rg r = false -> t_grad r' = t_grad r) /\
  (t_fn r = None -> t_rg r = true -> (exists p, p ∈ order /\ x ∈ inputs h p) -> is_Some (t_grad r')) /\
  (t_fn r = None -> t_fn r' = None) /\
  (forall f, t_fn r = Some f -> below h t x -> exists f', t_fn r' = Some f' /\ gf_kind f' = gf_kind f /\ gf_in f' = gf_in f /\
    gf_acc f' = gf_acc f + if t_rg r then times h order x else 0).
(** buffers of the gradients that operands of the open nodes have in [h] *)
Definition operand_grad_buffer (h : heap) (t s : nat) : Prop :=
  exists x y r g gr, open h t x /\ y ∈ inputs h x /\ h_ten h !! y = Some r /\ t_grad r = Some g /\
    h_ten h !! g = Some gr /\ t_sto gr = s.
(** backward() can start at [t] *)
Definition may_start (h : heap) (t : nat) : Prop :=
  exists r, h_ten h !! t = Some r /\ t_rg r = true /\ is_node h t /\ size_prod (shape r) = 1.
(** each intermediate below [t] was never passed, or is stopped *)
Definition settled (h : heap) (t : nat) : Prop :=
  forall x, below h t x -> is_node h x -> x <> t -> unpassed h x \/ stopped h t x.
(** no backward has passed through an intermediate below [t] *)
Definition unwalked (h : heap) (t : nat) : Prop :=
  forall x r f, below h t x -> h_ten h !! x = Some r -> t_fn r = Some f -> x <> t -> gf_acc f = 0.
(** requires_grad is false *)
Definition untracked (h : heap) (x : nat) : Prop := exists r, h_ten h !! x = Some r /\ t_rg r = false.
(** there is a cut intermediate other than the root on some path from [t] to [p], or [p] is one *)
Definition cut_above (h : heap) (t p : nat) : Prop :=
  exists c, below h t c /\ below h c p /\ c <> t /\ untracked h c.
End with_fops.
