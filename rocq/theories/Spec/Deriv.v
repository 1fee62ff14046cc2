(** Derivatives, in exact arithmetic: the rules of calculus for every kind of node, and the
    graphs for which backward() is claimed to follow them. *)
From Verif.Spec Require Export Graph Cat.
From Verif.Model Require Export Exact Api.
From Coq Require Export QArith Qcanon.
Global Close Scope Q_scope.
Global Open Scope Z_scope.

(** the number a stored value stands for *)
Definition num (v : val) : Qc := match v with VI z => qc_of_Z z | VF q => q end.
Definition sumq (l : list Qc) : Qc := foldr Qcplus 0%Qc l.
(** sum over the elements of an array of shape [ss] *)
Definition sum_over (ss : list Z) (f : list Z -> Qc) : Qc := sumq (map f (indices ss)).

Definition lay_of (h : heap) (x : nat) : layout :=
  match h_ten h !! x with Some r => t_lay r | None => Lay [] [] 0 end.
Definition shape_of (h : heap) (x : nat) : list Z := sizes (lay_of h x).
Definition tracked (h : heap) (x : nat) : Prop := exists r, h_ten h !! x = Some r /\ t_rg r = true.
(** element [idx] of tensor [x], as a number *)
Definition value (h : heap) (x : nat) (idx : list Z) : Qc :=
  match h_ten h !! x with Some r => num (contents h r idx) | None => 0%Qc end.
(** element [idx] of x.grad(), as a number; 0 if there is no gradient or no buffer for it yet *)
Definition grad_value (h : heap) (x : nat) (idx : list Z) : Qc :=
  match h_ten h !! x with
  | Some r => match t_grad r with Some g => value h g idx | None => 0%Qc end
  | None => 0%Qc
  end.

(** A tangent gives every element of every tensor a rate of change. *)
Definition tangent := nat -> list Z -> Qc.

(** The rate of change of tensor [x], computed by a node of kind [k] from the tensors [ins],
    is what the rules of calculus make of theirs. *)
Definition rule (h : heap) (d : tangent) (x : nat) (k : bkind) (ins : list nat) : Prop :=
  let S := shape_of h in
  match k, ins with
  | AddBack, [a; b] => forall idx, in_range (S x) idx ->
      d x idx = (d a (bidx (S a) idx) + d b (bidx (S b) idx))%Qc
  | SubBack, [a; b] => forall idx, in_range (S x) idx ->
      d x idx = (d a (bidx (S a) idx) - d b (bidx (S b) idx))%Qc
  | MulBack, [a; b] => forall idx, in_range (S x) idx ->
      d x idx = (d a (bidx (S a) idx) * value h b (bidx (S b) idx)
               + value h a (bidx (S a) idx) * d b (bidx (S b) idx))%Qc
  | DivBack, [a; b] => forall idx, in_range (S x) idx ->
      d x idx = (d a (bidx (S a) idx) / value h b (bidx (S b) idx)
               - value h a (bidx (S a) idx) * d b (bidx (S b) idx)
                 / (value h b (bidx (S b) idx) * value h b (bidx (S b) idx)))%Qc
  | SumBack, [a] => d x [] = sum_over (S a) (d a)
  | MeanBack, [a] => d x [] = (sum_over (S a) (d a) / qc_of_Z (size_prod (S a)))%Qc
  | CloneBack, [a] => forall idx, in_range (S x) idx -> d x idx = d a idx
  | NoBack, [a] => forall idx idx', in_range (S x) idx -> in_range (S a) idx' ->
      pos (lay_of h x) idx = pos (lay_of h a) idx' -> d x idx = d a idx'
  | CatBack dim, _ => forall idx, in_range (S x) idx ->
      let dm := Z.to_nat dim in
      let '(k, j) := owner (map (fun a => nth dm (S a) 0) ins) (nth dm idx 0) in
      match ins !! k with Some a => d x idx = d a (<[dm := j]> idx) | None => False end
  | KnownGradBack kg, [a] =>
      if decide (S x = S a)
      then forall idx, in_range (S x) idx -> d x idx = (value h kg idx * d a idx)%Qc
      else d x [] = sum_over (S a) (fun idx => value h kg idx * d a idx)%Qc
  | _, _ => False
  end.
(** [d] follows the rules at every node below [t], and tensors that are not tracked do not
    change *)
Definition obeys (h : heap) (t : nat) (d : tangent) : Prop :=
  (forall x f, below h t x -> fn_of h x = Some f -> rule h d x (gf_kind f) (gf_in f)) /\
  (forall x idx, below h t x -> ~ tracked h x -> d x idx = 0%Qc).

Definition is_mean (h : heap) (x : nat) : Prop := exists f, fn_of h x = Some f /\ gf_kind f = MeanBack.
(** [x] is a mean below the root [t] *)
Definition mean_below (h : heap) (t x : nat) : Prop :=
  below h t x /\ x <> t /\ is_mean h x.
(** The library's MeanBack does not look at the gradient of the mean (C50). To it a mean below
    the root is a constant, ... *)
Definition obeys_cut (h : heap) (t : nat) (d : tangent) : Prop :=
  (forall x f, below h t x -> ~ mean_below h t x -> fn_of h x = Some f -> rule h d x (gf_kind f) (gf_in f)) /\
  (forall x idx, mean_below h t x -> d x idx = 0%Qc) /\
  (forall x idx, below h t x -> ~ tracked h x -> d x idx = 0%Qc).
(** ... and counts as a further root: this is the rate of change of the mean of what the mean
    [x] has averaged. *)
Definition mean_rate (h : heap) (d : tangent) (x : nat) : Qc :=
  sumq (map (fun a => sum_over (shape_of h a) (d a) / qc_of_Z (size_prod (shape_of h a)))%Qc (inputs h x)).

(** ** the graphs *)
Definition is_view (h : heap) (x : nat) : Prop := exists f, fn_of h x = Some f /\ gf_kind f = NoBack.
(** the tensor that a chain of views starts from *)
Inductive base_of (h : heap) : nat -> nat -> Prop :=
  | base_self x : ~ is_view h x -> base_of h x x
  | base_view x f a b : fn_of h x = Some f -> gf_kind f = NoBack -> gf_in f = [a] -> base_of h a b -> base_of h x b.

(** [x] has a gradient tensor of its own type, shape and layout on storage [s] *)
Definition has_grad (h : heap) (x s : nat) : Prop :=
  exists r g gr, h_ten h !! x = Some r /\ t_grad r = Some g /\ h_ten h !! g = Some gr /\
    t_dt gr = t_dt r /\ t_lay gr = t_lay r /\ t_rg gr = false /\ t_sto gr = s.
(** storage [s] is a gradient buffer for a tensor of type [dt] and layout [lay]: not allocated
    yet, or all numbers *)
Definition raw_buffer (h : heap) (s : nat) (dt : dtype) (lay : layout) : Prop :=
  h_sto h !! s = Some (Sto dt (size_of dt * size_prod (sizes lay)) None).
Definition num_buffer (h : heap) (s : nat) (dt : dtype) (lay : layout) (qs : list Qc) : Prop :=
  h_sto h !! s = Some (Sto dt (size_of dt * size_prod (sizes lay)) (Some (map (fun q => Some (VF q)) qs))) /\
  Z.of_nat (length qs) = size_prod (sizes lay).

(** the shape conditions of a node *)
Definition node_ok (h : heap) (t x : nat) (k : bkind) (ins : list nat) : Prop :=
  let S := shape_of h in
  match k, ins with
  | AddBack, [a; b] | SubBack, [a; b] | MulBack, [a; b] =>
      S x = bshape (S a) (S b) /\ compatible (S a) (S b) /\ no_zero_one (S a) (S b)
  | DivBack, [a; b] =>
      S x = bshape (S a) (S b) /\ compatible (S a) (S b) /\ no_zero_one (S a) (S b) /\
      S b = S x /\ tracked h a /\ tracked h b /\
      forall idx, in_range (S x) idx -> value h x idx = (value h a (bidx (S a) idx) / value h b idx)%Qc
  | SumBack, [a] | MeanBack, [a] => S x = []
  | CloneBack, [a] => S x = S a
  | NoBack, [a] => tracked h a /\ forall idx, in_range (S x) idx ->
      exists idx', in_range (S a) idx' /\ pos (lay_of h x) idx = pos (lay_of h a) idx'
  | CatBack dim, _ => exists a0 ins', ins = a0 :: ins' /\ 0 <= dim < Z.of_nat (length (S a0)) /\
      let dm := Z.to_nat dim in
      Forall (fun a => same_but dm (S a0) (S a)) ins /\
      lay_of h x = contig (<[dm := total_len (map (fun a => nth dm (S a) 0) ins)]> (S a0))
  | KnownGradBack kg, [a] =>
      (exists r, h_ten h !! kg = Some r /\ holds h r (contents h r)) /\ S kg = S a /\ (S x = S a \/ S x = [])
  | _, _ => False
  end.
(** the storages that the computation reads: data, and the factors stored in nodes *)
Definition data_sto (h : heap) (t s : nat) : Prop :=
  (exists x r, below h t x /\ h_ten h !! x = Some r /\ t_sto r = s) \/
  (exists x f kg r, below h t x /\ fn_of h x = Some f /\ gf_kind f = KnownGradBack kg /\ h_ten h !! kg = Some r /\ t_sto r = s).

Record grad_ready (h : heap) (t : nat) : Prop := GradReady {
  (** the root has one element, in row-major order, and is no view *)
  gr_root : exists r f, h_ten h !! t = Some r /\ t_fn r = Some f /\ t_rg r = true /\
    t_lay r = contig (shape r) /\ size_prod (shape r) = 1 /\ ~ is_view h t;
  (** first backward through the nodes below the root *)
  gr_new : untraversed h t;
  (** all tensors hold data and their gradients can be allocated *)
  gr_data : forall x r, below h t x -> h_ten h !! x = Some r ->
    holds h r (contents h r) /\ size_of (t_dt r) * size_prod (shape r) <= alloc_max;
  gr_node : forall x f, below h t x -> fn_of h x = Some f -> node_ok h t x (gf_kind f) (gf_in f);
  (** tensors that are no views fill their buffer *)
  gr_dense : forall x, below h t x -> tracked h x -> ~ is_view h x ->
    lay_in (lay_of h x) (size_prod (shape_of h x)) /\ lay_inj (lay_of h x);
  (** gradients: of a tensor that is no view. The root's is replaced. *)
  gr_grad : forall x r, below h t x -> x <> t -> tracked h x -> ~ is_view h x -> h_ten h !! x = Some r ->
    t_grad r = None \/ exists s, has_grad h x s /\
      (raw_buffer h s (t_dt r) (t_lay r) \/ ~ is_node h x /\ exists qs, num_buffer h s (t_dt r) (t_lay r) qs);
  (** of a view: on the buffer of its base's gradient *)
  gr_view : forall x b, below h t x -> is_view h x -> base_of h x b -> exists s, has_grad h x s /\ has_grad h b s;
  (** gradient buffers are not shared otherwise *)
  gr_sep : forall x y s, below h t x -> below h t y -> x <> t -> y <> t -> ~ is_view h x -> ~ is_view h y ->
    tracked h x -> tracked h y -> has_grad h x s -> has_grad h y s -> x = y;
  gr_apart : forall x s, below h t x -> x <> t -> tracked h x -> has_grad h x s -> ~ data_sto h t s
}.
(** [ls] are the tracked leaves below [t] *)
Definition leaves (h : heap) (t : nat) (ls : list nat) : Prop :=
  NoDup ls /\ forall x, x ∈ ls <-> below h t x /\ ~ is_node h x /\ tracked h x.
(** [ms] are the means below [t] *)
Definition means (h : heap) (t : nat) (ms : list nat) : Prop :=
  NoDup ms /\ forall x, x ∈ ms <-> mean_below h t x.
(** the gradients of the leaves against a direction *)
Definition pairing (h : heap) (ls : list nat) (d : tangent) : Qc :=
  sumq (map (fun x => sum_over (shape_of h x) (fun idx => grad_value h x idx * d x idx)%Qc) ls).
