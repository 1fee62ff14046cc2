(** Derivatives as limits of difference quotients. *)
From Verif.Spec Require Export Program.
From Verif.Model Require Export Exact Api.
#[local] Existing Instance Exact.

(** [q] is the derivative of [f] at 0 *)
Definition slope (f : Qc -> Qc) (q : Qc) : Prop :=
  forall eps, (0 < eps)%Qc -> exists delta, (0 < delta)%Qc /\
    forall s, s <> 0%Qc -> (qabs s < delta)%Qc -> (qabs ((f s - f 0%Qc) / s - q) < eps)%Qc.

(** The values that the tensors below [t] would have, had element [i] of the leaf [a] been
    greater by [s]: each node is computed anew from its inputs. *)
Record perturbed (h : heap) (t a : nat) (i : list Z) (s : Qc) (v : nat -> list Z -> Qc) : Prop := Perturbed {
  pt_leaf : forall x idx, below h t x -> ~ is_node h x ->
    v x idx = (value h x idx + if decide (x = a /\ idx = i) then s else 0)%Qc;
  pt_node : forall x f, below h t x -> fn_of h x = Some f -> computes h v x (gf_kind f) (gf_in f)
}.

(** No division by zero below [t], no abs of zero, and max and min are attained once. *)
Definition regular (h : heap) (t : nat) : Prop :=
  forall x f, below h t x -> fn_of h x = Some f ->
    match gf_kind f, gf_in f with
    | DivBack, [a; b] => forall idx, in_range (shape_of h b) idx -> value h b idx <> 0%Qc
    | KnownGradBack _, [a] =>
        if decide (shape_of h x = shape_of h a) then forall idx, in_range (shape_of h a) idx -> value h a idx <> 0%Qc
        else forall i j, in_range (shape_of h a) i -> in_range (shape_of h a) j ->
          value h a i = value h x [] -> value h a j = value h x [] -> i = j
    | _, _ => True
    end.

(** the only index of a tensor of one element *)
Definition first_index (h : heap) (t : nat) : list Z := map (fun _ => 0) (shape_of h t).
