(** Training: rounds of computing a formula, its sum, backward() and an update of the parameters;
    and gradient descent as a map on the elements. *)
From Verif.Spec Require Export Formula Descent.
From Verif.Model Require Export Exact Api.
#[local] Existing Instance Exact.

(** [V a i] is element [i] of tensor [a]; [h] gives the shapes *)
Definition seen (h : heap) (V : nat -> list Z -> Qc) (idx : list Z) (a : nat) : Qc := V a (bidx (shape_of h a) idx).
(** the formula, summed over all positions *)
Definition loss (h : heap) (e : formula) (V : nat -> list Z -> Qc) : Qc :=
  sum_over (form h e) (fun idx => eval (seen h V idx) e).
(** its derivative by element [i] of [a]: the element is broadcast to many positions *)
Definition loss_rate (h : heap) (e : formula) (V : nat -> list Z -> Qc) (a : nat) (i : list Z) : Qc :=
  sum_over (form h e) (fun idx => if decide (bidx (shape_of h a) idx = i) then rate (seen h V idx) a e else 0%Qc).
(** the elements after one step: those of the parameters [ls] move by the rate [c] times the
    derivative *)
Definition descent (h : heap) (e : formula) (c : nat) (ls : list nat) (V : nat -> list Z -> Qc) : nat -> list Z -> Qc :=
  fun a i => if decide (a ∈ ls) then (V a i + V c (bidx (shape_of h c) i) * loss_rate h e V a i)%Qc else V a i.

(** From [h] the calls [l] are rounds of training that end in [h']; [qs] has the value of the sum
    in each round. *)
Inductive trained (e : formula) (c : nat) (ls : list nat) : heap -> list Qc -> list op -> heap -> Prop :=
| TDone h : trained e c ls h [] [] h
| TRound h l x h1 t h2 h3 u h4 qs l' h' : written h e l x h1 ->
    exec (OSum (Some x)) h1 = (Ok (RHandle (Some t)), h2) -> exec (OBackward (Some t)) h2 = (Ok RUnit, h3) ->
    updated c h3 ls u h4 -> trained e c ls h4 qs l' h' ->
    trained e c ls h (value h2 t [] :: qs) ((l ++ OSum (Some x) :: OBackward (Some t) :: u) ++ l') h'.

(** The program holds leaves only; the formula can be written; the parameters are tracked leaves
    that occur in it, the rate broadcasts into their shapes, and no other held tensor is on the
    buffer of a parameter. *)
Record may_train (h : heap) (H : list nat) (e : formula) (c : nat) (ls : list nat) : Prop := MayTrain {
  mt_leaves : forall a, a ∈ H -> ~ is_node h a;
  mt_write : may_write h H e;
  mt_some : ls <> [];
  mt_once : NoDup ls;
  mt_params : forall a, a ∈ ls -> mentions e a /\ may_update h H c a /\ forall b, b ∈ H -> b <> a -> apart h b a
}.
