(** One step of gradient descent on an expression. *)
From Verif.Spec Require Export ExprGrad Descent.
From Verif.Model Require Export Exact Api.
#[local] Existing Instance Exact.

(** The arrays [env'] are those of [env] after a step: each element of the parameters [ls] has
    moved by the rate, an element of [C], times the slope of the expression as a function of that
    element; the other arrays have the same elements. *)
Definition descends (env : nat -> option array) (e : expr) (C : array) (ls : list nat) (env' : nat -> option array) : Prop :=
  forall t, match env t, env' t with
  | Some A, Some A' => a_dt A' = a_dt A /\ a_ss A' = a_ss A /\ a_rg A' = a_rg A /\
      forall i, in_range (a_ss A) i ->
        if decide (t ∈ ls) then exists q, slope (fun s => first_elem (den (nudge env t i s) e)) q /\
          num (a_v A' i) = (num (a_v A i) + num (a_v C (bidx (a_ss C) i)) * q)%Qc
        else num (a_v A' i) = num (a_v A i)
  | None, None => True
  | _, _ => False
  end.
(** The parameters are leaves that occur in the expression, the rate broadcasts into their shapes,
    and no other held tensor is on the buffer of a parameter. *)
Definition may_step (h : heap) (H : list nat) (env : nat -> option array) (e : expr) (c : nat) (ls : list nat) : Prop :=
  NoDup ls /\ forall a, a ∈ ls -> env a <> None /\ occurs e a /\ may_update h H c a /\ forall b, b ∈ H -> b <> a -> apart h b a.
Definition no_gradients (h : heap) (ls : list nat) : Prop :=
  forall a i, a ∈ ls -> in_range (shape_of h a) i -> grad_value h a i = 0%Qc.

(** [env'] is reached from [env] by steps of gradient descent; [As] has the array that the
    expression denotes before each step. *)
Inductive descents (e : expr) (c : nat) (ls : list nat) : (nat -> option array) -> list array -> (nat -> option array) -> Prop :=
| DNone env : descents e c ls env [] env
| DMore env A C env1 As env' : den env e = Some A -> env c = Some C -> descends env e C ls env1 ->
    descents e c ls env1 As env' -> descents e c ls env (A :: As) env'.
(** From [h] the calls [l] are rounds that evaluate the expression, call backward() on the result
    and update the parameters; they end in [h']. [As] has the result of each round. *)
Inductive descended (e : expr) (c : nat) (ls : list nat) : heap -> list array -> list op -> heap -> Prop :=
| RNone h : descended e c ls h [] [] h
| RMore h l t h1 A h2 u h3 As l' h' : eval e h = (Ok t, h1) -> has_arr h1 t A -> exec (OBackward (Some t)) h1 = (Ok RUnit, h2) ->
    updated c h2 ls u h3 -> descended e c ls h3 As l' h' ->
    descended e c ls h (A :: As) ((l ++ OBackward (Some t) :: u) ++ l') h'.
