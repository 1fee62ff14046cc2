(** Derivatives of expressions over tensors. *)
From Verif.Spec Require Export Expr Slope.
From Verif.Model Require Export Exact Api.
#[local] Existing Instance Exact.

(** the leaves, with element [i] of the leaf [a] greater by [s] *)
Definition nudge (env : nat -> option array) (a : nat) (i : list Z) (s : Qc) (t : nat) : option array :=
  match env t with
  | Some A => Some (if decide (t = a)
      then Arr (a_dt A) (a_ss A) (a_rg A) (fun idx => if decide (idx = i) then VF (num (a_v A idx) + s)%Qc else a_v A idx)
      else A)
  | None => None
  end.
(** the first element, as a number *)
Definition first_elem (x : option array) : Qc :=
  match x with Some A => num (a_v A (map (fun _ => 0) (a_ss A))) | None => 0%Qc end.

Section smooth.
Context (env : nat -> option array).
(** What backward() differentiates: comparisons and means only of untracked arrays (for means see
    C50), quotients with a tracked operand as in C51 and with no denominator 0. *)
Fixpoint smooth (e : expr) : Prop :=
  match e with
  | ELeaf _ => True
  | EArith o a b => smooth a /\ smooth b /\ (o = ADiv -> on2 env a b (fun A B => a_rg A || a_rg B = true ->
      a_rg A = true /\ a_rg B = true /\ a_ss B = bshape (a_ss A) (a_ss B) /\
      forall idx, in_range (a_ss B) idx -> num (a_v B idx) <> 0%Qc))
  | ECmp _ a b => smooth a /\ smooth b /\ on2 env a b (fun A B => a_rg A = false /\ a_rg B = false)
  | EMean a => smooth a /\ on1 env a (fun A => a_rg A = false)
  | EReshape a xs _ => smooth a /\ Forall (fun x => -1 <= x) xs /\ given xs < 2 ^ 64
  | ECat a b _ => smooth a /\ smooth b
  | ENeg a | ECast a _ | ECopy a | ESum a | ETranspose a _ _ | ESlice a _ _ => smooth a
  end.
(** what backward() starts from: the result is no view and no leaf. A mean may come last. *)
Definition smooth_root (e : expr) : Prop :=
  match e with
  | EMean a => smooth a
  | EArith _ _ _ | ENeg _ | ECopy _ | ESum _ | ECat _ _ _ => smooth e
  | _ => False
  end.
End smooth.
(** the leaves are held by the program and were not computed *)
Definition leaves_held (h : heap) (H : list nat) (env : nat -> option array) : Prop :=
  forall t A, env t = Some A -> t ∈ H /\ ~ is_node h t.
(** the leaf [a] occurs *)
Fixpoint occurs (e : expr) (a : nat) : Prop :=
  match e with
  | ELeaf t => t = a
  | EArith _ p q | ECmp _ p q | ECat p q _ => occurs p a \/ occurs q a
  | EReshape p _ _ | EMean p | ENeg p | ECast p _ | ECopy p | ESum p | ETranspose p _ _ | ESlice p _ _ => occurs p a
  end.
