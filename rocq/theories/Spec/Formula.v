(** Arithmetic formulas over tensors, with broadcasting, and their partial derivatives. *)
From Verif.Spec Require Export Program Slope.
From Verif.Model Require Export Exact Api.
#[local] Existing Instance Exact.

(** a formula over tensors [Var a] *)
Inductive formula := Var (a : nat) | Bin (o : aop) (p q : formula).
Definition calc (o : aop) : Qc -> Qc -> Qc :=
  match o with AAdd => Qcplus | ASub => Qcminus | AMul => Qcmult | ADiv => Qcdiv end.
(** its value when [a] has the value [v a] *)
Fixpoint eval (v : nat -> Qc) (e : formula) : Qc :=
  match e with Var a => v a | Bin o p q => calc o (eval v p) (eval v q) end.
(** its partial derivative by [a] *)
Fixpoint rate (v : nat -> Qc) (a : nat) (e : formula) : Qc :=
  match e with
  | Var b => if decide (b = a) then 1%Qc else 0%Qc
  | Bin AAdd p q => (rate v a p + rate v a q)%Qc
  | Bin ASub p q => (rate v a p - rate v a q)%Qc
  | Bin AMul p q => (rate v a p * eval v q + eval v p * rate v a q)%Qc
  | Bin ADiv p q => ((rate v a p * eval v q - eval v p * rate v a q) / (eval v q * eval v q))%Qc
  end.
(** no denominator is 0 *)
Fixpoint divides (v : nat -> Qc) (e : formula) : Prop :=
  match e with
  | Var _ => True
  | Bin o p q => divides v p /\ divides v q /\ (o = ADiv -> eval v q <> 0%Qc)
  end.
Fixpoint mentions (e : formula) (a : nat) : Prop :=
  match e with Var b => b = a | Bin _ p q => mentions p a \/ mentions q a end.
Definition moving (h : heap) (e : formula) : Prop := exists a, mentions e a /\ tracked h a.
(** the shape of the result, by broadcasting *)
Fixpoint form (h : heap) (e : formula) : list Z :=
  match e with Var a => shape_of h a | Bin _ p q => bshape (form h p) (form h q) end.
(** what element [idx] of the result is computed from: the elements of the tensors that
    broadcasting puts there *)
Definition reads (h : heap) (idx : list Z) (a : nat) : Qc := value h a (bidx (shape_of h a) idx).
(** The variables are floating-point leaves that the program holds; the shapes broadcast; for
    quotients see C51. *)
Fixpoint may_write (h : heap) (H : list nat) (e : formula) : Prop :=
  match e with
  | Var a => exists r, at_hand h H a r /\ ~ is_node h a /\ floating (t_dt r) = true
  | Bin o p q => may_write h H p /\ may_write h H q /\
      compatible (form h p) (form h q) /\ no_zero_one (form h p) (form h q) /\ fits F64 (bshape (form h p) (form h q)) /\
      (o = ADiv -> moving h p \/ moving h q -> moving h p /\ moving h q /\ form h q = bshape (form h p) (form h q))
  end.
(** The C++ expression: from [h] the calls [l] compute the formula into tensor [x]. *)
Inductive written : heap -> formula -> list op -> nat -> heap -> Prop :=
| WVar h a : written h (Var a) [] a h
| WBin h o p q l1 l2 x y z h1 h2 h3 : written h p l1 x h1 -> written h1 q l2 y h2 ->
    exec (exec_arith o (Some x) (Some y)) h2 = (Ok (RHandle (Some z)), h3) ->
    written h (Bin o p q) (l1 ++ l2 ++ [exec_arith o (Some x) (Some y)]) z h3.
