(** Outcomes of C++ calls, the state monad, and machine integers. *)
From stdpp Require Export prelude pretty.
From Coq Require Export ZArith Lia.
Global Open Scope Z_scope.

(** C++ exceptions thrown by the library or by the standard functions it calls
    (exceptions.hpp:7-13 throws [runtime_error]; tensorImpl.cpp:42 [logic_error];
    tensor.hpp:161 [invalid_argument]; [std::stoll] throws [invalid_argument] and
    [out_of_range]; [operator new] throws [bad_alloc]). Message text is dropped. *)
Inductive exn := RuntimeError | LogicError | InvalidArgument | OutOfRange | BadAlloc.

(** Kinds of undefined behaviour made observable in the model. *)
Inductive ub :=
  | OutOfBounds      (* access outside a buffer or vector *)
  | NullDeref        (* access through a null blob / null TensorImpl pointer *)
  | Uninit           (* read of an indeterminate value *)
  | BadType          (* access to a buffer at another element type *)
  | SignedOverflow
  | DivByZero
  | FloatRange       (* float to integer conversion out of range *)
  | BadBool          (* a bool object whose byte is neither 0 nor 1 *)
  | BadDispatch.     (* index outside a dispatch table *)

(** [Diverge] marks exhausted fuel of a modelled loop; theorems show it is never
    reached. *)
Inductive outcome (A : Type) :=
  | Ok (a : A) | Throw (e : exn) | UB (u : ub) | Diverge.
Arguments Ok {A} _. Arguments Throw {A} _. Arguments UB {A} _. Arguments Diverge {A}.

Definition obind {A B} (m : outcome A) (k : A -> outcome B) : outcome B :=
  match m with Ok a => k a | Throw e => Throw e | UB u => UB u | Diverge => Diverge end.

(** A call: state in, outcome and state out (also when it throws). *)
Definition M (S A : Type) : Type := S -> outcome A * S.
Definition mret {S A} (a : A) : M S A := fun s => (Ok a, s).
Definition mthrow {S A} (e : exn) : M S A := fun s => (Throw e, s).
Definition mub {S A} (u : ub) : M S A := fun s => (UB u, s).
Definition lift {S A} (o : outcome A) : M S A := fun s => (o, s).
Definition bind {S A B} (m : M S A) (k : A -> M S B) : M S B := fun s =>
  match m s with
  | (Ok a, s') => k a s'
  | (Throw e, s') => (Throw e, s')
  | (UB u, s') => (UB u, s')
  | (Diverge, s') => (Diverge, s')
  end.
Notation "'let!' x ':=' m 'in' k" := (bind m (fun x => k))
  (at level 200, x pattern, m at level 100, k at level 200).
Notation "'let?' x ':=' m 'in' k" := (obind m (fun x => k))
  (at level 200, x pattern, m at level 100, k at level 200).
Notation "m ;;; k" := (bind m (fun _ => k)) (at level 199, right associativity).

(** exceptions.hpp:7-13 run_expect *)
Definition run_expect {S} (b : bool) : M S unit :=
  if b then mret tt else mthrow RuntimeError.
Definition orun_expect (b : bool) : outcome unit :=
  if b then Ok tt else Throw RuntimeError.

(** Run actions left to right, stopping at the first that does not return. *)
Fixpoint mapM_ {S A} (f : A -> M S unit) (l : list A) : M S unit :=
  match l with [] => mret tt | x :: r => f x ;;; mapM_ f r end.

(** size_t and long long on the 64-bit targets the library builds for. *)
Definition two64 : Z := 18446744073709551616.
Definition two63 : Z := 9223372036854775808.
(** conversion to size_t / size_t arithmetic *)
Definition u64 (z : Z) : Z := z mod two64.
(** conversion to long long (modular, C++20) *)
Definition s64 (z : Z) : Z := (z + two63) mod two64 - two63.
Definition fits_s64 (z : Z) : bool := (- two63 <=? z) && (z <? two63).
(** signed arithmetic: overflow is undefined *)
Definition schk (z : Z) : outcome Z := if fits_s64 z then Ok z else UB SignedOverflow.

(** A loop [while (...) ...]: [f] is one iteration, [inr] leaves the loop. The fuel
    is binary so that a large bound costs nothing when the loop exits early. *)
Fixpoint iter_until {S R} (p : positive) (f : S -> S + R) (s : S) : S + R :=
  match p with
  | xH => f s
  | xO p' => match iter_until p' f s with
             | inl s' => iter_until p' f s'
             | inr r => inr r
             end
  | xI p' => match f s with
             | inl s0 => match iter_until p' f s0 with
                         | inl s' => iter_until p' f s'
                         | inr r => inr r
                         end
             | inr r => inr r
             end
  end.
