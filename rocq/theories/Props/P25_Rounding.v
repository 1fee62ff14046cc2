(** IEEE arithmetic and exact arithmetic. [Watch] (Spec/Watch.v) computes the IEEE results and
    keeps beside each the exact value, for as long as nothing was rounded on the way to it. *)
From Coq Require Import QArith Qcanon Floats.SpecFloat.
From Verif.Proofs Require Import Round2 WatchEx.
From Verif.Model Require Import Ieee Exact Api.
#[local] Existing Instance Exact.

(** C64: for every history of calls whose comparisons see exact values only: the IEEE history
    has the watched results, the exact history has the same up to printed text, both make the
    same tensors, views and graph, integer elements are equal, and every element that kept its
    exact value is a finite float denoting it, and the element of the exact history. *)
Theorem C64_agree : forall ops rs w,
  (forall o, o ∈ ops -> proper o) -> compares_all empty_heap ops ->
  @run Watch empty_heap (map watched ops) = (Ok rs, w) ->
  exists h rx e,
    @run Ieee empty_heap ops = (Ok rs, h) /\ @run Exact empty_heap (map exactly ops) = (Ok rx, e) /\
    Forall2 same_result rs rx /\ agree h w e.
Proof. exact watch_agree. Qed.
Print Assumptions C64_agree.

(** C64: gradients. After backward() in IEEE arithmetic, every element of the gradient of a
    tracked leaf that kept its exact value is the old gradient plus the derivative of the root
    with respect to that element (C45). *)
Theorem C64_gradient : forall ops H T h t rs w,
  (forall o, o ∈ ops -> proper o) -> program (map exactly ops) H T h -> may_backward h H T t ->
  compares_all empty_heap (ops ++ [OBackward (Some t)]) ->
  @run Watch empty_heap (map watched (ops ++ [OBackward (Some t)])) = (Ok rs, w) ->
  exists h', @run Ieee empty_heap (ops ++ [OBackward (Some t)]) = (Ok rs, h') /\
    forall a i, below h t a -> ~ is_node h a -> tracked h a -> in_range (shape_of h a) i ->
      exists d, derivative h t a i d /\ (forall d', derivative h t a i d' -> d' = d) /\
        forall x q, @grad_element Watch w a i = Some (@VF Watch (x, Some q)) ->
          @grad_element Ieee h' a i = Some (@VF Ieee x) /\ sf_value x = Some q /\ q = (grad_value h a i + d)%Qc.
Proof. exact watch_gradient. Qed.
Print Assumptions C64_gradient.

(** C64: rounding is all that loses an exact value. The result of an operation or a conversion
    whose operands have kept their exact values keeps its own just when that is a number of the
    result's format. *)
Theorem C64_kept : forall t x y (a b : Qc), denotes t x a = true -> denotes t y b = true ->
  kept_iff t (a + b) (@f_add Watch t (x, Some a) (y, Some b)) /\ kept_iff t (a - b) (@f_sub Watch t (x, Some a) (y, Some b)) /\
  kept_iff t (a * b) (@f_mul Watch t (x, Some a) (y, Some b)) /\ (b <> 0%Qc -> kept_iff t (a / b) (@f_div Watch t (x, Some a) (y, Some b))).
Proof. exact watch_kept. Qed.
Print Assumptions C64_kept.
Theorem C64_converted : forall t u x (a : Qc) z, denotes u x a = true ->
  kept_iff t a (@f_cvt Watch t (x, Some a)) /\ kept_iff t (qc_of_Z z) (@f_of_Z Watch t z).
Proof. exact watch_kept_cvt. Qed.
Print Assumptions C64_converted.
(** -3 / 4 is kept; 1 / 3 is not *)
Example C64_kept_example :
  denotes FT64 (ieee_of_Z FT64 (-3)) (qc_of_Z (-3)) = true /\ denotes FT64 (ieee_of_Z FT64 4) (qc_of_Z 4) = true /\
  kept_of (Some (@VF Watch (@f_div Watch FT64 (ieee_of_Z FT64 (-3), Some (qc_of_Z (-3))) (ieee_of_Z FT64 4, Some (qc_of_Z 4))))) = Some (-3, 4%positive) /\
  kept_of (Some (@VF Watch (@f_div Watch FT64 (ieee_of_Z FT64 1, Some (qc_of_Z 1)) (ieee_of_Z FT64 3, Some (qc_of_Z 3))))) = None /\
  kept_of (Some (@VF Watch (@f_cvt Watch FT32 (ieee_of_Z FT64 (-5), Some (qc_of_Z (-5)))))) = Some (-5, 1%positive).
Proof. split_and!; vm. Qed.

(** x = (1, 2, -3) of doubles, v = x reversed: sum(x * x * (v / abs(x)) + x * x). Two elements
    of the gradient keep their exact values; the third passes through 1 / 3 and does not. *)
Example C64_example :
  (forall o, o ∈ w_back -> proper o) /\ compares_all empty_heap w_back /\
  (exists rs, @run Watch empty_heap (map watched w_back) = (Ok rs, w_heap)) /\
  program (map exactly w_10) ex_below none (xafter (map exactly w_10)) /\
  may_backward (xafter (map exactly w_10)) ex_below none 10 /\
  below (xafter (map exactly w_10)) 10 0 /\ tracked (xafter (map exactly w_10)) 0 /\
  map (fun i => kept_of (@grad_element Watch w_heap 0 [i])) [0; 1; 2] = [Some (2, 1%positive); Some (8, 1%positive); None] /\
  map (fun i => dbits (@grad_element Ieee (@run Ieee empty_heap w_back).2 0 [i])) [0; 1] =
    [Some (ieee_bits FT64 (ieee_of_Z FT64 2)); Some (ieee_bits FT64 (ieee_of_Z FT64 8))].
Proof.
  split; [apply proper_ok; vm|]. split; [apply compares_ok; vm|]. split; [apply succeeds_run; vm|].
  rewrite w_exactly. split; [exact ex_10_ok|]. split; [exact ex_may|].
  split; [apply (below_path _ _ [9; 1; 0]%nat); vm|]. split; [apply leaf_tracked; vm|]. split; vm.
Qed.
