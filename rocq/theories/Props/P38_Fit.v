(** Property C78. *)
From Verif.Proofs Require Import FitEx.
From Verif.Spec Require Import Fit.
From Verif.Model Require Import Exact Api.
#[local] Existing Instance Exact.
#[local] Open Scope Qc_scope.

(** C78: least squares. Train w on the sum of (x * w - y) * (x * w - y), where x, w and y may be
    broadcast. Each round multiplies the distance of an element of w from its solution of the
    normal equation by 1 + 2 * rate * sum of x * x, where the sum is over the positions where the
    element is read; the rounds compute the sums for these elements. *)
Theorem C78_solution : forall n ops H h x w y c,
  program ops H none h -> may_train h H (fit x w y) c [w] ->
  (forall a i, a ∈ [w] -> in_range (shape_of h a) i -> grad_value h a i = 0) ->
  x <> w -> y <> w -> (forall i, in_range (shape_of h w) i -> gram h x w y i <> 0) ->
  exists l h', trained (fit x w y) c [w] h (map (fun k => loss h (fit x w y) (put h w (nearer h x w y c k))) (seq 0 n)) l h' /\
    program (ops ++ l) H none h' /\
    forall a i, a ∈ H -> in_range (shape_of h a) i -> value h' a i = put h w (nearer h x w y c n) a i.
Proof. exact fit_train. Qed.
Print Assumptions C78_solution.
(** x = (1, -1/2), w = 1, y = 3 and the rate -1/4: the solution is 6/5, and w comes nearer by 3/8 *)
Example C78_solution_example :
  program ft ft_held none (xafter ft) /\ may_train (xafter ft) ft_held (fit 0 1 2) 3 [1%nat] /\
  (forall a i, a ∈ [1%nat] -> in_range (shape_of (xafter ft) a) i -> grad_value (xafter ft) a i = 0) /\
  (forall i, in_range (shape_of (xafter ft) 1) i -> gram (xafter ft) 0 1 2 i <> 0) /\
  qlist (gram (xafter ft) 0 1 2) [] = [(5, 4)]%Z /\ qlist (best (xafter ft) 0 1 2) [] = [(6, 5)]%Z /\ qlist (factor (xafter ft) 0 1 2 3) [] = [(3, 8)]%Z /\
  grads (xafter ft_round) 1 = [(-1, 2)]%Z /\ values ft_next 1 = [(9, 8)]%Z /\
  qlist (nearer (xafter ft) 0 1 2 3 1) [] = [(9, 8)]%Z /\ qlist (nearer (xafter ft) 0 1 2 3 2) [] = [(75, 64)]%Z.
Proof. split; [exact ft_ok|]. split; [exact ft_may|]. split; [exact ft_zero|]. split; [apply ft_factor|]. exact ft_values. Qed.

(** C78: the solution is the minimum. With other elements of w the sum is greater by their squared
    distances from the solution, each times the sum of x * x. *)
Theorem C78_best : forall h H x w y c f, may_train h H (fit x w y) c [w] -> x <> w -> y <> w ->
  (forall i, in_range (shape_of h w) i -> gram h x w y i <> 0) ->
  loss h (fit x w y) (put h w f) = loss h (fit x w y) (put h w (best h x w y)) +
    sum_over (shape_of h w) (fun i => gram h x w y i * ((f i - best h x w y i) * (f i - best h x w y i))) /\
  loss h (fit x w y) (put h w (best h x w y)) <= loss h (fit x w y) (put h w f).
Proof. exact fit_best. Qed.
Print Assumptions C78_best.
(** in the state above; (6/5 - 3)^2 + (-3/5 - 3)^2 is 81/5, and for w = 1 the sum is 65/4 *)
Example C78_best_example :
  may_train (xafter ft) ft_held (fit 0 1 2) 3 [1%nat] /\
  (forall i, in_range (shape_of (xafter ft) 1) i -> gram (xafter ft) 0 1 2 i <> 0) /\
  qlist (fun _ => loss (xafter ft) (fit 0 1 2) (put (xafter ft) 1 (best (xafter ft) 0 1 2))) [] = [(81, 5)]%Z /\
  qlist (fun _ => loss (xafter ft) (fit 0 1 2) (put (xafter ft) 1 (value (xafter ft) 1))) [] = [(65, 4)]%Z.
Proof. split; [exact ft_may|]. split; [apply ft_factor|]. split; vm. Qed.

(** C78: so if the factors are less than 1 in absolute value, training converges to the minimum: for
    every bound, after enough rounds all elements of w are that near. *)
Theorem C78_converges : forall ops H h x w y c eps,
  program ops H none h -> may_train h H (fit x w y) c [w] ->
  (forall a i, a ∈ [w] -> in_range (shape_of h a) i -> grad_value h a i = 0) ->
  x <> w -> y <> w ->
  (forall i, in_range (shape_of h w) i -> gram h x w y i <> 0 /\ qabs (factor h x w y c i) < 1) -> 0 < eps ->
  exists N, forall n, (N <= n)%nat -> exists qs l h', length qs = n /\ trained (fit x w y) c [w] h qs l h' /\
    program (ops ++ l) H none h' /\
    forall i, in_range (shape_of h w) i -> qabs (value h' w i - best h x w y i) < eps.
Proof. exact fit_converges. Qed.
Print Assumptions C78_converges.
(** the factor above is 3/8 *)
Example C78_converges_example :
  program ft ft_held none (xafter ft) /\ may_train (xafter ft) ft_held (fit 0 1 2) 3 [1%nat] /\
  (forall a i, a ∈ [1%nat] -> in_range (shape_of (xafter ft) a) i -> grad_value (xafter ft) a i = 0) /\
  forall i, in_range (shape_of (xafter ft) 1) i -> gram (xafter ft) 0 1 2 i <> 0 /\ qabs (factor (xafter ft) 0 1 2 3 i) < 1.
Proof. split; [exact ft_ok|]. split; [exact ft_may|]. split; [exact ft_zero|exact ft_factor]. Qed.

(** C78: and if a factor is greater than 1 in absolute value and the element is not the solution
    already, training diverges: the element moves away from the solution beyond every bound. *)
Theorem C78_diverges : forall ops H h x w y c i B,
  program ops H none h -> may_train h H (fit x w y) c [w] ->
  (forall a i, a ∈ [w] -> in_range (shape_of h a) i -> grad_value h a i = 0) ->
  x <> w -> y <> w -> (forall i, in_range (shape_of h w) i -> gram h x w y i <> 0) ->
  in_range (shape_of h w) i -> 1 < qabs (factor h x w y c i) -> value h w i <> best h x w y i ->
  exists N, forall n, (N <= n)%nat -> exists qs l h', length qs = n /\ trained (fit x w y) c [w] h qs l h' /\
    program (ops ++ l) H none h' /\ B < qabs (value h' w i - best h x w y i).
Proof. exact fit_diverges. Qed.
Print Assumptions C78_diverges.
(** with the rate -2 the factor is -4, and w goes from 1 to 2 and -2 *)
Example C78_diverges_example :
  program ft ft_held none (xafter ft) /\ may_train (xafter ft) ft_held (fit 0 1 2) 4 [1%nat] /\
  (forall a i, a ∈ [1%nat] -> in_range (shape_of (xafter ft) a) i -> grad_value (xafter ft) a i = 0) /\
  (forall i, in_range (shape_of (xafter ft) 1) i -> gram (xafter ft) 0 1 2 i <> 0) /\
  in_range (shape_of (xafter ft) 1) [] /\ 1 < qabs (factor (xafter ft) 0 1 2 4 []) /\
  value (xafter ft) 1 [] <> best (xafter ft) 0 1 2 [] /\
  qlist (factor (xafter ft) 0 1 2 4) [] = [(-4, 1)]%Z /\ qlist (nearer (xafter ft) 0 1 2 4 1) [] = [(2, 1)]%Z /\
  qlist (nearer (xafter ft) 0 1 2 4 2) [] = [(-2, 1)]%Z.
Proof.
  split; [exact ft_ok|]. split; [exact ft_may_fast|]. split; [exact ft_zero|]. split; [apply ft_factor|]. split; [exact ft_start|].
  split; [exact ft_above|]. split; [exact ft_differs|exact ft_fast].
Qed.
