(** Reshaping. *)
From Verif.Proofs Require Import ReshapeEx Reshape3.

(** C20: reshape to [xs], which asks for the shape [ss], yields a new tensor of that shape
    whose elements in row-major order are those of the source ([reshaped]). [plain_lay]
    keeps the stride comparison of the source from overflowing.
    Partial: a tracked 0-dimensional source with another target shape is excluded; there the
    code indexes an empty vector, see C20_refuted. *)
Theorem C20_reshape_partial : forall {fo : FOps} h t r v xs ss,
  reachable h -> tensor_at h t r v -> plain_lay (t_lay r) -> fits (t_dt r) (shape r) ->
  asks_for xs (size_prod (shape r)) ss -> Forall in_ll xs ->
  (wildcards xs = 1%nat -> 0 < given xs < 2 ^ 64) -> (t_rg r = true -> shape r = [] -> xs = []) ->
  exists t' h', exec (OReshape (Some t) xs) h = (Ok (RHandle (Some t')), h') /\
    reshaped h h' r v t' ss.
Proof. exact @reshape_new. Qed.
Print Assumptions C20_reshape_partial.
Theorem C20_reshape_as_partial : forall {fo : FOps} h t u r ru v,
  reachable h -> tensor_at h t r v -> plain_lay (t_lay r) -> fits (t_dt r) (shape r) ->
  h_ten h !! u = Some ru -> Forall (fun n => 0 <= n < two64) (shape ru) ->
  size_prod (shape ru) = size_prod (shape r) -> (t_rg r = true -> shape r = [] -> shape ru = []) ->
  exists t' h', exec (OReshapeAs (Some t) (Some u)) h = (Ok (RHandle (Some t')), h') /\
    reshaped h h' r v t' (shape ru).
Proof. exact @reshape_as_new. Qed.
Print Assumptions C20_reshape_as_partial.
Theorem C20_reject : forall {fo : FOps} h t u r ru,
  h_ten h !! t = Some r -> h_ten h !! u = Some ru ->
  Forall (fun n => 0 <= n) (shape r) -> Forall (fun n => 0 <= n) (shape ru) ->
  size_prod (shape r) < 2 ^ 64 -> size_prod (shape ru) < 2 ^ 64 ->
  size_prod (shape ru) <> size_prod (shape r) ->
  exec (OReshapeAs (Some t) (Some u)) h = (Throw RuntimeError, h).
Proof. exact @reshape_as_reject. Qed.
Print Assumptions C20_reject.
Theorem C20_refuted :
  exists (h : @heap Ieee) t r v, reachable h /\ tensor_at h t r v /\ shape r = [] /\ t_rg r = true /\
    asks_for [1] (size_prod (shape r)) [1] /\
    (exec (OReshape (Some t) [1]) h).1 = UB OutOfBounds.
Proof. exact reshape_scalar_refuted. Qed.
Print Assumptions C20_refuted.

(** This is so for every tracked 0-dimensional tensor and every legal target shape with a
    dimension, through either call. *)
Theorem C20_scalar : forall {fo : FOps} h t r xs ss,
  reachable h -> h_ten h !! t = Some r -> shape r = [] -> t_rg r = true ->
  asks_for xs 1 ss -> Forall in_ll xs -> xs <> [] ->
  (exec (OReshape (Some t) xs) h).1 = UB OutOfBounds.
Proof. exact @reshape_scalar. Qed.
Print Assumptions C20_scalar.
Theorem C20_scalar_as : forall {fo : FOps} h t u r ru,
  reachable h -> h_ten h !! t = Some r -> shape r = [] -> t_rg r = true ->
  h_ten h !! u = Some ru -> shape ru <> [] -> size_prod (shape ru) = 1 ->
  (exec (OReshapeAs (Some t) (Some u)) h).1 = UB OutOfBounds.
Proof. exact @reshape_as_scalar. Qed.
Print Assumptions C20_scalar_as.

(** the transpose of tensor 0, shape [3;2], elements 1 4 2 5 3 6, reshaped to [2;3];
    and the reversed view 1 flattened *)
Example C20_example :
  let h := after demo_ops in
  reachable h /\ tensor_at h 5 (rec_of h 5) (contents h (rec_of h 5)) /\
  shape (rec_of h 5) = [3; 2] /\ strides (t_lay (rec_of h 5)) = [1; 3] /\
  fits (t_dt (rec_of h 5)) (shape (rec_of h 5)) /\
  asks_for [2; -1] 6 [2; 3] /\ given [2; -1] = 2 /\
  (let h' := (exec (OReshape (Some 5%nat) [2; -1]) h).2 in
   let h2 := (exec (OReshape (Some 1%nat) [4]) h).2 in
   map (contents h' (rec_of h' 10)) (indices [2; 3]) = map VI [1; 4; 2; 5; 3; 6] /\
   map (contents h2 (rec_of h2 10)) (indices [4]) = map VI [3; 1; 6; 4]).
Proof.
  cbv zeta. split; [reached|]. split; [at_of|]. split; [vm|]. split; [vm|]. split; [fits_ok|].
  split; [|split; [vm|split; vm]].
  split; [repeat first [apply Forall2_nil_2 | apply Forall2_cons_2; [lia|]]|]. split; [decide_it|vm].
Qed.
Example C20_example_plain :
  let h := after demo_ops in plain_lay (t_lay (rec_of h 5)) /\ plain_lay (t_lay (rec_of h 1)).
Proof.
  cbv zeta. split.
  - assert (t_lay (rec_of (after demo_ops) 5) = Lay [3; 2] [1; 3] 0) as -> by vm.
    repeat first [apply Forall2_nil_2 | apply Forall2_cons_2; [unfold in_ll; lia|]].
  - assert (t_lay (rec_of (after demo_ops) 1) = Lay [2; 2] [3; -2] 2) as -> by vm.
    repeat first [apply Forall2_nil_2 | apply Forall2_cons_2; [unfold in_ll; lia|]].
Qed.

(** C21: what does not ask for any shape of the right element count throws, and nothing
    changes. Partial: entries are at least -1, the product of the given sizes does not wrap,
    and it is not zero beside a -1; otherwise see C21_refuted. That the rest is accepted,
    with the -1 replaced by the size that makes the counts agree, is C20_reshape_partial. *)
Theorem C21_reject_partial : forall {fo : FOps} h t r xs,
  h_ten h !! t = Some r -> Forall (fun n => 0 <= n) (shape r) -> size_prod (shape r) < 2 ^ 64 ->
  (forall ss, ~ asks_for xs (size_prod (shape r)) ss) -> Forall in_ll xs ->
  Forall (fun x => -1 <= x) xs -> given xs < 2 ^ 64 -> (wildcards xs = 1%nat -> given xs <> 0) ->
  exec (OReshape (Some t) xs) h = (Throw RuntimeError, h).
Proof. exact @reshape_reject. Qed.
Print Assumptions C21_reject_partial.

(** [4;-1] and [-1;-1] for six elements *)
Example C21_example :
  let h := after demo_ops in
  shape (rec_of h 0) = [2; 3] /\ (forall ss, ~ asks_for [4; -1] 6 ss) /\
  (forall ss, ~ asks_for [-1; -1] 6 ss) /\
  (exec (OReshape (Some 0%nat) [4; -1]) h).1 = Throw RuntimeError /\
  (exec (OReshape (Some 0%nat) [-1; -1]) h).1 = Throw RuntimeError.
Proof.
  cbv zeta. split; [vm|]. split; [|split; [|split; vm]].
  - intros ss (H & _ & Hp). inversion H as [|x s xs l [Hs1 Hs2] H1]; subst.
    inversion H1 as [|y u ys l' [Hu1 Hu2] H2]; subst. inversion H2; subst. simpl in Hp. lia.
  - intros ss (_ & Hw & _). vm_compute in Hw. lia.
Qed.

(** For any entries whatever: exactly the vectors of [refuses] throw, and only RuntimeError;
    the state is unchanged; and a product of zero beside a -1 divides by zero. *)
Theorem C21_throws : forall {fo : FOps} h t r v xs e,
  tensor_at h t r v -> fits (t_dt r) (shape r) ->
  (exec (OReshape (Some t) xs) h).1 = Throw e <-> e = RuntimeError /\ refuses xs (size_prod (shape r)).
Proof. exact @reshape_throws. Qed.
Print Assumptions C21_throws.
Theorem C21_refuses : forall {fo : FOps} h t r xs,
  h_ten h !! t = Some r -> Forall (fun n => 0 <= n) (shape r) -> size_prod (shape r) < 2 ^ 64 ->
  refuses xs (size_prod (shape r)) -> exec (OReshape (Some t) xs) h = (Throw RuntimeError, h).
Proof. exact @reshape_refuses. Qed.
Print Assumptions C21_refuses.
Theorem C21_divides : forall {fo : FOps} h t r xs,
  h_ten h !! t = Some r -> Forall (fun n => 0 <= n) (shape r) -> size_prod (shape r) < 2 ^ 64 ->
  wildcards xs = 1%nat -> given xs mod 2 ^ 64 = 0 ->
  exec (OReshape (Some t) xs) h = (UB DivByZero, h).
Proof. exact @reshape_divides. Qed.
Print Assumptions C21_divides.

(** for six elements: [-2;3] and [-3;-1;4] are refused, [-2;-3] and [6;-1;1] are not, and
    [2^32;2^32;-1] has product zero; each with what the call then does *)
Example C21_exact_example :
  let h := after demo_ops in
  tensor_at h 0 (rec_of h 0) (contents h (rec_of h 0)) /\ fits (t_dt (rec_of h 0)) (shape (rec_of h 0)) /\
  size_prod (shape (rec_of h 0)) = 6 /\
  refuses [-2; 3] 6 /\ refuses [-3; -1; 4] 6 /\ ~ refuses [-2; -3] 6 /\ ~ refuses [6; -1; 1] 6 /\
  wildcards [2 ^ 32; 2 ^ 32; -1] = 1%nat /\ given [2 ^ 32; 2 ^ 32; -1] mod 2 ^ 64 = 0 /\
  (exec (OReshape (Some 0%nat) [-2; 3]) h).1 = Throw RuntimeError /\
  (match (exec (OReshape (Some 0%nat) [-2; -3]) h).1 with Ok _ => true | _ => false end) = true /\
  (exec (OReshape (Some 0%nat) [2 ^ 32; 2 ^ 32; -1]) h).1 = UB DivByZero.
Proof.
  cbv zeta. split; [at_of|]. split; [fits_ok|]. split; [vm|].
  split; [vm_compute; lia|]. split; [vm_compute; lia|].
  split; [vm_compute; lia|]. split; [vm_compute; lia|]. split_and!; vm.
Qed.
