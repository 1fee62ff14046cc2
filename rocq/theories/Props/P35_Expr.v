(** Property C75. *)
From Verif.Proofs Require Import ExprEx Floats.
From Verif.Spec Require Import Expr.
From Verif.Model Require Import Ieee Api.

(** C75: evaluating an expression over tensors, by the public calls and operands first, ends in a
    tensor that holds the array the expression denotes, and leaves every array as it was; if the
    arithmetic of some element is undefined in C++ then so is the evaluation. *)
Theorem C75_denotes : forall {fo : FOps} (env : nat -> option array) e h,
  f_commutative fo -> reachable h -> leaves_ok h env -> accepted env e ->
  match den env e with
  | Some A => exists t h', eval e h = (Ok t, h') /\ has_arr h' t A /\ reachable h' /\ leaves_ok h' env /\
      forall u B, has_arr h u B -> has_arr h' u B
  | None => exists u h', eval e h = (UB u, h') /\ step_ub u
  end.
Proof. exact @expr_den. Qed.
Print Assumptions C75_denotes.

(** C75: two expressions that denote the same array compute the same array. *)
Theorem C75_same : forall {fo : FOps} (env : nat -> option array) e1 e2 A B h,
  f_commutative fo -> reachable h -> leaves_ok h env -> accepted env e1 -> accepted env e2 ->
  den env e1 = Some A -> den env e2 = Some B -> arr_eq A B ->
  exists t h1 u h2, eval e1 h = (Ok t, h1) /\ eval e2 h1 = (Ok u, h2) /\ same_array h2 t u.
Proof. exact @expr_same. Qed.
Print Assumptions C75_same.

#[local] Existing Instance Ieee.
(** the sum of ((0 + 6).reshape({3, -1})["1:"] * 2), and a quotient by an array with a zero *)
Example C75_example :
  let h := lawh in let env := env_of h [0; 1; 2; 3; 6]%nat in
  let e0 := EArith AAdd (ELeaf 0) (ELeaf 6) in
  let e1 := ESlice (EReshape e0 [3; -1] [3; 2]) (chars "1:") [Range (Some 1) None None] in
  let e2 := EArith AMul e1 (ELeaf 2) in let e3 := EArith ADiv (ELeaf 1) (ELeaf 3) in
  f_commutative Ieee /\ reachable h /\ leaves_ok h env /\ accepted env (ESum e2) /\ accepted env e3 /\
  option_map (fun A => (sig A, row_elems (a_ss A) (a_v A))) (den env e0) = Some ((F64, [2; 3], true), map f64 [2; 4; 0; 5; 7; 3]) /\
  option_map (fun A => (sig A, row_elems (a_ss A) (a_v A))) (den env e1) = Some ((F64, [2; 2], true), map f64 [0; 5; 7; 3]) /\
  option_map (fun A => (sig A, a_v A [])) (den env (ESum e2)) = Some ((F64, [], true), f64 230) /\
  option_map sig (den env e3) = None.
Proof.
  cbv zeta. split; [exact ieee_commutative|]. split; [exact law_reach|]. split.
  { apply leaves_of. constructor; [exists (rec_of lawh 0)|constructor; [exists (rec_of lawh 1)|constructor; [exists (rec_of lawh 2)|constructor; [exists (rec_of lawh 3)|constructor; [exists (rec_of lawh 6)|constructor]]]]].
    all: split; [at_of|]; split; [vm|]; split; [unfold small_strides; decide_it|vm]. }
  split.
  { cbn [accepted]. split; [|apply (on1_of _ _ F64 [2; 2] true); [vm|]; intros A _ -> _; decide_it].
    split; [|split; [apply has_leaf; vm|]].
    - split; [|split; [vm|split]].
      + split; [|split; [vm|split]].
        * split; [apply has_leaf; vm|]. split; [apply has_leaf; vm|]. apply (on2_of _ _ _ I16 [2; 3] false F64 [3] true); [vm|vm|]. intros A B -> -> _ -> -> _. split; [decide_it|]. split; [apply pos_nz; decide_it|]. split; [fits_ok|decide_it].
        * constructor; [unfold in_ll; lia|]. constructor; [unfold in_ll; lia|constructor].
        * apply (on1_of _ _ F64 [2; 3] true); [vm|]. intros A -> -> ->. split; [decide_it|]. split; [split; [fits_ok|decide_it]|]. split; [|split; [intros _; decide_it|discriminate 2]].
          split; [|split; [decide_it|vm]]. constructor; [lia|]. constructor; [lia|constructor].
      + exists [chars "1:"]. split; [|vm]. apply Forall2_cons_2; [|apply Forall2_nil_2]. refine (ItemRange2 (chars "1") [] (Some 1) None _ _); [|by constructor].
        split; [|unfold in_s64; lia]. apply (int_text_check _ [] [] (chars "1") []); vm.
      + apply (on1_of _ _ F64 [3; 2] true); [vm|]. intros A _ -> _. split; [decide_it|]. split; cbn; split; try done; by left.
    - apply (on2_of _ _ _ F64 [2; 2] true F32 [2] false); [vm|vm|]. intros A B -> -> _ -> -> _. split; [decide_it|]. split; [apply pos_nz; decide_it|]. split; [fits_ok|decide_it]. }
  split.
  { cbn [accepted]. split; [apply has_leaf; vm|]. split; [apply has_leaf; vm|]. apply (on2_of _ _ _ I16 [2; 2] false I8 [2; 2] false); [vm|vm|]. intros A B -> -> _ -> -> _. split; [decide_it|]. split; [apply pos_nz; decide_it|]. split; [fits_ok|decide_it]. }
  split_and!; vm.
Qed.
(** transposing a sum, and adding the transposed arrays *)
Example C75_same_example :
  let h := lawh in let env := env_of h [0; 7]%nat in
  let e1 := ETranspose (EArith AAdd (ELeaf 0) (ELeaf 7)) 0 1 in
  let e2 := EArith AAdd (ETranspose (ELeaf 0) 0 1) (ETranspose (ELeaf 7) 0 1) in
  accepted env e1 /\ accepted env e2 /\
  option_map (fun A => (sig A, row_elems (a_ss A) (a_v A))) (den env e1) = Some ((F64, [3; 2], false), map f64 [2; 8; 4; 10; 6; 12]) /\
  option_map (fun A => (sig A, row_elems (a_ss A) (a_v A))) (den env e2) = Some ((F64, [3; 2], false), map f64 [2; 8; 4; 10; 6; 12]).
Proof.
  cbv zeta. split.
  { cbn [accepted]. split.
    - split; [apply has_leaf; vm|]. split; [apply has_leaf; vm|]. apply (on2_of _ _ _ I16 [2; 3] false F64 [2; 3] false); [vm|vm|]. intros A B -> -> _ -> -> _. split; [decide_it|]. split; [apply pos_nz; decide_it|]. split; [fits_ok|decide_it].
    - apply (on1_of _ _ F64 [2; 3] false); [vm|]. intros A _ -> _. cbn. lia. }
  split.
  { cbn [accepted]. split; [split; [apply has_leaf; vm|]|split; [split; [apply has_leaf; vm|]|]].
    - apply (on1_of _ _ I16 [2; 3] false); [vm|]. intros A _ -> _. cbn. lia.
    - apply (on1_of _ _ F64 [2; 3] false); [vm|]. intros A _ -> _. cbn. lia.
    - apply (on2_of _ _ _ I16 [3; 2] false F64 [3; 2] false); [vm|vm|]. intros A B -> -> _ -> -> _. split; [decide_it|]. split; [apply pos_nz; decide_it|]. split; [fits_ok|decide_it]. }
  split; vm.
Qed.
