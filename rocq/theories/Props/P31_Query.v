(** What queries answer, calls on null handles, and release(). *)
From Verif.Spec Require Import Query.
From Verif.Proofs Require Import Query QueryEx.
From Verif.Model Require Import Ieee Api.
#[local] Existing Instance Ieee.

(** C70: what the queries answer. They change nothing. numel() is the number of indices, as a
    64-bit number. *)
Theorem C70_answers : forall {fo : FOps} h t r, h_ten h !! t = Some r -> Forall (fun n => 0 <= n) (shape r) ->
  exec (QSize (Some t)) h = (Ok (RSizes (shape r)), h) /\
  exec (QNumel (Some t)) h = (Ok (RInt (Z.of_nat (length (indices (shape r))) mod 2 ^ 64)), h) /\
  exec (QType (Some t)) h = (Ok (RType (t_dt r)), h) /\
  exec (QRequires (Some t)) h = (Ok (RBool (t_rg r)), h) /\
  exec (QRetain (Some t)) h = (Ok (RBool (t_ret r)), h) /\
  exec (OGrad (Some t)) h = (Ok (RHandle (t_grad r)), h).
Proof. exact @query_answers. Qed.
Print Assumptions C70_answers.
(** the view 1 of shape [2; 2] and the tracked tensor 6 *)
Example C70_answers_example :
  let h := after demo_ops in
  reachable h /\ h_ten h !! 1%nat = Some (rec_of h 1) /\ shape (rec_of h 1) = [2; 2] /\ t_dt (rec_of h 1) = I16 /\
  t_rg (rec_of h 1) = false /\ t_rg (rec_of h 6) = true /\
  (exec (QNumel (Some 1%nat)) h).1 = Ok (RInt 4).
Proof. cbv zeta. split; [reached|]. split_and!; vm. Qed.

(** C70: is_contiguous() answers whether every stride is the number of elements of the dimensions
    after it. *)
Theorem C70_contiguous : forall {fo : FOps} h t r,
  h_ten h !! t = Some r -> lay_ok (t_lay r) -> (forall k, size_prod (drop (S k) (shape r)) < 2 ^ 63) ->
  exists b, exec (QContiguous (Some t)) h = (Ok (RBool b), h) /\ (b = true <-> packed (t_lay r)).
Proof. exact @contiguous_answer. Qed.
Print Assumptions C70_contiguous.
(** the transpose 5; and a transpose of a tensor of shape [1; 3]: it has the positions of a
    row-major tensor, but a stride of 3 where 1 is asked for *)
Example C70_contiguous_example :
  let h := after (demo_ops ++ [OZeros [1; 3] F32; OTranspose (Some 9%nat) 0 1]) in
  lay_ok (t_lay (rec_of h 5)) /\ (exec (QContiguous (Some 5%nat)) h).1 = Ok (RBool false) /\
  (forall k, size_prod (drop (S k) (shape (rec_of h 5))) < 2 ^ 63) /\
  (exec (QContiguous (Some 9%nat)) h).1 = Ok (RBool true) /\
  (exec (QContiguous (Some 10%nat)) h).1 = Ok (RBool false) /\ shape (rec_of h 10) = [3; 1] /\
  map (pos (t_lay (rec_of h 10))) (indices [3; 1]) = [0; 1; 2].
Proof. exact contiguous_ex. Qed.

(** C24: where every dimension has two elements or more, is_contiguous() says exactly whether the
    elements lie in row-major order. *)
Theorem C24_complete : forall {fo : FOps} h t r cs,
  h_ten h !! t = Some r -> backed h r cs -> Forall (fun n => 2 <= n) (shape r) ->
  exec (QContiguous (Some t)) h = (Ok (RBool true), h) <->
  forall idx, in_range (shape r) idx -> pos (t_lay r) idx = offset (t_lay r) + row_major (shape r) idx.
Proof. exact @contiguous_complete. Qed.
Print Assumptions C24_complete.
Example C24_complete_example :
  let h := after demo_ops in
  (exists cs, backed h (rec_of h 0) cs) /\ shape (rec_of h 0) = [2; 3] /\ (exec (QContiguous (Some 0%nat)) h).1 = Ok (RBool true) /\
  (exists cs, backed h (rec_of h 5) cs) /\ shape (rec_of h 5) = [3; 2] /\ (exec (QContiguous (Some 5%nat)) h).1 = Ok (RBool false).
Proof. exact complete_ex. Qed.

(** C70: every call on a null handle dereferences it, before it changes anything, save to_string()
    and cat(). *)
Theorem C70_null : forall {fo : FOps} h o, None ∈ passed o -> (forall a, o <> QToString a) -> (forall ts dim, o <> OCat ts dim) ->
  exec o h = (UB NullDeref, h).
Proof. exact @null_call. Qed.
Print Assumptions C70_null.
(** the gradient of a tensor that has none, used as an operand *)
Example C70_null_example :
  let h := after demo_ops in
  (exec (OGrad (Some 6%nat)) h).1 = Ok (RHandle None) /\ None ∈ passed (OAdd (Some 6%nat) None) /\
  (forall a, OAdd (Some 6%nat) None <> QToString a) /\ (forall ts dim, OAdd (Some 6%nat) None <> OCat ts dim).
Proof. cbv zeta. split; [vm|]. split; [right; left|]. split; [intros a H|intros ts dim H]; discriminate H. Qed.

(** C70: cat() first looks at the inputs before the first null one, and throws if it would throw
    without the rest. *)
Theorem C70_null_cat : forall {fo : FOps} h xs rs ts dim, Forall2 (fun t r => h_ten h !! t = Some r) xs rs ->
  (cat_agree dim rs -> exec (OCat (map Some xs ++ None :: ts) dim) h = (UB NullDeref, h)) /\
  (~ cat_agree dim rs -> exec (OCat (map Some xs ++ None :: ts) dim) h = (Throw RuntimeError, h)).
Proof. exact @null_cat. Qed.
Print Assumptions C70_null_cat.
(** two tensors of the same shape, along a dimension they have and along one they do not have *)
Example C70_null_cat_example :
  let h := after demo_ops in
  Forall2 (fun t r => h_ten h !! t = Some r) [0; 0]%nat [rec_of h 0; rec_of h 0] /\ shape (rec_of h 0) = [2; 3] /\
  cat_agree 1 [rec_of h 0; rec_of h 0] /\ ~ cat_agree 2 [rec_of h 0; rec_of h 0].
Proof. exact null_cat_ex. Qed.

(** C71: release() frees the buffer of a tensor and of every tensor that shares it, and nothing else. *)
Theorem C71_release : forall {fo : FOps} h t r x, h_ten h !! t = Some r -> h_sto h !! t_sto r = Some x ->
  exists h', exec (ORelease (Some t)) h = (Ok RUnit, h') /\ h_ten h' = h_ten h /\
    (forall s, s <> t_sto r -> h_sto h' !! s = h_sto h !! s) /\
    (forall u ru, h_ten h !! u = Some ru -> t_sto ru = t_sto r -> released h' ru).
Proof. exact @release_frees. Qed.
Print Assumptions C71_release.
(** tensor 0 and its views 1 and 5 *)
Example C71_release_example :
  let h := after demo_ops in
  (exists x, h_sto h !! t_sto (rec_of h 0) = Some x) /\ h_ten h !! 0%nat = Some (rec_of h 0) /\
  t_sto (rec_of h 1) = t_sto (rec_of h 0) /\ t_sto (rec_of h 5) = t_sto (rec_of h 0).
Proof. exact release_ex. Qed.

(** C71: afterwards every call that looks at an element of a released tensor dereferences a null
    pointer. It leaves the tensors that were there alone. *)
Theorem C71_lost : forall {fo : FOps} h t r, h_ten h !! t = Some r -> released h r -> lay_ok (t_lay r) ->
  Forall (fun n => 0 < n) (shape r) -> fits (t_dt r) (shape r) ->
  forall o, looks_at t r o -> exists h', exec o h = (UB NullDeref, h') /\ extends h h'.
Proof. exact @looks_gone. Qed.
Print Assumptions C71_lost.
Example C71_lost_example :
  let h := after (demo_ops ++ [ORelease (Some 0%nat)]) in
  h_ten h !! 5%nat = Some (rec_of h 5) /\ released h (rec_of h 5) /\ lay_ok (t_lay (rec_of h 5)) /\
  Forall (fun n => 0 < n) (shape (rec_of h 5)) /\ fits (t_dt (rec_of h 5)) (shape (rec_of h 5)) /\
  looks_at 5 (rec_of h 5) (OSum (Some 5%nat)).
Proof. exact lost_ex. Qed.

(** C71: the same for calls on two tensors, when one or both are released. *)
Theorem C71_lost_both : forall {fo : FOps} h a b ra rb, h_ten h !! a = Some ra -> h_ten h !! b = Some rb ->
  gone_or_there h ra -> gone_or_there h rb -> released h ra \/ released h rb -> compatible (shape ra) (shape rb) ->
  Forall (fun n => 0 < n) (shape ra) -> Forall (fun n => 0 < n) (shape rb) ->
  forall o, looks_at_both a b ra rb o -> exists h', exec o h = (UB NullDeref, h') /\ extends h h'.
Proof. exact @looks_both_gone. Qed.
Print Assumptions C71_lost_both.
(** the released view 5 of shape [3; 2] plus tensor 2 of shape [2], and the other way round *)
Example C71_lost_both_example :
  let h := after (demo_ops ++ [ORelease (Some 0%nat)]) in
  h_ten h !! 5%nat = Some (rec_of h 5) /\ h_ten h !! 2%nat = Some (rec_of h 2) /\
  gone_or_there h (rec_of h 5) /\ gone_or_there h (rec_of h 2) /\ released h (rec_of h 5) /\
  compatible (shape (rec_of h 5)) (shape (rec_of h 2)) /\
  Forall (fun n => 0 < n) (shape (rec_of h 5)) /\ Forall (fun n => 0 < n) (shape (rec_of h 2)) /\
  looks_at_both 5 2 (rec_of h 5) (rec_of h 2) (OAdd (Some 5%nat) (Some 2%nat)) /\
  looks_at_both 2 5 (rec_of h 2) (rec_of h 5) (ODiv (Some 2%nat) (Some 5%nat)).
Proof. exact lost_both_ex. Qed.
