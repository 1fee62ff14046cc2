(** to_string(). *)
From Coq Require Import QArith Qcanon Qabs Floats.SpecFloat.
From Verif.Proofs Require Import Text Decimal RoundEx.
From Verif.Model Require Import Ieee Exact Api.
Local Open Scope Z_scope.

(** C34: to_string() prints the elements in nested brackets, row by row. [brackets] is in
    Spec/Text.v, [val_str] prints one element. The hypothesis says the buffer has fewer than
    2^63 bytes. *)
Theorem C34_text : forall {fo : FOps} h t r v,
  tensor_at h t r v -> (forall cs, cells h (t_sto r) = Some cs -> size_of (t_dt r) * Z.of_nat (length cs) < two63) ->
  exec (QToString (Some t)) h = (Ok (RString (brackets (shape r) (fun idx => val_str (v idx)))), h).
Proof. exact @to_string_holds. Qed.
Print Assumptions C34_text.
(** C34: integer tensors of one shape that print alike have equal elements. *)
Theorem C34_injective : forall {fo : FOps} h t r v h' t' r' v' s s',
  tensor_at h t r v -> tensor_at h' t' r' v' ->
  (forall cs, cells h (t_sto r) = Some cs -> size_of (t_dt r) * Z.of_nat (length cs) < two63) ->
  (forall cs, cells h' (t_sto r') = Some cs -> size_of (t_dt r') * Z.of_nat (length cs) < two63) ->
  is_int (t_dt r) = true -> is_int (t_dt r') = true -> shape r = shape r' ->
  exec (QToString (Some t)) h = (Ok (RString s), h) -> exec (QToString (Some t')) h' = (Ok (RString s'), h') -> s = s' ->
  forall idx, in_range (shape r) idx -> v idx = v' idx.
Proof. exact @text_inj. Qed.
Print Assumptions C34_injective.
(** C34: the text of a finite float, read as a decimal number, is the multiple of 10^-6 nearest
    to the element, ties to even. *)
Theorem C34_float : forall x q, sf_value x = Some q -> exists d, read_number (@f_str Ieee x) = Some d /\ six_decimals q d.
Proof. exact float_text. Qed.
Print Assumptions C34_float.
(** C34: floating tensors of one shape that print alike have the same infinities and NaNs, and
    elsewhere differ by at most 10^-6. *)
Theorem C34_close : forall h t r v h' t' r' v' s, tensor_at h t r v -> tensor_at h' t' r' v' ->
  (forall cs, cells h (t_sto r) = Some cs -> size_of (t_dt r) * Z.of_nat (length cs) < two63) ->
  (forall cs, cells h' (t_sto r') = Some cs -> size_of (t_dt r') * Z.of_nat (length cs) < two63) ->
  is_int (t_dt r) = false -> is_int (t_dt r') = false -> shape r = shape r' ->
  exec (QToString (Some t)) h = (Ok (RString s), h) -> exec (QToString (Some t')) h' = (Ok (RString s), h') ->
  forall idx, in_range (shape r) idx -> exists x y, v idx = @VF Ieee x /\ v' idx = @VF Ieee y /\ match sf_value x, sf_value y with
    | Some a, Some b => (Qabs (a - b) <= 1 # 1000000)%Q
    | None, None => x = y
    | _, _ => False
    end.
Proof. exact text_close. Qed.
Print Assumptions C34_close.
(** -100 / 7 prints as -14.285714; 2^53 and two ones, and the cell bound of [C34_close] *)
Example C34_float_example :
  let x := @f_div Ieee FT64 (ieee_of_Z FT64 (-100)) (ieee_of_Z FT64 7) in
  @f_str Ieee x = "-14.285714" /\ option_map Qred (read_number (@f_str Ieee x)) = Some (-7142857 # 500000)%Q /\
  bool_decide (sf_value x = None) = false /\
  tensor_at big_heap 0 (rec_of big_heap 0) (contents big_heap (rec_of big_heap 0)) /\ is_int (t_dt (rec_of big_heap 0)) = false /\
  (forall cs, cells big_heap (t_sto (rec_of big_heap 0)) = Some cs -> size_of (t_dt (rec_of big_heap 0)) * Z.of_nat (length cs) < two63) /\
  brackets (shape (rec_of big_heap 0)) (fun idx => val_str (contents big_heap (rec_of big_heap 0) idx)) = "[9007199254740992.000000, 1.000000, 1.000000]".
Proof.
  cbv zeta. do 3 (split; [vm|]). split; [at_of|]. split; [vm|]. split; [|vm]. intros cs E. apply Z.ltb_lt.
  replace (length cs) with (default 0%nat (length <$> cells big_heap (t_sto (rec_of big_heap 0)))) by (by rewrite E). vm.
Qed.
(** the view [:, ::-2] of {{1,2,3},{4,5,6}}, the array itself, a floating row *)
Example C34_example :
  tensor_at demo 1%nat (rec 1) (arr 1) /\ is_int (t_dt (rec 1)) = true /\
  (forall cs, cells demo (t_sto (rec 1)) = Some cs -> size_of (t_dt (rec 1)) * Z.of_nat (length cs) < two63) /\
  brackets (shape (rec 1)) (fun idx => val_str (arr 1 idx)) = "[[3, 1], [6, 4]]" /\
  brackets (shape (rec 5)) (fun idx => val_str (arr 5 idx)) = "[[1, 4], [2, 5], [3, 6]]" /\
  brackets (shape (rec 6)) (fun idx => val_str (arr 6 idx)) = "[1.000000, 2.000000, -3.000000]".
Proof.
  split; [demo_at|]. split; [vm|]. split; [|split_and!; vm]. intros cs E. apply Z.ltb_lt.
  replace (length cs) with (default 0%nat (length <$> cells demo (t_sto (rec 1)))) by (by rewrite E). vm.
Qed.
