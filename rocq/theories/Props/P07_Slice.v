(** Subscripts. [subs_text s xs]: the string [s] is a comma-separated list of the subscripts
    [xs]; [out_shape] and [src_index] say what Python's indexing selects. *)
From Verif.Proofs Require Import Slice4.

(** C17: a legal subscript gives a view of the selection. What is missing: steps and strides
    whose product is not representable ([subs_fit]; C17_refuted shows the claim fails there),
    and sizes from 2^63 up. *)
Theorem C17_slice_partial : forall {fo : FOps} h t r cs s xs,
  reachable h -> h_ten h !! t = Some r -> backed h r cs ->
  Forall in_s64 (strides (t_lay r)) -> Forall (fun n => n < two63) (shape r) ->
  subs_text s xs -> all_legal (shape r) xs -> subs_fit (shape r) (strides (t_lay r)) xs ->
  exists t' h', exec (OSlice (Some t) s) h = (Ok (RHandle (Some t')), h') /\
    new_view h h' r t' (out_shape (shape r) xs) (src_index (shape r) xs) (t_rg r).
Proof. exact @slice_new. Qed.
Print Assumptions C17_slice_partial.
(** For a tensor that has elements, steps smaller than the dimension always fit. *)
Theorem C17_fits : forall {fo : FOps} h r cs xs,
  backed h r cs -> Forall (fun n => 0 < n < 2 ^ 63) (shape r) ->
  Forall (fun s => - 2 ^ 63 < s < 2 ^ 63) (strides (t_lay r)) ->
  all_legal (shape r) xs -> small_steps (shape r) xs -> subs_fit (shape r) (strides (t_lay r)) xs.
Proof. exact @subs_fit_backed. Qed.
Print Assumptions C17_fits.
(** When they do not fit, the behaviour is undefined. *)
Theorem C17_overflow : forall {fo : FOps} h t r s xs,
  h_ten h !! t = Some r -> lay_ok (t_lay r) -> Forall (fun n => n < two63) (shape r) ->
  subs_text s xs -> all_legal (shape r) xs -> ~ subs_fit (shape r) (strides (t_lay r)) xs ->
  exec (OSlice (Some t) s) h = (UB SignedOverflow, h).
Proof. exact @slice_over. Qed.
Print Assumptions C17_overflow.
Theorem C17_refuted : exists (h : @heap Ieee) t r cs,
  reachable h /\ h_ten h !! t = Some r /\ backed h r cs /\ shape r = [2; 3] /\
  subs_text huge [Range None None (Some (2 ^ 63 - 1))] /\
  all_legal (shape r) [Range None None (Some (2 ^ 63 - 1))] /\
  (exec (OSlice (Some t) huge) h).1 = UB SignedOverflow.
Proof. exact slice_overflow. Qed.
Print Assumptions C17_refuted.

(** the transposed tensor 5, [[1;4];[2;5];[3;6]] *)
Example C17_example :
  let h := after demo_ops in let r := rec_of h 5 in
  let s := chars " -1 :-9:-2,1" in let xs := [Range (Some (-1)) (Some (-9)) (Some (-2)); At 1] in
  let h' := (exec (OSlice (Some 5%nat) s) h).2 in
  reachable h /\ h_ten h !! 5%nat = Some r /\ (exists cs, backed h r cs) /\
  shape r = [3; 2] /\ strides (t_lay r) = [1; 3] /\ subs_text s xs /\ all_legal [3; 2] xs /\
  small_steps [3; 2] xs /\ subs_fit [3; 2] [1; 3] xs /\
  out_shape [3; 2] xs = [2] /\ map (src_index [3; 2] xs) [[0]; [1]] = [[2; 1]; [0; 1]] /\
  (exec (OSlice (Some 5%nat) s) h).1 = Ok (RHandle (Some 9%nat)) /\
  row_elems [2] (contents h' (rec_of h' 9)) = map VI [6; 4].
Proof.
  cbv zeta. split; [reached|]. split; [vm|]. split.
  { assert (tensor_at (after demo_ops) 5 (rec_of (after demo_ops) 5)
      (contents (after demo_ops) (rec_of (after demo_ops) 5))) as [_ [(cs & Hb) _]] by at_of. by exists cs. }
  split; [vm|]. split; [vm|]. split.
  { exists [chars " -1 :-9:-2"; chars "1"]. split; [|vm].
    apply Forall2_cons_2; [|apply Forall2_cons_2; [|apply Forall2_nil_2]].
    - refine (ItemRange3 (chars " -1 ") (chars "-9") (chars "-2") (Some (-1)) (Some (-9)) (Some (-2)) _ _ _).
      + split; [|unfold in_s64; lia]. apply (int_text_check _ (chars " ") (chars "-") (chars "1") (chars " ")); vm.
      + split; [|unfold in_s64; lia]. apply (int_text_check _ [] (chars "-") (chars "9") []); vm.
      + split; [|unfold in_s64; lia]. apply (int_text_check _ [] (chars "-") (chars "2") []); vm.
    - apply ItemAt; [|unfold in_s64; lia]. apply (int_text_check _ [] [] (chars "1") []); vm. }
  split; [vm_compute; intuition congruence|]. split; [vm_compute; auto|].
  split; [vm_compute; intuition congruence|]. split_and!; vm.
Qed.

(** C17, C18: what happens on every other text, well-formed or not. [items_read] (Spec/Lenient.v)
    takes the items from the left: each is a subscript, or an error, or a subscript whose
    products overflow. Selections give a view, errors their exception, and overflow is
    undefined behaviour. *)
Theorem C18_outcome : forall {fo : FOps} h t r cs items y,
  reachable h -> h_ten h !! t = Some r -> backed h r cs ->
  Forall in_s64 (strides (t_lay r)) -> Forall (fun n => n < two63) (shape r) ->
  Forall (fun s => ","%char ∉ s) items -> commas items <> [] ->
  items_read (shape r) (strides (t_lay r)) items y -> (length items <= length (shape r))%nat ->
  match y with
  | Selects xs => exists t' h', exec (OSlice (Some t) (commas items)) h = (Ok (RHandle (Some t')), h') /\
      new_view h h' r t' (out_shape (shape r) xs) (src_index (shape r) xs) (t_rg r)
  | Fails e => exec (OSlice (Some t) (commas items)) h = (Throw (exn_of e), h)
  | Overflows => exec (OSlice (Some t) (commas items)) h = (UB SignedOverflow, h)
  end.
Proof. exact @slice_reads. Qed.
Print Assumptions C18_outcome.
(** Every text is a list of items, and every list that is not too long has a reading. *)
Theorem C18_items : forall s, exists items,
  Forall (fun i => ","%char ∉ i) items /\ s = commas items /\ (s <> [] -> items <> []).
Proof. exact text_items. Qed.
Print Assumptions C18_items.
Theorem C18_reading : forall r items,
  lay_ok (t_lay r) -> (length items <= length (shape r))%nat ->
  exists y, items_read (shape r) (strides (t_lay r)) items y.
Proof. exact slice_total. Qed.
Print Assumptions C18_reading.

(** on tensor 0, [[1;2;3];[4;5;6]]: text after an integer and a fourth part are ignored, an
    empty item is the whole dimension, and the end is not read when the begin is past it *)
Example C18_outcome_example :
  let h := after demo_ops in
  let r := rec_of h 0 in
  let items1 := [chars "1x"; chars "0:9:2:junk"] in
  let items2 := [[]; chars "7:abc"] in
  let h1 := (exec (OSlice (Some 0%nat) (commas items1)) h).2 in
  shape r = [2; 3] /\ strides (t_lay r) = [3; 1] /\
  commas items1 = chars "1x,0:9:2:junk" /\ commas items2 = chars ",7:abc" /\
  items_read [2; 3] [3; 1] items1 (Selects [At 1; Range (Some 0) (Some 9) (Some 2)]) /\
  out_shape [2; 3] [At 1; Range (Some 0) (Some 9) (Some 2)] = [2] /\
  row_elems [2] (contents h1 (rec_of h1 9)) = map VI [4; 6] /\
  items_read [2; 3] [3; 1] items2 (Selects [whole; Range (Some 7) None None]) /\
  out_shape [2; 3] [whole; Range (Some 7) None None] = [2; 0] /\
  items_read [2; 3] [3; 1] [chars "-3"] (Fails BadIndex) /\
  items_read [2; 3] [3; 1] [huge; chars "abc"] Overflows.
Proof.
  cbv zeta. split; [vm|]. split; [vm|]. split; [vm|]. split; [vm|]. split.
  { refine (ItemSelects 2 [3] 3 [1] _ _ (At 1) (Selects [_]) _ _ _).
    - refine (ReadAt 2 _ 1 (text_no_colon _ _) (read_int _ [] [] (chars "1") (chars "x") 1 _ _ _ _) _); [vm|vm|vm|vm|unfold in_s64; lia|lia].
    - vm_compute. intuition congruence.
    - refine (ItemSelects 3 [] 1 [] _ _ (Range (Some 0) (Some 9) (Some 2)) (Selects []) _ _ (NoItems _ _)).
      + refine (ReadRange 3 _ (chars "0") (chars "9") (chars "2") (Some 2) (Some 0) (Some 9) (LaxMore _ _ _ (chars "junk") _ _ _) _ _ _ _ _ _);
          first [apply text_no_colon; vm | done | idtac].
        * apply (read_int _ [] [] (chars "2") [] 2); [vm|vm|vm|unfold in_s64; lia].
        * apply (read_int _ [] [] (chars "0") [] 0); [vm|vm|vm|unfold in_s64; lia].
        * apply (read_int _ [] [] (chars "9") [] 9); [vm|vm|vm|unfold in_s64; lia].
      + intros _. vm_compute. intuition congruence. }
  split; [vm|]. split; [vm|]. split.
  { refine (ItemSelects 2 [3] 3 [1] _ _ whole (Selects [_]) (ReadEmpty _) _ _).
    - intros _. vm_compute. intuition congruence.
    - refine (ItemSelects 3 [] 1 [] _ _ (Range (Some 7) None None) (Selects []) _ _ (NoItems _ _)).
      + refine (ReadPast 3 _ (chars "7") (chars "abc") [] None (Some 7) (LaxExact _ _ _ _ (Range2 _ _ _ _)) _ _ _ _ _);
          first [apply text_no_colon; vm | done | idtac].
        * apply ReadNothing. by apply Forall_nil.
        * apply (read_int _ [] [] (chars "7") [] 7); [vm|vm|vm|unfold in_s64; lia].
        * vm_compute. intros [_ H]. discriminate H.
      + intros H. vm_compute in H. discriminate H. }
  split; [vm|]. split.
  { refine (ItemFails 2 [3] 3 [1] _ _ BadIndex (ReadOutside 2 _ (-3) (text_no_colon _ _) (read_int _ [] (chars "-") (chars "3") [] (-3) _ _ _ _) _)); [vm|vm|vm|vm|unfold in_s64; lia|lia]. }
  refine (ItemOverflows 2 [3] 3 [1] _ _ (Range None None (Some (2 ^ 63 - 1))) _ _).
  - refine (ReadRange 2 _ [] [] (chars "9223372036854775807") (Some (2 ^ 63 - 1)) None None (LaxExact _ _ _ _ (Range3 _ _ _ _ _ _)) _ _ _ _ _ _);
      first [apply text_no_colon; vm | done | idtac].
    + apply (read_int _ [] [] (chars "9223372036854775807") [] (2 ^ 63 - 1)); [vm|vm|vm|unfold in_s64; lia].
    + apply ReadNothing. by apply Forall_nil.
    + apply ReadNothing. by apply Forall_nil.
  - intros H. destruct H as [[_ H] _]; [vm_compute; reflexivity|]. vm_compute in H. discriminate H.
Qed.

(** C18: more parts than dimensions. *)
Theorem C18_too_many : forall {fo : FOps} h t r items,
  h_ten h !! t = Some r -> Forall (fun s => ","%char ∉ s) items -> commas items <> [] ->
  (length (shape r) < length items)%nat ->
  exec (OSlice (Some t) (commas items)) h = (Throw RuntimeError, h).
Proof. exact @slice_too_many. Qed.
Print Assumptions C18_too_many.
(** A bad item after good ones. What is missing: ranges in an empty dimension, and the end of
    a range that starts past the last element; there the code accepts anything (C18_refuted). *)
Theorem C18_bad_item_partial : forall {fo : FOps} h t r pre xs bad rest e n,
  h_ten h !! t = Some r -> lay_ok (t_lay r) -> Forall (fun n => n < two63) (shape r) ->
  Forall2 item_text pre xs -> all_legal (shape r) xs -> subs_fit (shape r) (strides (t_lay r)) xs ->
  shape r !! length pre = Some n -> bad_item n bad e ->
  Forall (fun s => ","%char ∉ s) (bad :: rest) -> (length (pre ++ bad :: rest) <= length (shape r))%nat ->
  exec (OSlice (Some t) (commas (pre ++ bad :: rest))) h = (Throw (exn_of e), h).
Proof. exact @slice_bad_item. Qed.
Print Assumptions C18_bad_item_partial.
Theorem C18_refuted :
  (exists (h : @heap Ieee) t r t', reachable h /\ h_ten h !! t = Some r /\ shape r = [3] /\
     bad_part (chars "abc") NoInteger /\
     (exec (OSlice (Some t) (chars "9:abc")) h).1 = Ok (RHandle (Some t'))) /\
  (exists (h : @heap Ieee) t r t', reachable h /\ h_ten h !! t = Some r /\ shape r = [0] /\
     (exec (OSlice (Some t) (chars "::0")) h).1 = Ok (RHandle (Some t'))).
Proof. exact slice_bad_accepted. Qed.
Print Assumptions C18_refuted.

(** "1,2," has three parts; "1,3" is out of range in the second dimension of tensor 0 *)
Example C18_example :
  let h := after demo_ops in
  shape (rec_of h 0) = [2; 3] /\ lay_ok (t_lay (rec_of h 0)) /\
  commas [chars "1"; chars "2"; []] = chars "1,2," /\
  (exec (OSlice (Some 0%nat) (chars "1,2,")) h).1 = Throw RuntimeError /\
  item_text (chars "1") (At 1) /\ bad_item 3 (chars "3") BadIndex /\
  (exec (OSlice (Some 0%nat) (chars "1,3")) h).1 = Throw RuntimeError /\
  bad_item 3 (chars "1:2:x") NoInteger /\
  (exec (OSlice (Some 0%nat) (chars "1,1:2:x")) h).1 = Throw InvalidArgument.
Proof.
  cbv zeta. split; [vm|]. split; [decide_it|]. split; [vm|]. split; [vm|]. split.
  { apply ItemAt; [|unfold in_s64; lia]. apply (int_text_check _ [] [] (chars "1") []); vm. }
  split.
  { apply (BadAt 3 _ 3); [|unfold in_s64; lia|lia]. apply (int_text_check _ [] [] (chars "3") []); vm. }
  split; [vm|]. split; [|vm].
  eapply (BadStep 3 _ (chars "1") (chars "2") (chars "x")); [|lia|].
  - apply (Range3 (chars "1") (chars "2") (chars "x"));
      apply (bool_decide_eq_false_1 (":"%char ∈ _)); vm.
  - left. split; [done|]. split.
    + intros (z & rest & Hb). apply stoll_begins in Hb.
      assert (stoll (chars "x") = Throw InvalidArgument) as E by vm. rewrite E in Hb. by destruct (fits_s64 z).
    + intros Hb. apply drop_ws_all in Hb. discriminate Hb.
Qed.
