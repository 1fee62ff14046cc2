(** Laws that relate the results of several calls. [yields h ops ts h']: the calls succeed one
    after the other and return the tensors [ts]. [same_array h t u]: [t] and [u] have the same
    dtype, shape and elements. [undefined o h]: the arithmetic of the call is undefined. *)
From Verif.Proofs Require Import LawEx Slice4 Floats.
From Verif.Model Require Import Ieee Api.
#[local] Existing Instance Ieee.

(** C74: transposing a sum, difference, product or quotient is combining the transposes. *)
Theorem C74_transpose : forall {fo : FOps} o h a b ra rb va vb d0 d1,
  f_commutative fo -> reachable h -> tensor_at h a ra va -> tensor_at h b rb vb ->
  shape ra = shape rb -> fits (dt_join (t_dt ra) (t_dt rb)) (shape ra) ->
  0 <= d0 < Z.of_nat (length (shape ra)) -> 0 <= d1 < Z.of_nat (length (shape ra)) -> d0 <> d1 ->
  undefined (exec_arith o (Some a) (Some b)) h \/
  exists t u x y z h',
    yields h [exec_arith o (Some a) (Some b); OTranspose (Some t) d0 d1; OTranspose (Some a) d0 d1;
              OTranspose (Some b) d0 d1; exec_arith o (Some x) (Some y)] [t; u; x; y; z] h' /\
    same_array h' u z.
Proof. exact @transpose_arith. Qed.
Print Assumptions C74_transpose.
(** C74: and so for comparisons, which are never undefined. *)
Theorem C74_transpose_cmp : forall {fo : FOps} c h a b ra rb va vb d0 d1,
  reachable h -> tensor_at h a ra va -> tensor_at h b rb vb ->
  shape ra = shape rb -> fits I8 (shape ra) ->
  0 <= d0 < Z.of_nat (length (shape ra)) -> 0 <= d1 < Z.of_nat (length (shape ra)) -> d0 <> d1 ->
  exists t u x y z h',
    yields h [OCmp c (Some a) (Some b); OTranspose (Some t) d0 d1; OTranspose (Some a) d0 d1;
              OTranspose (Some b) d0 d1; OCmp c (Some x) (Some y)] [t; u; x; y; z] h' /\
    same_array h' u z.
Proof. exact @transpose_cmp. Qed.
Print Assumptions C74_transpose_cmp.
(** the reversed i16 view 1 and the i8 tensor 3, both of shape [2;2] *)
Example C74_transpose_example :
  let h := lawh in let h' := (run h [OSub (Some 1%nat) (Some 3%nat); OTranspose (Some 14%nat) 0 1]).2 in
  f_commutative Ieee /\ reachable h /\
  tensor_at h 1 (rec_of h 1) (contents h (rec_of h 1)) /\ tensor_at h 3 (rec_of h 3) (contents h (rec_of h 3)) /\
  t_dt (rec_of h 1) = I16 /\ t_dt (rec_of h 3) = I8 /\ shape (rec_of h 1) = [2; 2] /\ shape (rec_of h 3) = [2; 2] /\
  fits I16 [2; 2] /\ fits I8 [2; 2] /\
  row h 1 = map VI [3; 1; 6; 4] /\ row h 3 = map VI [1; 0; 1; 1] /\ row h' 15 = map VI [2; 5; 1; 3].
Proof.
  cbv zeta. split; [exact ieee_commutative|]. split; [exact law_reach|]. split; [at_of|]. split; [at_of|].
  do 4 (split; [vm|]). split; [fits_ok|]. split; [fits_ok|]. split_and!; vm.
Qed.

(** C74: subscripting a sum, difference, product, quotient or comparison is combining the
    subscripted operands. *)
Theorem C74_slice : forall {fo : FOps} o h a b ra rb va vb s xs,
  f_commutative fo -> reachable h -> tensor_at h a ra va -> tensor_at h b rb vb ->
  shape ra = shape rb -> fits (dt_join (t_dt ra) (t_dt rb)) (shape ra) ->
  Forall (fun n => 0 < n) (shape ra) -> small_strides ra -> small_strides rb ->
  subs_text s xs -> all_legal (shape ra) xs -> small_steps (shape ra) xs ->
  undefined (exec_arith o (Some a) (Some b)) h \/
  exists t u x y z h',
    yields h [exec_arith o (Some a) (Some b); OSlice (Some t) s; OSlice (Some a) s; OSlice (Some b) s;
              exec_arith o (Some x) (Some y)] [t; u; x; y; z] h' /\
    same_array h' u z.
Proof. exact @slice_arith. Qed.
Print Assumptions C74_slice.
Theorem C74_slice_cmp : forall {fo : FOps} c h a b ra rb va vb s xs,
  reachable h -> tensor_at h a ra va -> tensor_at h b rb vb ->
  shape ra = shape rb -> fits I8 (shape ra) ->
  Forall (fun n => 0 < n) (shape ra) -> small_strides ra -> small_strides rb ->
  subs_text s xs -> all_legal (shape ra) xs -> small_steps (shape ra) xs ->
  exists t u x y z h',
    yields h [OCmp c (Some a) (Some b); OSlice (Some t) s; OSlice (Some a) s; OSlice (Some b) s;
              OCmp c (Some x) (Some y)] [t; u; x; y; z] h' /\
    same_array h' u z.
Proof. exact @slice_cmp. Qed.
Print Assumptions C74_slice_cmp.
Example C74_slice_example :
  let h := lawh in let s := chars "1,::-1" in let xs := [At 1; Range None None (Some (-1))] in
  let h' := (run h [OSub (Some 1%nat) (Some 3%nat); OSlice (Some 14%nat) s]).2 in
  Forall (fun n => 0 < n) (shape (rec_of h 1)) /\ small_strides (rec_of h 1) /\ small_strides (rec_of h 3) /\
  subs_text s xs /\ all_legal [2; 2] xs /\ small_steps [2; 2] xs /\ row h' 15 = map VI [3; 5].
Proof.
  cbv zeta. split; [decide_it|]. split; [unfold small_strides; decide_it|]. split; [unfold small_strides; decide_it|]. split.
  { exists [chars "1"; chars "::-1"]. split; [|vm]. apply Forall2_cons_2; [|apply Forall2_cons_2; [|apply Forall2_nil_2]].
    - apply ItemAt; [|unfold in_s64; lia]. apply (int_text_check _ [] [] (chars "1") []); vm.
    - refine (ItemRange3 [] [] (chars "-1") None None (Some (-1)) _ _ _); [by constructor..|].
      split; [|unfold in_s64; lia]. apply (int_text_check _ [] (chars "-") (chars "1") []); vm. }
  split; [simpl; split_and!; [lia|lia|done|done]|]. split; [simpl; split; [by left|done]|vm].
Qed.

(** C74: addition and multiplication of integer tensors of one dtype are associative, with any
    broadcasting, provided the four calls succeed (for i32 and i64 one bracketing can overflow
    where the other does not). *)
Theorem C74_assoc : forall {fo : FOps}, f_commutative fo -> forall h T, floating T = false ->
  forall a b c ra rb rc va vb vc, intensor h T a ra va -> intensor h T b rb vb -> intensor h T c rc vc ->
  compatible (shape ra) (shape rb) -> compatible (shape ra) (shape rc) -> compatible (shape rb) (shape rc) ->
  fits T (bshape (shape ra) (shape rb)) -> fits T (bshape (shape rb) (shape rc)) ->
  fits T (bshape (bshape (shape ra) (shape rb)) (shape rc)) ->
  forall o x u y z h', o = AAdd \/ o = AMul ->
  yields h [exec_arith o (Some a) (Some b); exec_arith o (Some x) (Some c); exec_arith o (Some b) (Some c);
            exec_arith o (Some a) (Some y)] [x; u; y; z] h' ->
  same_array h' u z.
Proof. exact @assoc_law. Qed.
Print Assumptions C74_assoc.
(** C74: multiplication distributes over addition. *)
Theorem C74_distrib : forall {fo : FOps}, f_commutative fo -> forall h T, floating T = false ->
  forall a b c ra rb rc va vb vc, intensor h T a ra va -> intensor h T b rb vb -> intensor h T c rc vc ->
  compatible (shape ra) (shape rb) -> compatible (shape ra) (shape rc) -> compatible (shape rb) (shape rc) ->
  fits T (bshape (shape ra) (shape rb)) -> fits T (bshape (shape rb) (shape rc)) ->
  fits T (bshape (shape ra) (shape rc)) -> fits T (bshape (bshape (shape ra) (shape rb)) (shape rc)) ->
  forall s u p q z h',
  yields h [OAdd (Some b) (Some c); OMul (Some a) (Some s); OMul (Some a) (Some b); OMul (Some a) (Some c);
            OAdd (Some p) (Some q)] [s; u; p; q; z] h' ->
  same_array h' u z.
Proof. exact @distrib_law. Qed.
Print Assumptions C74_distrib.
(** C74: subtracting what was added gives the tensor back. *)
Theorem C74_cancel : forall {fo : FOps}, f_commutative fo -> forall h T, floating T = false ->
  forall a b ra rb va vb, intensor h T a ra va -> intensor h T b rb vb ->
  compatible (shape ra) (shape rb) -> fits T (bshape (shape ra) (shape rb)) ->
  forall x u h', bshape (shape ra) (shape rb) = shape ra ->
  yields h [OAdd (Some a) (Some b); OSub (Some x) (Some b)] [x; u] h' ->
  same_array h' u a.
Proof. exact @cancel_law. Qed.
Print Assumptions C74_cancel.
(** i16: 0 of shape [2;3], the row 9 of shape [3] and the column 10 of shape [2;1] *)
Example C74_integer_example :
  let h := lawh in
  let h1 := (run h [OMul (Some 0%nat) (Some 9%nat); OMul (Some 14%nat) (Some 10%nat); OMul (Some 9%nat) (Some 10%nat); OMul (Some 0%nat) (Some 16%nat)]).2 in
  let h2 := (run h [OAdd (Some 9%nat) (Some 10%nat); OMul (Some 0%nat) (Some 14%nat); OMul (Some 0%nat) (Some 9%nat); OMul (Some 0%nat) (Some 10%nat);
                    OAdd (Some 16%nat) (Some 17%nat)]).2 in
  let h3 := (run h [OAdd (Some 0%nat) (Some 9%nat); OSub (Some 14%nat) (Some 9%nat)]).2 in
  intensor h I16 0 (rec_of h 0) (contents h (rec_of h 0)) /\ intensor h I16 9 (rec_of h 9) (contents h (rec_of h 9)) /\
  intensor h I16 10 (rec_of h 10) (contents h (rec_of h 10)) /\
  shape (rec_of h 0) = [2; 3] /\ shape (rec_of h 9) = [3] /\ shape (rec_of h 10) = [2; 1] /\
  compatible [2; 3] [3] /\ compatible [2; 3] [2; 1] /\ compatible [3] [2; 1] /\ fits I16 [2; 3] /\
  bshape [3] [2; 1] = [2; 3] /\ bshape [2; 3] [3] = [2; 3] /\
  yields h [OMul (Some 0%nat) (Some 9%nat); OMul (Some 14%nat) (Some 10%nat); OMul (Some 9%nat) (Some 10%nat); OMul (Some 0%nat) (Some 16%nat)]
    [14; 15; 16; 17]%nat h1 /\ row h1 15 = map VI [2; 8; 18; 20; 50; 90] /\
  yields h [OAdd (Some 9%nat) (Some 10%nat); OMul (Some 0%nat) (Some 14%nat); OMul (Some 0%nat) (Some 9%nat); OMul (Some 0%nat) (Some 10%nat);
            OAdd (Some 16%nat) (Some 17%nat)] [14; 15; 16; 17; 18]%nat h2 /\ row h2 18 = map VI [3; 8; 15; 24; 35; 48] /\
  yields h [OAdd (Some 0%nat) (Some 9%nat); OSub (Some 14%nat) (Some 9%nat)] [14; 15]%nat h3.
Proof.
  cbv zeta. do 3 (split; [split; [at_of|split; [vm|decide_it]]|]). do 3 (split; [vm|]). do 3 (split; [decide_it|]). split; [fits_ok|].
  split; [vm|]. split; [vm|]. unfold yields. split_and!; vm.
Qed.
(** C74: floats are not associative. *)
Theorem C74_float_refuted : exists h a b c x u y z h', reachable h /\
  yields h [OAdd (Some a) (Some b); OAdd (Some x) (Some c); OAdd (Some b) (Some c); OAdd (Some a) (Some y)] [x; u; y; z] h' /\
  ~ same_array h' u z.
Proof. exact float_refuted. Qed.
Print Assumptions C74_float_refuted.

(** C74: the sum of a tensor is the sum of any reshape of it, in any dtype. Of floats, only a
    0-dim scalar must stay one: its sum is itself, while a sum of one element adds it to +0. *)
Theorem C74_sum_reshape : forall {fo : FOps} h t r v xs ss,
  reachable h -> tensor_at h t r v -> plain_lay (t_lay r) -> fits (t_dt r) (shape r) ->
  asks_for xs (size_prod (shape r)) ss -> Forall in_ll xs ->
  (wildcards xs = 1%nat -> 0 < given xs < 2 ^ 64) -> (t_rg r = true -> shape r = [] -> xs = []) ->
  (floating (t_dt r) = true -> shape r = [] <-> ss = []) ->
  undefined (OSum (Some t)) h \/
  exists t' u z h', yields h [OReshape (Some t) xs; OSum (Some t'); OSum (Some t)] [t'; u; z] h' /\ same_array h' u z.
Proof. exact @sum_reshape. Qed.
Print Assumptions C74_sum_reshape.
(** C74: the sum of integers is the sum of the transpose. *)
Theorem C74_sum_transpose : forall {fo : FOps} h t r v d0 d1 t' u z h',
  reachable h -> tensor_at h t r v -> floating (t_dt r) = false -> size_prod (shape r) < two63 ->
  0 <= d0 < Z.of_nat (length (shape r)) -> 0 <= d1 < Z.of_nat (length (shape r)) ->
  yields h [OTranspose (Some t) d0 d1; OSum (Some t'); OSum (Some t)] [t'; u; z] h' -> same_array h' u z.
Proof. exact @sum_transpose. Qed.
Print Assumptions C74_sum_transpose.
(** the transpose 5 of shape [3;2] reshaped to [2;3], and transposed back *)
Example C74_sum_example :
  let h := lawh in
  let h1 := (run h [OReshape (Some 5%nat) [2; -1]; OSum (Some 15%nat); OSum (Some 5%nat)]).2 in
  let h2 := (run h [OTranspose (Some 5%nat) 1 0; OSum (Some 14%nat); OSum (Some 5%nat)]).2 in
  tensor_at h 5 (rec_of h 5) (contents h (rec_of h 5)) /\ t_dt (rec_of h 5) = I16 /\ shape (rec_of h 5) = [3; 2] /\
  plain_lay (t_lay (rec_of h 5)) /\ fits I16 [3; 2] /\ asks_for [2; -1] 6 [2; 3] /\ Forall in_ll [2; -1] /\ given [2; -1] = 2 /\
  yields h [OReshape (Some 5%nat) [2; -1]; OSum (Some 15%nat); OSum (Some 5%nat)] [15; 16; 17]%nat h1 /\
  row h1 16 = [VI 21] /\ row h1 17 = [VI 21] /\
  yields h [OTranspose (Some 5%nat) 1 0; OSum (Some 14%nat); OSum (Some 5%nat)] [14; 15; 16]%nat h2 /\ row h2 15 = [VI 21].
Proof.
  cbv zeta. split; [at_of|]. split; [vm|]. split; [vm|]. split.
  { assert (t_lay (rec_of lawh 5) = Lay [3; 2] [1; 3] 0) as -> by vm. repeat first [apply Forall2_nil_2 | apply Forall2_cons_2; [unfold in_ll; lia|]]. }
  split; [fits_ok|]. split.
  { split; [repeat first [apply Forall2_nil_2 | apply Forall2_cons_2; [lia|]]|]. split; [decide_it|vm]. }
  split; [decide_it|]. split; [vm|]. unfold yields. split_and!; vm.
Qed.

(** C74: operands of different dtypes are combined as if both were converted to the dtype of
    the result first. *)
Theorem C74_promote : forall {fo : FOps} o h a b ra rb va vb, let D := dt_join (t_dt ra) (t_dt rb) in
  f_commutative fo -> reachable h -> tensor_at h a ra va -> tensor_at h b rb vb ->
  compatible (shape ra) (shape rb) -> no_zero_one (shape ra) (shape rb) ->
  fits D (bshape (shape ra) (shape rb)) -> fits D (shape ra) -> fits D (shape rb) ->
  undefined (exec_arith o (Some a) (Some b)) h \/
  exists t x y z h',
    yields h [exec_arith o (Some a) (Some b); OTypeTo (Some a) D; OTypeTo (Some b) D; exec_arith o (Some x) (Some y)] [t; x; y; z] h' /\
    same_array h' t z.
Proof. exact @promote. Qed.
Print Assumptions C74_promote.
Theorem C74_promote_cmp : forall {fo : FOps} c h a b ra rb va vb, let D := dt_join (t_dt ra) (t_dt rb) in
  reachable h -> tensor_at h a ra va -> tensor_at h b rb vb ->
  compatible (shape ra) (shape rb) -> no_zero_one (shape ra) (shape rb) ->
  fits I8 (bshape (shape ra) (shape rb)) -> fits D (shape ra) -> fits D (shape rb) ->
  exists t x y z h',
    yields h [OCmp c (Some a) (Some b); OTypeTo (Some a) D; OTypeTo (Some b) D; OCmp c (Some x) (Some y)] [t; x; y; z] h' /\
    same_array h' t z.
Proof. exact @promote_cmp. Qed.
Print Assumptions C74_promote_cmp.
(** the f32 vector 2 times the i32 column 4 *)
Example C74_promote_example :
  let h := lawh in let h' := (run h [OMul (Some 2%nat) (Some 4%nat)]).2 in
  tensor_at h 2 (rec_of h 2) (contents h (rec_of h 2)) /\ tensor_at h 4 (rec_of h 4) (contents h (rec_of h 4)) /\
  t_dt (rec_of h 2) = F32 /\ t_dt (rec_of h 4) = I32 /\ dt_join F32 I32 = F32 /\
  shape (rec_of h 2) = [2] /\ shape (rec_of h 4) = [2; 1] /\ compatible [2] [2; 1] /\ no_zero_one [2] [2; 1] /\
  bshape [2] [2; 1] = [2; 2] /\ fits F32 [2; 2] /\ fits F32 [2] /\ fits F32 [2; 1] /\ fits I8 [2; 2] /\
  row h' 14 = [f32 70; f32 140; f32 (-80); f32 (-160)].
Proof.
  cbv zeta. split; [at_of|]. split; [at_of|]. do 5 (split; [vm|]). split; [decide_it|]. split; [apply pos_nz; decide_it|]. split; [vm|].
  do 4 (split; [fits_ok|]). vm.
Qed.

(** C74: a += b on a copy of [a] gives a + b, if a + b has the dtype and shape of [a]. *)
Theorem C74_inplace : forall {fo : FOps} h a b ra rb va vb,
  f_commutative fo -> tensor_at h a ra va -> tensor_at h b rb vb -> t_rg ra = false ->
  dt_join (t_dt ra) (t_dt rb) = t_dt ra -> compatible (shape ra) (shape rb) -> no_zero_one (shape ra) (shape rb) ->
  bshape (shape ra) (shape rb) = shape ra -> fits (t_dt ra) (shape ra) ->
  undefined (OAdd (Some a) (Some b)) h \/
  exists t c h1 h2, yields h [OAdd (Some a) (Some b); OClone (Some a)] [t; c] h1 /\
    exec (OAddEq (Some c) (Some b)) h1 = (Ok RUnit, h2) /\ same_array h2 c t.
Proof. exact @inplace. Qed.
Print Assumptions C74_inplace.
(** the reversed view 1 and the i8 tensor 3 *)
Example C74_inplace_example :
  let h := lawh in let h' := (run h [OAdd (Some 1%nat) (Some 3%nat); OClone (Some 1%nat); OAddEq (Some 15%nat) (Some 3%nat)]).2 in
  tensor_at h 1 (rec_of h 1) (contents h (rec_of h 1)) /\ tensor_at h 3 (rec_of h 3) (contents h (rec_of h 3)) /\
  t_rg (rec_of h 1) = false /\ dt_join I16 I8 = I16 /\ compatible [2; 2] [2; 2] /\ no_zero_one [2; 2] [2; 2] /\
  row h' 15 = map VI [4; 1; 7; 5] /\ row h' 14 = map VI [4; 1; 7; 5].
Proof. cbv zeta. split; [at_of|]. split; [at_of|]. split; [vm|]. split; [vm|]. split; [decide_it|]. split; [apply pos_nz; decide_it|]. split; vm. Qed.

(** C74: cutting a tensor in two along any dimension and joining the parts with cat gives its
    contents back. *)
Theorem C74_split : forall {fo : FOps} h t r v d k s1 s2,
  reachable h -> tensor_at h t r v -> fits (t_dt r) (shape r) -> Forall (fun n => 0 < n) (shape r) -> small_strides r ->
  (d < length (shape r))%nat -> 0 <= k <= nth d (shape r) 0 ->
  subs_text s1 (first_part d k) -> subs_text s2 (last_part d k) ->
  exists x y z h', yields h [OSlice (Some t) s1; OSlice (Some t) s2; OCat [Some x; Some y] (Z.of_nat d)] [x; y; z] h' /\
    same_array h' z t.
Proof. exact @split_law. Qed.
Print Assumptions C74_split.
(** 0 of shape [2;3], cut before its last column *)
Example C74_split_example :
  let h := lawh in let h' := (run h [OSlice (Some 0%nat) (chars ":,:2"); OSlice (Some 0%nat) (chars ":,2:"); OCat [Some 14%nat; Some 15%nat] 1]).2 in
  tensor_at h 0 (rec_of h 0) (contents h (rec_of h 0)) /\ fits I16 [2; 3] /\ small_strides (rec_of h 0) /\
  first_part 1 2 = [whole; Range None (Some 2) None] /\ last_part 1 2 = [whole; Range (Some 2) None None] /\
  subs_text (chars ":,:2") (first_part 1 2) /\ subs_text (chars ":,2:") (last_part 1 2) /\
  row h' 14 = map VI [1; 2; 4; 5] /\ row h' 15 = map VI [3; 6] /\ row h' 16 = map VI [1; 2; 3; 4; 5; 6].
Proof.
  cbv zeta. split; [at_of|]. split; [fits_ok|]. split; [unfold small_strides; decide_it|]. split; [vm|]. split; [vm|].
  split; [|split; [|split_and!; vm]].
  - exists [chars ":"; chars ":2"]. split; [|vm]. apply Forall2_cons_2; [|apply Forall2_cons_2; [|apply Forall2_nil_2]].
    + refine (ItemRange2 [] [] None None _ _); by constructor.
    + refine (ItemRange2 [] (chars "2") None (Some 2) _ _); [by constructor|]. split; [|unfold in_s64; lia]. apply (int_text_check _ [] [] (chars "2") []); vm.
  - exists [chars ":"; chars "2:"]. split; [|vm]. apply Forall2_cons_2; [|apply Forall2_cons_2; [|apply Forall2_nil_2]].
    + refine (ItemRange2 [] [] None None _ _); by constructor.
    + refine (ItemRange2 (chars "2") [] (Some 2) None _ _); [|by constructor]. split; [|unfold in_s64; lia]. apply (int_text_check _ [] [] (chars "2") []); vm.
Qed.
