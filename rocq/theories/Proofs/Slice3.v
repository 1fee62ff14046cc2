(** Subscripts: texts of concrete subscripts, and corner cases of operator[]. *)
From Verif.Proofs Require Export Slice2 Refute2.

(** [pre] blanks, a sign, digits, blanks *)
Definition int_check (pre sign ds rest : list ascii) : bool :=
  forallb is_ws pre && negb (bool_decide (ds = [])) &&
  forallb (fun c => Nat.leb 48 (nat_of_ascii c) && Nat.leb (nat_of_ascii c) 57) ds &&
  forallb is_ws rest &&
  (bool_decide (sign = ["-"%char]) || bool_decide (sign = []) || bool_decide (sign = ["+"%char])).
Lemma forallb_blank l : forallb is_ws l = true -> Forall blank l.
Proof. rewrite forallb_forall, Forall_forall. intros H c Hc. apply blank_ws, H. by apply elem_of_list_In. Qed.
Lemma int_text_check s pre sign ds rest z : int_check pre sign ds rest = true ->
  s = pre ++ sign ++ ds ++ rest ->
  z = (if bool_decide (sign = ["-"%char]) then - dec_value ds else dec_value ds) -> int_text s z.
Proof.
  unfold int_check. rewrite !andb_true_iff. intros ((((H1 & H2) & H3) & H4) & H5) -> ->.
  exists rest. split; [by apply forallb_blank|].
  apply (Begins _ _ _ pre sign ds); [by apply forallb_blank| |idtac| |done|].
  - intros ->. done.
  - apply Forall_forall. intros c Hc. rewrite forallb_forall in H3. specialize (H3 c (proj1 (elem_of_list_In _ _) Hc)).
    unfold digit. apply andb_true_iff in H3 as [Ha Hb]. apply Nat.leb_le in Ha. apply Nat.leb_le in Hb. lia.
  - intros (c & Hc & Hd). destruct rest as [|c' rest]; [done|]. injection Hc as ->. simpl in H4.
    apply andb_true_iff in H4 as [Hw _]. apply (not_blank c); [by left|]. by apply blank_ws.
  - case_bool_decide; [by left|]. right. split; [|done]. simpl in H5. apply orb_true_iff in H5 as [H5|H5].
    + left. by apply bool_decide_eq_true in H5.
    + right. by apply bool_decide_eq_true in H5.
Qed.

(** a step so large that its product with the stride overflows *)
Definition huge := chars "::9223372036854775807".
Lemma slice_overflow : exists (h : @heap Ieee) t r cs, reachable h /\ h_ten h !! t = Some r /\ backed h r cs /\
  shape r = [2; 3] /\ subs_text huge [Range None None (Some (2 ^ 63 - 1))] /\
  all_legal (shape r) [Range None None (Some (2 ^ 63 - 1))] /\
  (exec (OSlice (Some t) huge) h).1 = UB SignedOverflow.
Proof.
  pose (h := after demo_ops).
  assert (exists v, tensor_at h 0%nat (rec_of h 0) v) as (v & Ht & (cs & Hb) & _).
  { exists (contents h (rec_of h 0)). at_of. }
  exists h, 0%nat, (rec_of h 0), cs. split; [reached|]. split; [exact Ht|]. split; [exact Hb|]. split; [vm|]. split.
  - exists [huge]. split; [|vm]. apply Forall2_cons_2; [|apply Forall2_nil_2].
    refine (ItemRange3 [] [] (chars "9223372036854775807") None None (Some (2 ^ 63 - 1)) _ _ _); [apply Forall_nil_2..|].
    split; [|unfold in_s64; lia]. apply (int_text_check _ [] [] (chars "9223372036854775807") []); vm.
  - split; [|vm]. assert (shape (rec_of h 0) = [2; 3]) as -> by vm. exact (conj (fun E : Some (2 ^ 63 - 1) = Some 0 => ltac:(discriminate E)) I).
Qed.

(** the end is not looked at when the begin is already past the last element, and nothing is
    looked at in an empty dimension *)
Lemma slice_bad_accepted :
  (exists (h : @heap Ieee) t r t', reachable h /\ h_ten h !! t = Some r /\ shape r = [3] /\
     bad_part (chars "abc") NoInteger /\
     (exec (OSlice (Some t) (chars "9:abc")) h).1 = Ok (RHandle (Some t'))) /\
  (exists (h : @heap Ieee) t r t', reachable h /\ h_ten h !! t = Some r /\ shape r = [0] /\
     (exec (OSlice (Some t) (chars "::0")) h).1 = Ok (RHandle (Some t'))).
Proof.
  split.
  - pose (h := after [vec [1; 2; 3]]). exists h, 0%nat, (rec_of h 0), 1%nat.
    split; [reached|]. split; [vm|]. split; [vm|]. split; [|vm].
    left. split; [done|]. split.
    + clear. intros (z & rest & Hb). apply stoll_begins in Hb.
      assert (stoll (chars "abc") = Throw InvalidArgument) as E by vm. rewrite E in Hb. by destruct (fits_s64 z).
    + clear. intros Hb. apply drop_ws_all in Hb. discriminate Hb.
  - pose (h := after [OZeros [0] I8]). exists h, 0%nat, (rec_of h 0), 1%nat.
    split; [reached|]. split_and!; vm.
Qed.
