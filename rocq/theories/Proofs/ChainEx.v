(** Witnesses about chains of views. *)
From Verif.Proofs Require Export Chain2 ReshapeEx.
From Verif.Model Require Export Ieee.

Section with_fops.
Context {fo : FOps}.
Lemma derived_views h t : derived h t ->
  exists r x, h_ten h !! t = Some r /\ h_sto h !! t_sto r = Some x /\ sto_ty x = t_dt r /\ lay_inj (t_lay r) /\
    forall cs, sto_blob x = Some cs -> lay_in (t_lay r) (Z.of_nat (length cs)).
Proof.
  intros H. destruct (derived_inside h t H) as (r & x & H1 & H2 & H3 & H4 & H5 & H6).
  exists r, x. split_and!; try done. intros cs Hcs idx Hi. specialize (H4 idx Hi). specialize (H5 cs Hcs). lia.
Qed.
End with_fops.

Lemma derive_new (h : @heap Ieee) o t (h' := (exec o h).2) : reachable h -> allocates o = true ->
  (exec o h).1 = Ok (RHandle (Some t)) ->
  match h_ten h' !! t with Some r => forallb (Z.leb 0) (shape r) && (size_of (t_dt r) * size_prod (shape r) <=? alloc_max) | None => false end = true ->
  derived h' t.
Proof.
  intros Hr Ha He Hc. destruct (h_ten h' !! t) as [r|] eqn:Et; [|done]. apply andb_true_iff in Hc as [H1 H2].
  eapply (DNew h o t h' r); try done.
  - unfold h'. rewrite <- He. by destruct (exec o h).
  - apply Forall_forall. intros n Hn%elem_of_list_In. rewrite forallb_forall in H1. specialize (H1 n Hn). lia.
  - apply Z.leb_le. done.
Qed.
Lemma derive_view (h : @heap Ieee) o t t' : derived h t -> view_call h t o -> (exec o h).1 = Ok (RHandle (Some t')) ->
  derived (exec o h).2 t'.
Proof. intros Hd Hv He. eapply DView; [exact Hd|exact Hv|]. rewrite <- He. by destruct (exec o h). Qed.
Lemma derive_other (h : @heap Ieee) o t : derived h t -> derived (exec o h).2 t.
Proof. intros Hd. eapply (DOther h t o (exec o h).1); [exact Hd|]. by destruct (exec o h). Qed.

(** zeros [3;4] of double, tracked; [::-2], transposed, reshaped to [8;1], [1::3] *)
Definition c25_0 : @heap Ieee := (exec (OZeros [3; 4] F64) empty_heap).2.
Definition c25_1 := (exec (ORequires (Some 0%nat) true) c25_0).2.
Definition c25_2 := (exec (OSlice (Some 0%nat) (chars "::-2")) c25_1).2.
Definition c25_3 := (exec (OTranspose (Some 1%nat) 0 1) c25_2).2.
Definition c25_4 := (exec (OReshape (Some 4%nat) [-1; 1]) c25_3).2.
Definition c25_5 := (exec (OSlice (Some 7%nat) (chars "1::3")) c25_4).2.
Lemma c25_chain : derived c25_5 10 /\ shape (rec_of c25_5 10) = [3; 1].
Proof.
  split; [|vm].
  assert (derived c25_0 0) as H0.
  { apply derive_new; [|done|vm|vm]. exists [], []. done. }
  assert (derived c25_1 0) as H1 by (apply derive_other; exact H0).
  assert (derived c25_2 1) as H2 by (apply (derive_view _ _ 0 1 H1); [constructor|vm]).
  assert (derived c25_3 4) as H3 by (apply (derive_view _ _ 1 4 H2); [constructor|vm]).
  assert (derived c25_4 7) as H4.
  { apply (derive_view _ _ 4 7 H3); [|vm]. constructor.
    - repeat constructor; vm_compute; intuition congruence.
    - repeat constructor; lia.
    - vm_compute. done. }
  apply (derive_view _ _ 7 10 H4); [constructor|vm].
Qed.

(** reshape {-2,-6} of twelve elements *)
Lemma views_refuted :
  exists (h0 h : @heap Ieee) t r x idx, derived h0 0 /\ exec (OReshape (Some 0%nat) [-2; -6]) h0 = (Ok (RHandle (Some t)), h) /\
    h_ten h !! t = Some r /\ h_sto h !! t_sto r = Some x /\ in_range (shape r) idx /\
    match sto_blob x with Some cs => Z.of_nat (length cs) <= pos (t_lay r) idx | None => False end.
Proof.
  set (h0 := (exec (OZeros [12] F64) (@empty_heap Ieee)).2). set (h := (exec (OReshape (Some 0%nat) [-2; -6]) h0).2).
  exists h0, h, 1%nat, (rec_of h 1), (match h_sto h !! 0%nat with Some x => x | None => Sto I8 0 None end), [0; 12].
  split; [apply derive_new; [exists [], []; reflexivity|reflexivity|vm|vm]|].
  split. { assert ((exec (OReshape (Some 0%nat) [-2; -6]) h0).1 = Ok (RHandle (Some 1%nat))) as E by vm.
    unfold h. destruct (exec (OReshape (Some 0%nat) [-2; -6]) h0) as [a b]. cbn [fst snd] in *. by rewrite E. }
  split; [vm|]. split; [vm|]. split.
  - assert (shape (rec_of h 1) = [18446744073709551614; 18446744073709551610]) as -> by vm.
    clear. repeat first [apply Forall2_nil_2 | apply Forall2_cons_2; [lia|]].
  - lazymatch goal with |- ?G => assert (match sto_blob (match h_sto h !! 0%nat with Some x => x | None => Sto I8 0 None end) with Some cs => Z.of_nat (length cs) <=? pos (t_lay (rec_of h 1)) [0; 12] | None => false end = true) as E by vm end.
    revert E. clear. destruct (sto_blob _) as [cs|]; [apply Z.leb_le|done].
Qed.
