(** Executable checks of the hypotheses, for concrete instances. *)
From Verif.Proofs Require Export Creation.

Section with_fops.
Context {fo : FOps}.

Definition has_tyb (t : dtype) (v : val) : bool :=
  match v with VI z => is_int t && fits_int t z | VF _ => is_float t end.
Lemma has_tyb_ok t v : has_tyb t v = true -> has_ty t v.
Proof. destruct v; simpl; [by intros [??]%andb_prop|done]. Qed.

Definition holdsb (h : heap) (r : tensor) : bool :=
  match h_sto h !! t_sto r with
  | Some (Sto T _ (Some cs)) =>
      let l := t_lay r in
      bool_decide (T = t_dt r) && Nat.leb (length (sizes l)) (length (strides l)) &&
      forallb (fun n => (0 <=? n) && (n <? two64)) (sizes l) &&
      (0 <=? offset l) && (offset l <? two64) &&
      (Z.of_nat (length cs) <? two63) &&
      forallb (fun idx => (0 <=? pos l idx) && (pos l idx <? Z.of_nat (length cs)) &&
        match elem h r idx with Some v => has_tyb (t_dt r) v | None => false end)
        (indices (sizes l))
  | _ => false
  end.

Lemma holdsb_ok h r : holdsb h r = true -> holds h r (contents h r).
Proof.
  unfold holdsb. destruct (h_sto h !! t_sto r) as [[T b [cs|]]|] eqn:Hs; try done.
  rewrite !andb_true_iff. intros ((((((H1 & H2) & H3) & H4) & H5) & H6) & H7).
  apply bool_decide_eq_true in H1. subst T.
  assert (forall idx, in_range (sizes (t_lay r)) idx ->
    (0 <=? pos (t_lay r) idx) && (pos (t_lay r) idx <? Z.of_nat (length cs)) &&
        match elem h r idx with Some v => has_tyb (t_dt r) v | None => false end = true) as H8.
  { intros idx Hi. rewrite forallb_forall in H7. apply H7.
    by apply elem_of_list_In, elem_of_indices. }
  split.
  - exists cs. split; [by exists b|]. split; [split; [|split]|split].
    + by apply Nat.leb_le.
    + apply Forall_forall. intros n Hn%elem_of_list_In. rewrite forallb_forall in H3.
      specialize (H3 n Hn). lia.
    + lia.
    + intros idx Hi. specialize (H8 idx Hi). lia.
    + lia.
  - intros idx Hi. specialize (H8 idx Hi). unfold contents.
    destruct (elem h r idx) as [v|]; [|rewrite andb_false_r in H8; discriminate H8].
    split; [done|]. apply has_tyb_ok. apply andb_prop in H8. apply H8.
Qed.
Lemma tensor_at_check h t r :
  h_ten h !! t = Some r -> holdsb h r = true -> tensor_at h t r (contents h r).
Proof. intros. split; [done|]. by apply holdsb_ok. Qed.

Lemma no_zero_one_pos a b :
  Forall (fun n => 0 < n) a -> Forall (fun n => 0 < n) b -> no_zero_one a b.
Proof.
  intros Ha Hb k x y Hx Hy. apply Forall_rev in Ha, Hb.
  rewrite Forall_lookup in Ha. rewrite Forall_lookup in Hb.
  specialize (Ha _ _ Hx). specialize (Hb _ _ Hy). lia.
Qed.
End with_fops.
