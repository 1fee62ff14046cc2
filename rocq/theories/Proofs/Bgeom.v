(** Shapes met in backward(): broadcasting a shape against the broadcast result. *)
From Verif.Proofs Require Export Pot.
From Verif.Model Require Export Autograd.

Lemma bc_max_idem a : bc_rev Z.max a a = a.
Proof. induction a as [|x a IH]; [done|]. cbn [bc_rev]. by rewrite Z.max_id, IH. Qed.
Lemma bc_max_abs a b : bc_rev Z.max a (bc_rev Z.max a b) = bc_rev Z.max a b.
Proof.
  revert b. induction a as [|x a IH]; intros [|y b]; cbn [bc_rev]; try done.
  - by rewrite Z.max_id, bc_max_idem.
  - rewrite IH. f_equal. lia.
Qed.
Lemma bmax_idem a : bmax a a = a.
Proof. unfold bmax. by rewrite bc_max_idem, rev_involutive. Qed.
Lemma bmax_abs_l a b : bmax a (bmax a b) = bmax a b.
Proof. unfold bmax. by rewrite rev_involutive, bc_max_abs. Qed.
Lemma bmax_abs_r a b : bmax b (bmax a b) = bmax a b.
Proof. by rewrite (bmax_comm a b), bmax_abs_l. Qed.
Lemma bmax_nil a : bmax a [] = a.
Proof. unfold bmax. simpl. by rewrite bc_rev_nil_r, rev_involutive. Qed.

Lemma bidx_self ss idx : in_range ss idx -> bidx ss idx = idx.
Proof.
  intros H. unfold bidx. rewrite (in_range_length _ _ H), Nat.sub_diag, drop_0.
  induction H as [|n i ss idx Hi H IH]; [done|]. simpl. rewrite IH. f_equal. destruct (Z.eqb_spec n 1); lia.
Qed.
Lemma covers_self ss : covers ss ss.
Proof. split; [done|]. intros idx H. by rewrite bidx_self. Qed.
Lemma covers_nil rg : covers rg [].
Proof. split; [simpl; lia|]. intros idx H. apply in_range_nil. Qed.
Lemma bidx_nil idx : bidx [] idx = [].
Proof. done. Qed.
Lemma covers_l a b : covers (bshape a b) a.
Proof. split; [rewrite bshape_length; lia|]. intros. by eapply bidx_in_l. Qed.
Lemma covers_r a b : compatible a b -> covers (bshape a b) b.
Proof. split; [rewrite bshape_length; lia|]. intros. by eapply bidx_in_r. Qed.
