(** Checks for the examples about in-place addition. *)
From Verif.Proofs Require Export Inplace Refute2.

Lemma map_inj_in {A B} (f : A -> B) l x y :
  NoDup (map f l) -> x ∈ l -> y ∈ l -> f x = f y -> x = y.
Proof.
  induction l as [|z l IH]; intros Hn Hx Hy He; [inversion Hx|].
  simpl in Hn. apply NoDup_cons in Hn as [Hz Hn].
  apply elem_of_cons in Hx as [->|Hx], Hy as [->|Hy]; try done.
  - destruct Hz. rewrite He. by apply elem_of_list_fmap_1.
  - destruct Hz. rewrite <- He. by apply elem_of_list_fmap_1.
  - auto.
Qed.
Lemma lay_inj_check l : NoDup (map (pos l) (indices (sizes l))) -> lay_inj l.
Proof.
  intros H i j Hi Hj He. eapply map_inj_in; [exact H|..|exact He]; by apply elem_of_indices.
Qed.
Ltac inj_ok := apply lay_inj_check; decide_it.
