(** Broadcasting in several steps. *)
From Verif.Proofs Require Export BroadcastLemmas.

Definition into (a s : list Z) : Prop := (length a <= length s)%nat /\ forall k x, rev a !! k = Some x -> x <> 1 -> rev s !! k = Some x.
Lemma bidx_rev_two a : forall s idx, (forall k x, a !! k = Some x -> x <> 1 -> s !! k = Some x) -> (length a <= length s)%nat -> (length s <= length idx)%nat ->
  bidx_rev a (bidx_rev s idx) = bidx_rev a idx.
Proof.
  unfold bidx_rev. induction a as [|x a IH]; intros [|y s] [|i idx] H H1 H2; simpl in *; try done; try lia. f_equal.
  - destruct (Z.eqb_spec x 1); [done|]. pose proof (H 0%nat x eq_refl ltac:(done)) as E. injection E as ->. by destruct (Z.eqb_spec x 1).
  - apply IH; [|lia|lia]. intros k z Hk Hz. by apply (H (S k)).
Qed.
Lemma bidx_two a s idx : into a s -> (length s <= length idx)%nat -> bidx a (bidx s idx) = bidx a idx.
Proof.
  intros [H1 H2] Hl. rewrite <- (rev_involutive (bidx a (bidx s idx))), <- (rev_involutive (bidx a idx)). f_equal. rewrite <- (bidx_rev_eq a idx) by lia. rewrite <- bidx_rev_eq by (rewrite bidx_length; lia). rewrite <- (bidx_rev_eq s idx) by lia.
  apply bidx_rev_two; [done|by rewrite !rev_length|by rewrite !rev_length].
Qed.
Lemma into_l a b : into a (bshape a b).
Proof.
  split; [rewrite bshape_length; lia|]. rewrite bshape_rev. generalize (rev a) as ra, (rev b) as rb. clear.
  induction ra as [|u ra IH]; intros rb k x Hk Hx; [done|]. destruct rb as [|v rb]; [done|]. cbn [bc_rev]. destruct k as [|k]; simpl in *.
  - injection Hk as ->. unfold bsel. by destruct (Z.eqb_spec x 1).
  - by apply IH.
Qed.
Lemma into_r a b : compatible a b -> into b (bshape a b).
Proof.
  intros Hc. split; [rewrite bshape_length; lia|]. apply compatible_rev in Hc. rewrite bshape_rev. revert Hc. generalize (rev a) as ra, (rev b) as rb. clear.
  induction ra as [|u ra IH]; intros rb Hc k x Hk Hx; [done|]. destruct rb as [|v rb]; [done|]. cbn [bc_rev] in *. simpl in Hc. destruct Hc as [H1 H2]. destruct k as [|k]; simpl in *.
  - injection Hk as ->. unfold bsel. destruct (Z.eqb_spec u 1); [done|]. f_equal. lia.
  - by apply IH.
Qed.

(** broadcasting three shapes *)
Lemma bshape_assoc a b c : bshape (bshape a b) c = bshape a (bshape b c).
Proof.
  rewrite <- (rev_involutive (bshape (bshape a b) c)), <- (rev_involutive (bshape a (bshape b c))), !bshape_rev. f_equal.
  generalize (rev a) as x, (rev b) as y, (rev c) as z. induction x as [|x a' IH]; intros [|y b'] [|z c']; try done. cbn [bc_rev]. rewrite IH. f_equal.
  unfold bsel. destruct (Z.eqb_spec x 1) as [->|H]; [done|]. by rewrite (proj2 (Z.eqb_neq _ _) H).
Qed.
Lemma compat_l a b c : compatible a c -> compatible b c -> compatible (bshape a b) c.
Proof.
  rewrite !compatible_rev, bshape_rev. generalize (rev a) as x, (rev b) as y, (rev c) as z.
  induction x as [|x a' IH]; intros [|y b'] [|z c']; try done. cbn [bc_rev compat_rev]. intros [H1 H2] [H3 H4]. split; [|by apply IH].
  unfold bsel. by destruct (Z.eqb_spec x 1).
Qed.
Lemma compat_r a b c : compatible a b -> compatible a c -> compatible a (bshape b c).
Proof.
  rewrite !compatible_rev, bshape_rev. generalize (rev a) as x, (rev b) as y, (rev c) as z.
  induction x as [|x a' IH]; intros [|y b'] [|z c']; try done. cbn [bc_rev compat_rev]. intros [H1 H2] [H3 H4]. split; [|by apply IH].
  unfold bsel. by destruct (Z.eqb_spec y 1).
Qed.
Lemma bshape_distr a b c : bshape (bshape a b) (bshape a c) = bshape a (bshape b c).
Proof.
  rewrite <- (rev_involutive (bshape (bshape a b) (bshape a c))), <- (rev_involutive (bshape a (bshape b c))), !bshape_rev. f_equal.
  assert (forall x y, bsel (bsel x y) x = bsel x y) as S1 by (intros x y; unfold bsel; destruct (Z.eqb_spec x 1) as [->|H]; [by destruct (Z.eqb_spec y 1)|by rewrite (proj2 (Z.eqb_neq _ _) H)]).
  assert (forall x y, bsel x (bsel x y) = bsel x y) as S2 by (intros x y; unfold bsel; by destruct (Z.eqb_spec x 1)).
  assert (forall x y z, bsel (bsel x y) (bsel x z) = bsel x (bsel y z)) as S3 by (intros x y z; unfold bsel; destruct (Z.eqb_spec x 1) as [->|H]; [done|by rewrite (proj2 (Z.eqb_neq _ _) H)]).
  assert (forall x, bc_rev bsel x x = x) as S4 by (intros x; induction x as [|u x IHx]; [done|]; cbn [bc_rev]; rewrite IHx; f_equal; unfold bsel; by destruct (u =? 1)).
  generalize (rev a) as x, (rev b) as y, (rev c) as z. induction x as [|x a' IH]; intros [|y b'] [|z c']; try done.
  - specialize (IH [] c'). rewrite !bc_rev_nil_r in *. cbn [bc_rev] in *. rewrite S2. f_equal. rewrite IH. by destruct c'.
  - specialize (IH b' []). rewrite !bc_rev_nil_r in *. cbn [bc_rev] in *. rewrite S1. f_equal. exact IH.
  - cbn [bc_rev]. by rewrite S3, IH.
Qed.
