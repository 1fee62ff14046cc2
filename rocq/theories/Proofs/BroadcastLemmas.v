(** Broadcasting: the model's ranges and index projections against the
    NumPy-style specification. *)
From Verif.Spec Require Export Broadcast.
From Verif.Proofs Require Export Basics.

Lemma zip_with_snoc {A B C} (f : A -> B -> C) l k x y :
  length l = length k -> zip_with f (l ++ [x]) (k ++ [y]) = zip_with f l k ++ [f x y].
Proof. intros H. by rewrite zip_with_app. Qed.
Lemma zip_with_rev {A B C} (f : A -> B -> C) l k :
  length l = length k -> zip_with f (rev l) (rev k) = rev (zip_with f l k).
Proof.
  revert k. induction l as [|x l IH]; intros [|y k] H; try done.
  cbn [rev zip_with]. rewrite zip_with_snoc; [|rewrite !rev_length; simpl in H; lia].
  rewrite IH; [done|simpl in H; lia].
Qed.
Lemma zip_with_app_r {A B C} (f : A -> B -> C) l k m :
  (length l <= length k)%nat -> zip_with f l (k ++ m) = zip_with f l k.
Proof.
  revert k. induction l as [|x l IH]; intros k H; [done|].
  destruct k as [|y k]; [simpl in H; lia|]. simpl. f_equal. apply IH. simpl in H. lia.
Qed.
Lemma rev_drop_app {A} (l : list A) k : rev l = rev (drop k l) ++ rev (take k l).
Proof. rewrite <- rev_app_distr. by rewrite take_drop. Qed.

Lemma bidx_rev_eq ss idx :
  (length ss <= length idx)%nat -> bidx_rev (rev ss) (rev idx) = rev (bidx ss idx).
Proof.
  intros H. unfold bidx_rev, bidx.
  rewrite (rev_drop_app idx (length idx - length ss)).
  assert (Hd : length (drop (length idx - length ss) idx) = length ss)
    by (rewrite drop_length; lia).
  rewrite zip_with_app_r by (rewrite !rev_length; lia).
  apply zip_with_rev. by rewrite Hd.
Qed.
Lemma bidx_length ss idx : (length ss <= length idx)%nat -> length (bidx ss idx) = length ss.
Proof. intros H. unfold bidx. rewrite zip_with_length, drop_length. lia. Qed.

Lemma in_range_lookup ss idx k n i :
  in_range ss idx -> ss !! k = Some n -> idx !! k = Some i -> 0 <= i < n.
Proof. intros H H1 H2. eapply Forall2_lookup_lr in H; eauto. Qed.
Lemma in_range_rev ss idx : in_range (rev ss) (rev idx) <-> in_range ss idx.
Proof.
  assert (Hgo : forall a b, in_range a b -> in_range (rev a) (rev b)).
  { induction 1 as [|n i a b Hi H IH]; [constructor|]. cbn [rev].
    apply Forall2_app; [done|]. by constructor. }
  split; [|apply Hgo]. intros H. apply Hgo in H. by rewrite !rev_involutive in H.
Qed.

(** the augmented index of an operand *)
Lemma cnt_from_aug_ok l idx n :
  lay_ok l -> lay_in l n -> n <= two64 -> (length (sizes l) <= length idx)%nat ->
  in_range (sizes l) (bidx (sizes l) idx) ->
  cnt_from_aug_index l idx = Ok (pos l (bidx (sizes l) idx)) /\
  0 <= pos l (bidx (sizes l) idx) < n.
Proof.
  intros Hok Hin Hn Hlen Hr.
  destruct (cnt_from_index_ok l _ n Hok Hin Hn Hr) as [Hc Hb]. split; [|done].
  unfold cnt_from_aug_index. rewrite aug_rev_ok.
  - rewrite bidx_rev_eq by done. cbn [obind]. rewrite rev_involutive. done.
  - rewrite !rev_length. done.
  - intros k m i H1 H2.
    apply in_range_rev in Hr. rewrite <- bidx_rev_eq in Hr by done.
    destruct (decide (m = 1)); [by left|right].
    assert (H3 : bidx_rev (rev (sizes l)) (rev idx) !! k = Some i).
    { unfold bidx_rev. rewrite lookup_zip_with, H1. simpl. rewrite H2. simpl.
      by rewrite (proj2 (Z.eqb_neq m 1)). }
    pose proof (in_range_lookup _ _ _ _ _ Hr H1 H3). lia.
Qed.

(** ** shapes *)
Fixpoint bc_rev (f : Z -> Z -> Z) (a b : list Z) : list Z :=
  match a, b with
  | x :: a', y :: b' => f x y :: bc_rev f a' b'
  | [], _ => b
  | _, [] => a
  end.
Definition bmax (a b : list Z) : list Z := rev (bc_rev Z.max (rev a) (rev b)).

Lemma bc_rev_nil_r f a : bc_rev f a [] = a.
Proof. by destruct a. Qed.
Lemma bc_rev_comm f a b : (forall x y, f x y = f y x) -> bc_rev f a b = bc_rev f b a.
Proof.
  intros Hf. revert b. induction a as [|x a IH]; intros [|y b]; try done.
  cbn [bc_rev]. rewrite Hf. f_equal. apply IH.
Qed.
Lemma bc_rev_length f a b : length (bc_rev f a b) = Nat.max (length a) (length b).
Proof.
  revert b. induction a as [|x a IH]; intros [|y b]; cbn [bc_rev length]; auto.
  rewrite IH. done.
Qed.

Lemma brange_rev_max a b :
  (length b <= length a)%nat -> brange_rev a b = Ok (bc_rev Z.max a b).
Proof.
  revert b. induction a as [|x a IH]; intros b H.
  - destruct b; [done|simpl in H; lia].
  - destruct b as [|y b]; [done|]. cbn [brange_rev bc_rev].
    assert (negb (x =? 1) || negb (y =? 1) || (x =? y) = true) as -> by lia.
    cbn [orun_expect obind]. rewrite IH by (simpl in H; lia). done.
Qed.
(** The check inside broadcast_range never fires: the result is the pointwise
    maximum. *)
Lemma broadcast_range_max a b : broadcast_range a b = Ok (bmax a b).
Proof.
  unfold broadcast_range, bmax. destruct (Nat.ltb_spec (length a) (length b)).
  - rewrite brange_rev_max by (rewrite !rev_length; lia). cbn [obind].
    rewrite (bc_rev_comm Z.max (rev b)); [done|apply Z.max_comm].
  - rewrite brange_rev_max by (rewrite !rev_length; lia). done.
Qed.
Lemma bmax_length a b : length (bmax a b) = Nat.max (length a) (length b).
Proof. unfold bmax. by rewrite rev_length, bc_rev_length, !rev_length. Qed.
Lemma bmax_comm a b : bmax a b = bmax b a.
Proof. unfold bmax. rewrite bc_rev_comm; [done|apply Z.max_comm]. Qed.

(** the specification's shape, reversed *)
Definition bsel (x y : Z) : Z := if x =? 1 then y else x.
Lemma rev_pad n ss : rev (pad n ss) = rev ss ++ replicate (n - length ss) 1.
Proof.
  unfold pad. rewrite rev_app_distr. f_equal.
  rewrite rev_alt. apply (reverse_replicate (n - length ss) 1).
Qed.
Lemma zip_bsel_ones l : zip_with bsel l (replicate (length l) 1) = l.
Proof.
  induction l as [|z l IH]; [done|]. cbn. f_equal; [|done].
  unfold bsel. destruct (Z.eqb_spec z 1); auto.
Qed.
Lemma zip_bsel_rev a b k m :
  (k = length b - length a)%nat -> (m = length a - length b)%nat ->
  zip_with bsel (a ++ replicate k 1) (b ++ replicate m 1) = bc_rev bsel a b.
Proof.
  revert b k m. induction a as [|x a IH]; intros b k m Hk Hm.
  - cbn [app bc_rev]. subst. cbn [length] in *. rewrite Nat.sub_0_r. cbn [Nat.sub].
    rewrite app_nil_r. clear. induction b as [|y b IH]; [done|]. cbn. by f_equal.
  - destruct b as [|y b].
    + subst. change (length [] - length (x :: a))%nat with 0%nat.
      cbn [replicate]. rewrite app_nil_r, Nat.sub_0_r. apply zip_bsel_ones.
    + cbn [app zip_with bc_rev]. f_equal. apply IH; simpl in *; lia.
Qed.
Lemma pad_length n ss : (length ss <= n)%nat -> length (pad n ss) = n.
Proof. intros. unfold pad. rewrite app_length, replicate_length. lia. Qed.
Lemma bshape_rev a b : rev (bshape a b) = bc_rev bsel (rev a) (rev b).
Proof.
  unfold bshape. cbv zeta. rewrite <- zip_with_rev by (rewrite !pad_length; lia).
  rewrite !rev_pad. apply zip_bsel_rev; rewrite !rev_length; lia.
Qed.
Lemma bshape_length a b : length (bshape a b) = Nat.max (length a) (length b).
Proof. rewrite <- rev_length, bshape_rev, bc_rev_length, !rev_length. done. Qed.

(** compatibility, reversed *)
Fixpoint compat_rev (a b : list Z) : Prop :=
  match a, b with
  | x :: a', y :: b' => (x = y \/ x = 1 \/ y = 1) /\ compat_rev a' b'
  | _, _ => True
  end.
Lemma Forall2_rev {A B} (P : A -> B -> Prop) l k : Forall2 P l k -> Forall2 P (rev l) (rev k).
Proof. induction 1; cbn [rev]; [constructor|]. apply Forall2_app; auto. Qed.
Lemma compatible_rev a b : compatible a b <-> compat_rev (rev a) (rev b).
Proof.
  unfold compatible. cbv zeta.
  set (n := Nat.max (length a) (length b)).
  assert (Hgo : forall a b k m, (k = length b - length a)%nat -> (m = length a - length b)%nat ->
    Forall2 (fun x y => x = y \/ x = 1 \/ y = 1) (a ++ replicate k 1) (b ++ replicate m 1)
    <-> compat_rev a b).
  { clear. induction a as [|x a IH]; intros b k m -> ->.
    - cbn [app compat_rev length Nat.sub replicate]. rewrite app_nil_r, Nat.sub_0_r.
      split; [done|]. intros _. induction b; constructor; auto.
    - destruct b as [|y b].
      + cbn [app compat_rev length Nat.sub replicate]. cbn [length] in *. rewrite app_nil_r.
        split; [done|]. intros _. clear IH. change (1 :: replicate (length a) 1) with
          (replicate (length (x :: a)) 1). induction (x :: a); constructor; auto.
      + cbn [app compat_rev]. rewrite Forall2_cons. rewrite IH; [done|simpl; lia..]. }
  rewrite <- Hgo; [|reflexivity..]. rewrite !rev_length.
  replace (length b - length a)%nat with (n - length a)%nat by lia.
  replace (length a - length b)%nat with (n - length b)%nat by lia.
  rewrite <- !rev_pad. split; [apply Forall2_rev|].
  intros H. apply Forall2_rev in H. by rewrite !rev_involutive in H.
Qed.

Lemma no_zero_one_cons_rev a b x y ra rb :
  no_zero_one a b -> rev a = x :: ra -> rev b = y :: rb ->
  ~ (x = 0 /\ y = 1) /\ ~ (x = 1 /\ y = 0).
Proof. intros H Ha Hb. apply (H 0%nat x y); by rewrite ?Ha, ?Hb. Qed.

(** C05: on compatible shapes (no 0 against 1) the range is the NumPy shape. *)
Lemma bmax_bshape a b :
  Forall (fun n => 0 <= n) a -> Forall (fun n => 0 <= n) b ->
  compatible a b -> no_zero_one a b -> bmax a b = bshape a b.
Proof.
  intros Ha Hb Hc Hz. unfold bmax. rewrite <- (rev_involutive (bshape a b)). f_equal.
  rewrite bshape_rev. apply compatible_rev in Hc. unfold no_zero_one in Hz.
  apply Forall_rev in Ha, Hb. revert Ha Hb Hc Hz.
  generalize (rev a) as x, (rev b) as y. clear. 
  induction x as [|x a IH]; intros [|y b] Ha Hb Hc Hz; try done.
  cbn [bc_rev compat_rev] in *. destruct Hc as [Hc Hcs].
  inversion Ha; inversion Hb; subst. f_equal.
  - destruct (Hz 0%nat x y eq_refl eq_refl) as [? ?]. unfold bsel.
    destruct (Z.eqb_spec x 1); lia.
  - apply IH; auto. intros k u v H1' H2'. by apply (Hz (Datatypes.S k)).
Qed.

Lemma bc_rev_lookup_l f a b k z :
  bc_rev f a b !! k = Some z ->
  (exists x y, a !! k = Some x /\ b !! k = Some y /\ z = f x y) \/
  (a !! k = Some z /\ b !! k = None) \/ (b !! k = Some z /\ a !! k = None).
Proof.
  revert b k. induction a as [|x a IH]; intros b k H.
  - right; right. split; [|done]. by destruct b.
  - destruct b as [|y b]; [right; left; done|]. destruct k as [|k]; simpl in *.
    + left. simplify_eq. eauto.
    + by apply IH.
Qed.

Lemma in_range_bc_l f a b idx :
  (forall k x y, a !! k = Some x -> b !! k = Some y -> x <> 1 -> f x y <= x) ->
  in_range (bc_rev f a b) idx -> in_range a (bidx_rev a idx).
Proof.
  revert b idx. induction a as [|x a IH]; intros b idx Hf H; [constructor|].
  destruct b as [|y b].
  - rewrite bc_rev_nil_r in H. clear -H.
    destruct idx as [|i idx]; [inversion H|]. apply in_range_cons in H as [Hi H].
    unfold bidx_rev. cbn [zip_with]. apply in_range_cons. split.
    + destruct (Z.eqb_spec x 1); lia.
    + clear Hi. induction H; cbn; constructor; auto. destruct (Z.eqb_spec x0 1); lia.
  - destruct idx as [|i idx]; [inversion H|]. cbn [bc_rev] in H.
    apply in_range_cons in H as [Hi H].
    unfold bidx_rev. cbn [zip_with]. apply in_range_cons. split.
    + destruct (Z.eqb_spec x 1); [lia|]. specialize (Hf 0%nat x y eq_refl eq_refl ltac:(done)). lia.
    + apply (IH b). intros k u v H1 H2. by apply (Hf (Datatypes.S k)). done.
Qed.
Lemma bidx_in_l a b idx :
  in_range (bshape a b) idx -> in_range a (bidx a idx).
Proof.
  intros H. assert (Hl := in_range_length _ _ H). rewrite bshape_length in Hl.
  apply in_range_rev in H. rewrite bshape_rev in H.
  apply in_range_rev. rewrite <- bidx_rev_eq by lia.
  eapply in_range_bc_l; [|exact H]. intros k x y _ _ Hx. unfold bsel.
  destruct (Z.eqb_spec x 1); [done|]. lia.
Qed.
Lemma bc_rev_swap f a b : bc_rev f a b = bc_rev (fun x y => f y x) b a.
Proof.
  revert b. induction a as [|x a IH]; intros [|y b]; try done. cbn [bc_rev]. by rewrite IH.
Qed.
Lemma bidx_in_r a b idx :
  compatible a b -> in_range (bshape a b) idx -> in_range b (bidx b idx).
Proof.
  intros Hc H. assert (Hl := in_range_length _ _ H). rewrite bshape_length in Hl.
  apply in_range_rev in H. rewrite bshape_rev, bc_rev_swap in H.
  apply in_range_rev. rewrite <- bidx_rev_eq by lia.
  eapply in_range_bc_l; [|exact H]. intros k y x Hy Hx Hne. unfold bsel.
  apply compatible_rev in Hc. destruct (Z.eqb_spec x 1); [lia|].
  clear -Hc Hy Hx Hne n. revert Hc Hy Hx. generalize (rev a) as ra, (rev b) as rb.
  revert k. induction k as [|k IH]; intros [|u ra] [|v rb]; simpl; try done.
  - intros [? _] ??. simplify_eq. lia.
  - intros [_ ?] ??. by apply (IH ra rb).
Qed.
