(** Monad steps, machine integers, layouts, cells. *)
From Coq Require Import ZifyClasses Zify ZifyBool ZifyNat.
From Verif.Proofs Require Export Odometer.
From Verif.Spec Require Export Tensor.
From Verif.Model Require Export Impl.

(** ** monad *)
Section monad.
Context {S : Type}.
Lemma bind_ok {A B} (m : M S A) (k : A -> M S B) s a s' :
  m s = (Ok a, s') -> bind m k s = k a s'.
Proof. intros H. unfold bind. by rewrite H. Qed.
Lemma bind_throw {A B} (m : M S A) (k : A -> M S B) s e s' :
  m s = (Throw e, s') -> bind m k s = (Throw e, s').
Proof. intros H. unfold bind. by rewrite H. Qed.
Lemma bind_ub {A B} (m : M S A) (k : A -> M S B) s u s' :
  m s = (UB u, s') -> bind m k s = (UB u, s').
Proof. intros H. unfold bind. by rewrite H. Qed.
Lemma bind_lift {A B} (o : outcome A) (k : A -> M S B) s :
  bind (lift o) k s = match o with Ok a => k a s | Throw e => (Throw e, s)
                      | UB u => (UB u, s) | Diverge => (Diverge, s) end.
Proof. unfold bind, lift. by destruct o. Qed.
Lemma bind_ret {A B} (a : A) (k : A -> M S B) s : bind (mret a) k s = k a s.
Proof. done. Qed.
Lemma bind_assoc {A B C} (m : M S A) (k : A -> M S B) (l : B -> M S C) s :
  bind (bind m k) l s = bind m (fun x => bind (k x) l) s.
Proof. unfold bind. by destruct (m s) as [[?|?|?|] ?]. Qed.
Lemma mapM_ext {A} (f g : A -> M S unit) l s :
  (forall x s, x ∈ l -> f x s = g x s) -> mapM_ f l s = mapM_ g l s.
Proof.
  revert s. induction l as [|x l IH]; intros s H; [done|].
  cbn [mapM_]. unfold bind. rewrite H by left.
  destruct (g x s) as [[[]|?|?|] s']; try done. apply IH. intros. apply H. by right.
Qed.
Lemma mapM_app {A} (f : A -> M S unit) l1 l2 s :
  mapM_ f (l1 ++ l2) s = bind (mapM_ f l1) (fun _ => mapM_ f l2) s.
Proof.
  revert s. induction l1 as [|x l IH]; intros s; [done|].
  cbn [mapM_ app]. specialize (IH (snd (f x s))). unfold bind in *.
  by destruct (f x s) as [[[]|?|?|] s'].
Qed.
End monad.

Lemma obind_ok_inv {A B} (m : outcome A) (k : A -> outcome B) b :
  obind m k = Ok b -> exists a, m = Ok a /\ k a = Ok b.
Proof. destruct m; simpl; try done. eauto. Qed.

(** ** machine integers *)
Lemma u64_id z : 0 <= z < two64 -> u64 z = z.
Proof. intros. unfold u64. apply Z.mod_small. lia. Qed.
Lemma u64_range z : 0 <= u64 z < two64.
Proof. apply Z.mod_pos_bound. done. Qed.
Lemma s64_id z : - two63 <= z < two63 -> s64 z = z.
Proof. intros. unfold s64. rewrite Z.mod_small; unfold two63, two64 in *; lia. Qed.
Lemma s64_range z : - two63 <= s64 z < two63.
Proof. unfold s64. pose proof (Z.mod_pos_bound (z + two63) two64 eq_refl). unfold two63, two64 in *. lia. Qed.
Lemma s64_u64 z : s64 (u64 z) = s64 z.
Proof. unfold s64, u64. rewrite Zplus_mod_idemp_l. done. Qed.
Lemma s64_mod z : s64 z mod two64 = z mod two64.
Proof. unfold s64. rewrite Zminus_mod_idemp_l. f_equal. lia. Qed.
Lemma two63_64 : two64 = 2 * two63.
Proof. done. Qed.

(** ** numel *)
Lemma numel_of_acc ss acc :
  fold_left (fun n s => u64 (n * s)) ss (u64 acc) = u64 (acc * size_prod ss).
Proof.
  revert acc. induction ss as [|n ss IH]; intros acc; cbn [fold_left size_prod].
  - by rewrite Z.mul_1_r.
  - replace (u64 (u64 acc * n)) with (u64 (acc * n)).
    + rewrite IH. f_equal. ring.
    + unfold u64. by rewrite Zmult_mod_idemp_l.
Qed.
Lemma numel_of_mod ss : numel_of ss = u64 (size_prod ss).
Proof. unfold numel_of. change 1 with (u64 1). rewrite numel_of_acc. f_equal. lia. Qed.
Lemma numel_of_exact ss :
  Forall (fun n => 0 <= n) ss -> size_prod ss < two64 -> numel_of ss = size_prod ss.
Proof.
  intros H Hb. rewrite numel_of_mod. apply u64_id.
  pose proof (size_prod_nonneg _ H). lia.
Qed.
Lemma size_prod_zero ss : 0 ∈ ss -> size_prod ss = 0.
Proof.
  induction ss as [|n ss IH]; [inversion 1|]. rewrite elem_of_cons.
  intros [<-|H]; cbn [size_prod]; [lia|]. rewrite IH by done. lia.
Qed.
Lemma size_prod_zero_inv ss : size_prod ss = 0 -> 0 ∈ ss.
Proof.
  induction ss as [|n ss IH]; simpl; [lia|]. intros H.
  apply Z.eq_mul_0 in H as [->|H]; [left|right; auto].
Qed.
Lemma not_zero_pos ss : Forall (fun n => 0 <= n) ss -> 0 ∉ ss -> Forall (fun n => 0 < n) ss.
Proof.
  rewrite !Forall_forall. intros H H0 x Hx. specialize (H x Hx).
  destruct (decide (x = 0)) as [->|]; [done|lia].
Qed.
Lemma zero_or_pos ss : Forall (fun n => 0 <= n) ss -> 0 ∈ ss \/ Forall (fun n => 0 < n) ss.
Proof.
  intros H. destruct (decide (0 ∈ ss)); [by left|right]. by apply not_zero_pos.
Qed.
Lemma size_prod_elem_le ss n : Forall (fun n => 0 < n) ss -> n ∈ ss -> n <= size_prod ss.
Proof.
  intros H. induction H as [|x l Hx Hl IH]; intros Hn; [inversion Hn|].
  pose proof (size_prod_pos _ Hl). apply elem_of_cons in Hn as [->|Hn]; simpl; [nia|].
  specialize (IH Hn). nia.
Qed.

(** ** contiguous layouts *)
Lemma length_contig_strides ss : length (contig_strides ss) = length ss.
Proof.
  induction ss as [|n ss IH]; [done|]. cbn [contig_strides]. destruct ss; [done|].
  cbn [length] in *. lia.
Qed.
(** exact row-major strides *)
Fixpoint rm_strides (ss : list Z) : list Z :=
  match ss with [] => [] | _ :: r => size_prod r :: rm_strides r end.
Lemma contig_strides_exact ss :
  Forall (fun n => 0 < n) ss -> size_prod ss < two63 -> contig_strides ss = rm_strides ss.
Proof.
  induction 1 as [|n ss Hn Hss IH]; [done|]. intros Hb.
  pose proof (size_prod_pos _ Hss). cbn [size_prod] in Hb.
  assert (size_prod ss < two63) by nia. specialize (IH ltac:(done)).
  cbn [contig_strides rm_strides]. destruct ss as [|m ss]; [done|].
  rewrite IH. cbn [rm_strides nth]. f_equal.
  cbn [size_prod] in *. rewrite s64_u64, s64_id; [ring|]. unfold two63 in *. nia.
Qed.
Lemma dot_rm_strides ss idx : dot (rm_strides ss) idx = row_major ss idx.
Proof.
  revert idx. induction ss as [|n ss IH]; intros [|i idx]; cbn [rm_strides dot row_major]; auto.
  rewrite IH. ring.
Qed.
Lemma pos_contig ss idx :
  in_range ss idx -> size_prod ss < two63 -> pos (contig ss) idx = row_major ss idx.
Proof.
  intros H Hb. unfold pos, contig. cbn [offset strides].
  rewrite contig_strides_exact; [|by eapply in_range_pos|done].
  rewrite dot_rm_strides. lia.
Qed.

(** ** positions *)
Lemma dot_nil_r st : dot st [] = 0.
Proof. by destruct st. Qed.
Lemma cnt_loop_ok p st idx :
  0 <= p < two64 -> (length idx <= length st)%nat ->
  cnt_loop p st idx = Ok (u64 (p + dot st idx)).
Proof.
  revert p st. induction idx as [|i idx IH]; intros p st Hp Hl.
  - rewrite dot_nil_r, Z.add_0_r, u64_id by lia. by destruct st.
  - destruct st as [|s st]; [simpl in Hl; lia|]. cbn [cnt_loop dot].
    rewrite IH; [|apply u64_range|simpl in Hl; lia]. f_equal. unfold u64.
    rewrite Zplus_mod_idemp_l, (Z.add_comm p (_ mod _)), <- Z.add_assoc, Zplus_mod_idemp_l.
    f_equal. ring.
Qed.
Lemma cnt_from_index_ok l idx n :
  lay_ok l -> lay_in l n -> n <= two64 -> in_range (sizes l) idx ->
  cnt_from_index l idx = Ok (pos l idx) /\ 0 <= pos l idx < n.
Proof.
  intros (Hlen & _ & Hoff) Hin Hn Hr. specialize (Hin idx Hr). split; [|done].
  apply in_range_length in Hr. unfold cnt_from_index, ldim.
  rewrite Hr, Nat.eqb_refl. cbn [orun_expect obind].
  rewrite cnt_loop_ok; [|done|lia]. f_equal. apply u64_id. unfold pos in *. lia.
Qed.

(** ** broadcast indices *)
(** index of an operand of shape [ss] seen at result index [idx] *)
Definition bidx_rev (rs ri : list Z) : list Z :=
  zip_with (fun n i => if n =? 1 then 0 else i) rs ri.
Lemma bidx_rev_length rs ri : (length rs <= length ri)%nat -> length (bidx_rev rs ri) = length rs.
Proof. intros. unfold bidx_rev. rewrite zip_with_length. lia. Qed.
Lemma aug_rev_ok rs ri :
  (length rs <= length ri)%nat ->
  (forall k n i, rs !! k = Some n -> ri !! k = Some i -> n = 1 \/ i < n) ->
  aug_rev rs ri = Ok (bidx_rev rs ri).
Proof.
  revert ri. induction rs as [|n rs IH]; intros ri Hl H; [done|].
  destruct ri as [|i ri]; [simpl in Hl; lia|]. cbn [aug_rev bidx_rev zip_with tail].
  assert (Hr : aug_rev rs ri = Ok (bidx_rev rs ri)).
  { apply IH; [simpl in Hl; lia|]. intros k m j H1 H2. apply (H (Datatypes.S k)); done. }
  destruct (Z.eqb_spec n 1) as [->|Hne]; cbn [negb].
  - rewrite Hr. done.
  - destruct (H 0%nat n i eq_refl eq_refl) as [?|Hi]; [done|].
    apply Z.ltb_lt in Hi. rewrite Hi. cbn [orun_expect obind]. rewrite Hr. done.
Qed.
Lemma aug_rev_throw rs ri :
  (length rs <= length ri)%nat ->
  (exists k n i, rs !! k = Some n /\ ri !! k = Some i /\ n <> 1 /\ n <= i) ->
  aug_rev rs ri = Throw RuntimeError.
Proof.
  revert ri. induction rs as [|n rs IH]; intros ri Hl (k & m & j & H1 & H2 & H3 & H4); [done|].
  destruct ri as [|i ri]; [simpl in Hl; lia|]. cbn [aug_rev tail].
  destruct k as [|k].
  - simpl in H1, H2. simplify_eq. rewrite (proj2 (Z.eqb_neq m 1) H3). cbn [negb].
    rewrite (proj2 (Z.ltb_ge j m) H4). done.
  - simpl in H1, H2.
    assert (Hr : aug_rev rs ri = Throw RuntimeError).
    { apply IH; [simpl in Hl; lia|]. eauto 10. }
    rewrite Hr. destruct (Z.eqb_spec n 1); cbn [negb]; [done|].
    destruct (i <? n); done.
Qed.
