(** For the examples: expressions over the demo history. *)
From Verif.Proofs Require Export Expr LawEx.
From Verif.Model Require Export Ieee Api.

Section with_fops.
Context {fo : FOps}.
Definition sig (A : array) : dtype * list Z * bool := (a_dt A, a_ss A, a_rg A).
Lemma on1_of env e D ss rg (P : array -> Prop) : option_map sig (den env e) = Some (D, ss, rg) ->
  (forall A, a_dt A = D -> a_ss A = ss -> a_rg A = rg -> P A) -> on1 env e P.
Proof. intros H HP A EA. rewrite EA in H. cbn in H. unfold sig in H. apply (inj Some) in H. apply HP; congruence. Qed.
Lemma on2_of env a b D ss rg D' ss' rg' (P : array -> array -> Prop) : option_map sig (den env a) = Some (D, ss, rg) -> option_map sig (den env b) = Some (D', ss', rg') ->
  (forall A B, a_dt A = D -> a_ss A = ss -> a_rg A = rg -> a_dt B = D' -> a_ss B = ss' -> a_rg B = rg' -> P A B) -> on2 env a b P.
Proof. intros H H' HP A B EA EB. rewrite EA in H. rewrite EB in H'. cbn in H, H'. unfold sig in *. apply (inj Some) in H, H'. apply HP; congruence. Qed.
Definition small_buffer (h : heap) (r : tensor) : bool :=
  match h_sto h !! t_sto r with Some x => match sto_blob x with Some cs => Z.of_nat (length cs) <? 2 ^ 62 | None => false end | None => false end.
Lemma roomy_check h t r v : tensor_at h t r v -> length (strides (t_lay r)) = length (shape r) -> small_strides r -> small_buffer h r = true -> roomy h r.
Proof.
  intros [_ [(cs & Hc) _]] Hl Hs Hb _. split; [done|]. split; [done|]. exists cs. split; [done|]. destruct Hc as ((b & Hc) & _). unfold small_buffer in Hb. rewrite Hc in Hb. simpl in Hb. lia.
Qed.
Lemma has_leaf (x : option array) : (match x with Some _ => true | None => false end) = true -> x <> None.
Proof. by destruct x. Qed.
(** the arrays of the tensors [ts] of [h] *)
Definition env_of (h : heap) (ts : list nat) (t : nat) : option array :=
  if bool_decide (t ∈ ts) then match h_ten h !! t with Some r => Some (Arr (t_dt r) (shape r) (t_rg r) (contents h r)) | None => None end else None.
Lemma leaves_of h ts : Forall (fun t => exists r, tensor_at h t r (contents h r) /\ length (strides (t_lay r)) = length (shape r) /\ small_strides r /\ small_buffer h r = true) ts ->
  leaves_ok h (env_of h ts).
Proof.
  intros H t A. unfold env_of. case_bool_decide as Hi; [|done]. rewrite Forall_forall in H. destruct (H t Hi) as (r & Ht & H1 & H2 & H3). pose proof Ht as [Hr _]. rewrite Hr. intros [= <-].
  split; [by exists r|]. intros r' Hr'. assert (r' = r) as -> by congruence. by eapply roomy_check.
Qed.
End with_fops.
