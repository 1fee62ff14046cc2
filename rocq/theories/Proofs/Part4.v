(** max() and min() as the program sees them: any tensor whose buffer starts with a defined
    cell. *)
From Verif.Proofs Require Export Extremum.
From Verif.Model Require Import Api.
Import Verif.Proofs.Reduce.

Section with_fops.
Context {fo : FOps}.

Definition ext_op (c : cop) (t : nat) : op := match c with CGe => OMax (Some t) | _ => OMin (Some t) end.
Lemma ext_exec c h t : c = CGe \/ c = CLe -> exec (ext_op c t) h =
  match op_extremum c t h with (Ok x, h') => (Ok (RHandle (Some x)), h') | (Throw e, h') => (Throw e, h') | (UB u, h') => (UB u, h') | (Diverge, h') => (Diverge, h') end.
Proof. intros [->| ->]; cbn [exec ext_op]; rewrite un_some, new_handle_eq; unfold op_max, op_min; by destruct (op_extremum _ _ _) as [[]]. Qed.

Lemma ext_part c h t r v x0 :
  c = CGe \/ c = CLe -> tensor_at h t r v -> t_rg r = false -> first_cell h r x0 -> ordered (x0 :: row_elems (shape r) v) ->
  exists m t' h',
    exec (ext_op c t) h = (Ok (RHandle (Some t')), h') /\ new_tensor h h' t' (t_dt r) [] false (fun _ => m) /\
    (forall idx, in_range (shape r) idx -> dom c (v idx) m = true) /\
    ((exists idx, in_range (shape r) idx /\ dom c (v idx) x0 = false) -> exists best, in_range (shape r) best /\ m = v best) /\
    ((forall idx, in_range (shape r) idx -> dom c (v idx) x0 = true) -> m = x0).
Proof.
  intros Hc [Ht Hh] Hrg Hf Ho. destruct (ext_untracked c h t r v x0 Hc Ht Hh Hrg Hf Ho) as (m & best & (H1 & H2 & H3) & Hm & E).
  exists m. eexists _, _. split; [rewrite ext_exec, E by done; done|]. split; [by apply scal_new|]. split; [done|]. split.
  - intros (idx & Hi & Hd). destruct H3 as [(_ & _ & H3)|(Hb & -> & _)]; [|by exists best]. rewrite H3 in Hd by done. done.
  - intros Ha. destruct H3 as [(-> & _)|(Hb & _ & H3)]; [done|]. rewrite Ha in H3 by done. done.
Qed.
Lemma max_part h t r v x0 :
  tensor_at h t r v -> t_rg r = false -> first_cell h r x0 -> ordered (x0 :: row_elems (shape r) v) ->
  exists m t' h',
    exec (OMax (Some t)) h = (Ok (RHandle (Some t')), h') /\ new_tensor h h' t' (t_dt r) [] false (fun _ => m) /\
    (forall idx, in_range (shape r) idx -> val_le (v idx) m = true) /\
    ((exists idx, in_range (shape r) idx /\ val_le (v idx) x0 = false) -> exists best, in_range (shape r) best /\ m = v best) /\
    ((forall idx, in_range (shape r) idx -> val_le (v idx) x0 = true) -> m = x0).
Proof. exact (ext_part CGe h t r v x0 (or_introl eq_refl)). Qed.
Lemma min_part h t r v x0 :
  tensor_at h t r v -> t_rg r = false -> first_cell h r x0 -> ordered (x0 :: row_elems (shape r) v) ->
  exists m t' h',
    exec (OMin (Some t)) h = (Ok (RHandle (Some t')), h') /\ new_tensor h h' t' (t_dt r) [] false (fun _ => m) /\
    (forall idx, in_range (shape r) idx -> val_le m (v idx) = true) /\
    ((exists idx, in_range (shape r) idx /\ val_le x0 (v idx) = false) -> exists best, in_range (shape r) best /\ m = v best) /\
    ((forall idx, in_range (shape r) idx -> val_le x0 (v idx) = true) -> m = x0).
Proof. exact (ext_part CLe h t r v x0 (or_intror eq_refl)). Qed.

(** tracked tensors *)
Lemma ext_new h T ss m w fn : allocable T ss -> has_ty T m ->
  new_tensor h (ext_heap h T ss m w true fn) (length (h_ten h)) T [] true (fun _ => m).
Proof.
  intros Hal Hm. pose proof (scal_new h T m true fn Hm) as (Hx & Hn & r & H1 & H2 & H3 & H4 & H5 & H6 & H7 & H8).
  split; [eapply extends_trans; [exact Hx|apply alloc_extends]|]. split; [done|]. exists r. split; [by apply alloc_ten_old|].
  split_and!; try done. eapply holds_extends; [apply alloc_extends|]. done.
Qed.
Lemma ext_tracked_part c h t r v x0 :
  c = CGe \/ c = CLe -> tensor_at h t r v -> t_rg r = true -> fits (t_dt r) (shape r) -> first_cell h r x0 -> ordered (x0 :: row_elems (shape r) v) ->
  ((exists idx, in_range (shape r) idx /\ dom c (v idx) x0 = false) ->
     exists best t' h', in_range (shape r) best /\ (forall idx, in_range (shape r) idx -> dom c (v idx) (v best) = true) /\
       exec (ext_op c t) h = (Ok (RHandle (Some t')), h') /\ new_tensor h h' t' (t_dt r) [] true (fun _ => v best) /\
       slopes_at h' t' t (shape r) best) /\
  (shape r <> [] -> (forall idx, in_range (shape r) idx -> dom c (v idx) x0 = true) ->
     exists h', exec (ext_op c t) h = (Throw RuntimeError, h')).
Proof.
  intros Hc [Ht Hh] Hrg Hf Hfc Ho. pose proof (holds_allocable _ _ _ _ Hh Hf) as Hal.
  pose proof (allocable_nonneg _ _ Hal) as Hnn.
  destruct (ext_tracked c h t r v x0 Hc Ht Hh Hf Hrg Hfc Ho) as (m & best & (H1 & H2 & H3) & Hm & E1 & E2). split.
  - intros (idx & Hi & Hd). destruct H3 as [(_ & _ & H3)|(Hb & -> & _)]; [rewrite H3 in Hd by done; done|].
    specialize (E1 Hb). eexists best, _, _. split; [done|]. split; [done|]. split; [rewrite ext_exec, E1 by done; done|].
    split; [by apply ext_new|].
    set (fn := Gfn (KnownGradBack (S (length (h_ten h)))) [t] 0 0 0).
    exists (fresh_rec h (t_dt r) (contig []) true (Some fn)), fn, (S (length (h_ten h))), (ext_g h (t_dt r) (shape r)).
    split; [by apply alloc_ten_old, alloc_ten|]. do 3 (split; [done|]).
    rewrite <- (ext_g_eq h (t_dt r) (shape r) (v best) true (Some fn)).
    split.
    { replace (S (length (h_ten h))) with (length (h_ten (scal h (t_dt r) (Some (v best)) true (Some fn)))) by (simpl; rewrite app_length; simpl; lia).
      apply alloc_ten. }
    split; [done|]. apply (alloc_holds _ _ _ (one_hot (t_dt r) best)); [done|]. intros. apply one_hot_ty.
  - intros Hne Ha. destruct H3 as [(_ & -> & _)|(Hb & _ & H3)]; [|rewrite Ha in H3 by done; done].
    destruct (E2 eq_refl Hne) as [h' E]. exists h'. by rewrite ext_exec, E by done.
Qed.
Lemma max_tracked_part h t r v x0 :
  tensor_at h t r v -> t_rg r = true -> fits (t_dt r) (shape r) -> first_cell h r x0 -> ordered (x0 :: row_elems (shape r) v) ->
  ((exists idx, in_range (shape r) idx /\ val_le (v idx) x0 = false) ->
     exists best t' h', in_range (shape r) best /\ (forall idx, in_range (shape r) idx -> val_le (v idx) (v best) = true) /\
       exec (OMax (Some t)) h = (Ok (RHandle (Some t')), h') /\ new_tensor h h' t' (t_dt r) [] true (fun _ => v best) /\
       slopes_at h' t' t (shape r) best) /\
  (shape r <> [] -> (forall idx, in_range (shape r) idx -> val_le (v idx) x0 = true) ->
     exists h', exec (OMax (Some t)) h = (Throw RuntimeError, h')).
Proof. exact (ext_tracked_part CGe h t r v x0 (or_introl eq_refl)). Qed.
Lemma min_tracked_part h t r v x0 :
  tensor_at h t r v -> t_rg r = true -> fits (t_dt r) (shape r) -> first_cell h r x0 -> ordered (x0 :: row_elems (shape r) v) ->
  ((exists idx, in_range (shape r) idx /\ val_le x0 (v idx) = false) ->
     exists best t' h', in_range (shape r) best /\ (forall idx, in_range (shape r) idx -> val_le (v best) (v idx) = true) /\
       exec (OMin (Some t)) h = (Ok (RHandle (Some t')), h') /\ new_tensor h h' t' (t_dt r) [] true (fun _ => v best) /\
       slopes_at h' t' t (shape r) best) /\
  (shape r <> [] -> (forall idx, in_range (shape r) idx -> val_le x0 (v idx) = true) ->
     exists h', exec (OMin (Some t)) h = (Throw RuntimeError, h')).
Proof. exact (ext_tracked_part CLe h t r v x0 (or_intror eq_refl)). Qed.
End with_fops.
