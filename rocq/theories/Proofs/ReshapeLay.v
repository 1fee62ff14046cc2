(** The layout and the buffer of a reshaped tensor. *)
From Verif.Proofs Require Export Reshape2 Law Wide.
From Verif.Model Require Export Api.

Section with_fops.
Context {fo : FOps}.

Definition resh_form (h' : heap) (r r' : tensor) (ss : list Z) : Prop :=
  (t_sto r' = t_sto r /\ (ss = [] \/ strides (t_lay r') = map (fun _ => 1) ss \/
    exists l, isometry (shape r) (strides (t_lay r)) = Ok true /\ last (strides (t_lay r)) = Some l /\ strides (t_lay r') = strides_from l ss)) \/
  (strides (t_lay r') = contig_strides ss /\
   exists b cs, h_sto h' !! t_sto r' = Some (Sto (t_dt r) b (Some cs)) /\ Z.of_nat (length cs) = size_prod (shape r)).

(** what is left once the view has been made *)
Definition resh_end (t tf last_node : nat) : E nat :=
  let! i := get_ten t in
  if negb (t_rg i) then mret tf
  else
    track tf NoBack [last_node] ;;;
    share_grad_storage tf last_node ;;;
    mret tf.
Lemma resh_end_kept t tf l h tf' h' : resh_end t tf l h = (Ok tf', h') -> tf' = tf /\ data_kept h h'.
Proof.
  intros E. assert (fr (fun _ => True) h (resh_end t tf l) (fun x _ => x = tf) h) as H.
  { unfold resh_end. eapply fr_bind; [apply fr_get_ten, kept_refl|]. intros i h1 Hk _. case_match; [by apply fr_ret|].
    eapply fr_bind; [by apply fr_track|]. intros ? h2 Hk2 _. eapply fr_bind; [by apply fr_share|]. intros. by apply fr_ret. }
  unfold fr, wp in H. rewrite E in H. destruct H as [H1 H2]. split; [done|]. by apply kept_data.
Qed.
Lemma view_end h t dt lay s l tf h' : resh_end t (length (h_ten h)) l (Hp (h_sto h) (h_ten h ++ [Ten dt lay s None false false None]) (h_ver h)) = (Ok tf, h') ->
  (forall x y, h_sto h !! x = Some y -> h_sto h' !! x = Some y) /\ exists r', h_ten h' !! tf = Some r' /\ t_lay r' = lay /\ t_sto r' = s.
Proof.
  intros [-> [Hs Ht]]%resh_end_kept. split; [done|]. destruct (Ht (length (h_ten h)) (Ten dt lay s None false false None)) as (r' & Hr' & _ & H1 & H2); [apply lookup_snoc|].
  exists r'. by rewrite <- H1, <- H2.
Qed.
Lemma reshape_tail_form h t r r1 v ss tf h' : h_ten h !! t = Some r1 -> same_data r r1 -> holds h r v -> fits (t_dt r) (shape r) -> reshape_tail t r ss h = (Ok tf, h') ->
  exists r', h_ten h' !! tf = Some r' /\ resh_form h' r r' ss.
Proof.
  intros Ht Hsd Hh Hfit E. unfold reshape_tail in E. apply bind_inv in E as (? & h1 & E1 & E).
  assert (h1 = h) as -> by (destruct (Nat.ltb _ _); [done|]; by injection E1). clear E1. rewrite bind_lift in E. unfold resh_form, shape. destruct (isometry _ _) as [b|?|?|] eqn:Ei; try done. destruct b.
  - apply bind_inv in E as ([tf0 ln] & h2 & E2 & E). apply bind_inv in E2 as (sts & h1 & E1 & E2).
    assert (h1 = h /\ (ss = [] \/ exists l, last (strides (t_lay r)) = Some l /\ sts = strides_from l ss)) as [-> Hst].
    { destruct ss as [|k ss]; [injection E1 as _ ->; split; [done|by left]|]. destruct (last (strides (t_lay r))) as [l|]; [|done]. injection E1 as <- ->. split; [done|]. right. by exists l. }
    apply bind_inv in E2 as (w & h3 & E3 & E2). unfold create_view, new_ten in E3. injection E3 as <- <-. injection E2 as <- <- <-.
    apply view_end in E as (_ & r' & Hr' & L & S). exists r'. split; [done|]. left. split; [done|]. destruct Hst as [->|(l & Hl & ->)]; [by left|]. right. right. exists l. by rewrite L.
  - apply bind_inv in E as ([tf0 ln] & h2 & E2 & E). apply bind_inv in E2 as (m & h1 & E1 & E2).
    assert (sizes (t_lay r1) = shape r) as Hsh by (destruct Hsd as (_ & H & _); unfold shape; by rewrite H). assert (t_dt r1 = t_dt r) as Hdt by (by destruct Hsd as (-> & _)).
    rewrite (clone_ok h t r1 v Ht) in E1.
    2:{ by eapply holds_same. } 2:{ by rewrite Hsh, Hdt. }
    pose proof (alloc_ten h (t_dt r1) (contig (sizes (t_lay r1))) (rm_cells (sizes (t_lay r1)) v) (t_rg r1) (clone_fn (t_rg r1) t)) as Hm.
    remember (alloc_heap h (t_dt r1) (contig (sizes (t_lay r1))) (rm_cells (sizes (t_lay r1)) v) (t_rg r1) (clone_fn (t_rg r1) t)) as ha eqn:Eha.
    injection E1 as <- <-. erewrite bind_ok in E2 by (by apply get_ten_ok).
    apply bind_inv in E2 as (w & h3 & E3 & E2). unfold create_view, new_ten in E3. injection E3 as <- <-. injection E2 as <- <- <-.
    apply view_end in E as (Hs & r' & Hr' & L & S). exists r'. split; [done|]. right. rewrite L. split; [done|].
    eexists _, (rm_cells (shape r) v). split.
    + rewrite S. apply Hs. subst ha. cbn. rewrite Hsh, Hdt. rewrite lookup_app_r, Nat.sub_diag by done. reflexivity.
    + pose proof (holds_nonneg _ _ _ Hh) as Hn. rewrite rm_cells_length by done. pose proof (size_prod_nonneg _ Hn). unfold shape in *. lia.
Qed.
Lemma reshape_sv_form h t r v ss tf h' : h_ten h !! t = Some r -> holds h r v -> fits (t_dt r) (shape r) -> numel_of ss = lnumel (t_lay r) -> op_reshape_sv t ss h = (Ok tf, h') ->
  exists r', h_ten h' !! tf = Some r' /\ resh_form h' r r' ss.
Proof.
  intros Ht Hh Hfit Hn E. rewrite (op_reshape_sv_eq t ss h r) in E by done. destruct (numel_of ss =? 1); [|by eapply reshape_tail_form].
  apply bind_inv in E as (w & h1 & E1 & E). unfold create_view, new_ten in E1. injection E1 as <- <-. destruct (t_rg r) eqn:Erg; cbn [negb] in E.
  - assert (fr (fun _ => True) h (track (length (h_ten h)) NoBack [t] ;;; share_grad_storage (length (h_ten h)) t) (fun _ _ => True)
      (Hp (h_sto h) (h_ten h ++ [Ten (t_dt r) (Lay ss (map (fun _ => 1) ss) (offset (t_lay r))) (t_sto r) None false false None]) (h_ver h))) as H.
    { eapply fr_bind; [by apply fr_track, kept_new_ten, kept_refl|]. intros ? h2 Hk2 _. by apply fr_share. }
    apply bind_inv in E as (? & h2 & E2 & E). apply bind_inv in E as (? & h3 & E3 & E).
    unfold fr, wp in H. unfold bind in H. rewrite E2, E3 in H. destruct H as [Hk%kept_data _].
    destruct Hk as [Hks Hkt]. destruct (Hkt t r Ht) as (r3 & Hr3 & K). eapply (reshape_tail_form h3 t r r3); try done. eapply data_kept_holds; [|exact Hh]. by split.
  - injection E as <- <-. eexists. split; [apply lookup_snoc|]. left. split; [done|]. right. by left.
Qed.
Lemma reshape_form h t r v xs ss tf h' : h_ten h !! t = Some r -> holds h r v -> fits (t_dt r) (shape r) -> asks_for xs (size_prod (shape r)) ss -> Forall in_ll xs ->
  (wildcards xs = 1%nat -> 0 < given xs < 2 ^ 64) -> exec (OReshape (Some t) xs) h = (Ok (RHandle (Some tf)), h') -> exists r', h_ten h' !! tf = Some r' /\ resh_form h' r r' ss.
Proof.
  intros Ht Hh Hfit Hask Hll Hg E. pose proof (holds_allocable _ _ _ _ Hh Hfit) as Ha. pose proof (allocable_lt63 _ _ Ha) as Hlt.
  assert (Hnn : Forall (fun n => 0 <= n) (shape r)) by (by eapply holds_nonneg). destruct (regularize_ok xs (size_prod (shape r)) ss Hask Hll Hlt Hg) as [Hreg Hss].
  cbn [exec] in E. rewrite un_some, new_handle_eq in E. unfold op_reshape in E. erewrite bind_ok in E by (by apply get_ten_ok).
  assert (lnumel (t_lay r) = size_prod (shape r)) as En by (unfold lnumel; fold (shape r); rewrite numel_of_exact; [done|done|unfold two63, two64, shape in *; lia]).
  rewrite En, bind_lift, Hreg in E. destruct (op_reshape_sv t ss h) as [[x|?|?|] h1] eqn:E1; try done. injection E as -> ->.
  eapply reshape_sv_form; try done. rewrite En. destruct Hask as (_ & _ & Hsz). rewrite <- Hsz. apply numel_of_exact; [eapply Forall_impl; [exact Hss|]; simpl; lia|].
  unfold two63, two64, shape in *. lia.
Qed.
End with_fops.
