(** Contents of tensors after later calls. *)
From Verif.Proofs Require Export Frame3 Api4.

Section with_fops.
Context {fo : FOps}.

Lemma holds_data h h' r r' v : same_data r r' -> h_sto h' !! t_sto r = h_sto h !! t_sto r ->
  holds h r v -> holds h' r' v.
Proof.
  intros (E1 & E2 & E3) Es [[cs Hb] He]. split.
  - exists cs. destruct Hb as ((b & Hs) & Hb). split; [|by rewrite <- E2].
    exists b. by rewrite <- E3, <- E1, Es.
  - rewrite <- E2, <- E1. intros idx Hi. destruct (He idx Hi) as [H1 H2]. split; [|done].
    rewrite <- H1. unfold elem, cells. by rewrite <- E2, <- E3, Es.
Qed.
Lemma kept_outside_at W h h' t r v : kept_outside W h h' -> ~ W (t_sto r) -> tensor_at h t r v ->
  exists r', tensor_at h' t r' v /\ same_data r r'.
Proof.
  intros [Hs Ht] HW [Hr Hh]. destruct (Ht t r Hr) as (r' & Hr' & Hd). exists r'. split; [|done]. split; [done|].
  destruct Hh as [[cs Hb] He]. eapply holds_data; [done| |by split; [exists cs|]].
  destruct Hb as ((b & Hb) & _). by rewrite (Hs _ _ HW Hb).
Qed.
Lemma data_kept_at h h' t r v : data_kept h h' -> tensor_at h t r v ->
  exists r', tensor_at h' t r' v /\ same_data r r'.
Proof. intros [H1 H2] Ht. eapply (kept_outside_at (fun _ => False)); [|by intros []|done]. split; [auto|done]. Qed.

Lemma avoids_kept s h ops t r v : avoids s h ops -> t_sto r = s -> tensor_at h t r v ->
  exists r', tensor_at (run h ops).2 t r' v /\ same_data r r'.
Proof.
  revert h r. induction ops as [|o ops IH]; intros h r Ha Hs Ht; [by exists r|].
  destruct Ha as [Ho Ha].
  assert (exists r1, tensor_at (exec o h).2 t r1 v /\ same_data r r1) as (r1 & Ht1 & Hd1).
  { destruct (mutates o) eqn:Em.
    - destruct o; try done; try (simpl in Em; congruence). destruct a as [a|]; [|done].
      destruct (h_ten h !! a) as [ra|] eqn:Era.
      + eapply kept_outside_at; [by apply addeq_keeps_rest| |done]. simpl. subst s. specialize (Ho ra eq_refl). congruence.
      + exists r. split; [|done]. cbn [exec]. unfold bind, deref, lift. simpl. unfold no_result, bind.
        destruct b as [b|]; simpl; [|done].
        unfold op_addeq, bind, get_ten. by rewrite Era.
    - eapply data_kept_at; [by apply op_keeps_data|done]. }
  assert (t_sto r1 = s) as Hs1 by (destruct Hd1 as (_ & _ & E); congruence).
  destruct (IH _ _ Ha Hs1 Ht1) as (r2 & Ht2 & Hd2).
  cbn [run]. destruct (exec o h) as [[x|e|u|] h1] eqn:E; simpl in *.
  - exists r2. destruct (run h1 ops) as [[]?]; (split; [done|by eapply same_data_trans]).
  - exists r2. destruct (run h1 ops) as [[]?]; (split; [done|by eapply same_data_trans]).
  - by exists r1. - by exists r1.
Qed.

(** C22 *)
Lemma copy_independent o h t r v :
  o = OClone \/ o = OContiguous -> tensor_at h t r v -> fits (t_dt r) (shape r) ->
  exists t' h' r', exec (o (Some t)) h = (Ok (RHandle (Some t')), h') /\
    new_tensor h h' t' (t_dt r) (shape r) (t_rg r) v /\
    h_ten h' !! t' = Some r' /\
    (forall ops, avoids (t_sto r) h' ops ->
       exists rl, tensor_at (run h' ops).2 t rl v /\ same_data r rl) /\
    (forall ops, avoids (t_sto r') h' ops ->
       exists rl, tensor_at (run h' ops).2 t' rl v /\ same_data r' rl).
Proof.
  intros Ho Hat Hf. destruct (copy_new o h t r v Ho Hat Hf) as (t' & h' & E & Hn).
  pose proof Hn as (He & Hfr & r' & Hr' & Hs' & Hdt & Hss & Hrm & Hrg & Hgr & Hh).
  exists t', h', r'. split; [done|]. split; [done|]. split; [done|]. split.
  - intros ops Ha. eapply avoids_kept; [done|done|].
    destruct (data_kept_at h h' t r v) as (r1 & Ht1 & _).
    + destruct He as [H1 H2]. split; [done|]. intros u x Hx. exists x. split; [auto|done].
    + done.
    + destruct Hat as [Hr _]. destruct Ht1 as [Hr1 Hh1]. apply He in Hr. split; [done|]. congruence.
  - intros ops Ha. eapply avoids_kept; [done|done|]. by split.
Qed.
Lemma data_unchanged h o t r v : mutates o = false -> tensor_at h t r v ->
  data_kept h (exec o h).2 /\
  exists r', tensor_at (exec o h).2 t r' v /\ shape r' = shape r /\ t_dt r' = t_dt r.
Proof.
  intros Hm Ht. pose proof (op_keeps_data h o Hm) as Hd. split; [done|].
  destruct (data_kept_at _ _ _ _ _ Hd Ht) as (r' & Hr' & E1 & E2 & _). exists r'. split; [done|].
  unfold shape. by rewrite E1, E2.
Qed.
End with_fops.
