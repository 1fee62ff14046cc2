(** Element copies: clone, contiguous, dtype conversion. *)
From Verif.Proofs Require Export Creation.

(** A loop with an invariant over the part already done: either every step succeeds or
    some step does not. *)
Lemma mapM_run {S A} (body : A -> M S unit) (I : list A -> S -> Prop) (Q : A -> Prop)
    (Bad : A -> outcome unit -> S -> Prop) l s :
  I [] s ->
  (forall pre x post s, l = pre ++ x :: post -> I pre s ->
     (Q x /\ exists s', body x s = (Ok tt, s') /\ I (pre ++ [x]) s') \/
     (exists o s', body x s = (o, s') /\ (forall a, o <> Ok a) /\ Bad x o s')) ->
  ((forall x, x ∈ l -> Q x) /\ exists s', mapM_ body l s = (Ok tt, s') /\ I l s') \/
  (exists x o s', x ∈ l /\ mapM_ body l s = (o, s') /\ (forall a, o <> Ok a) /\ Bad x o s').
Proof.
  intros H0 Hs.
  assert (forall done rest s, l = done ++ rest -> I done s ->
    ((forall x, x ∈ rest -> Q x) /\ exists s', mapM_ body rest s = (Ok tt, s') /\ I l s') \/
    (exists x o s', x ∈ rest /\ mapM_ body rest s = (o, s') /\ (forall a, o <> Ok a) /\ Bad x o s'))
    as Hgen.
  2:{ by apply (Hgen [] l s). }
  intros done rest. revert done. induction rest as [|x rest IH]; intros done s' Hl HI.
  - left. split; [intros x Hx; inversion Hx|]. exists s'. split; [done|].
    rewrite Hl, app_nil_r. exact HI.
  - destruct (Hs _ _ _ _ Hl HI) as [(Hq & s1 & Hb & HI1)|(o & s1 & Hb & Ho & HB)].
    + destruct (IH (done ++ [x]) s1) as [(Hqs & s2 & Hr & HI2)|(y & o & s2 & Hy & Hr & Ho & HB)].
      { by rewrite <- app_assoc. } { done. }
      * left. split; [intros y [->|Hy]%elem_of_cons; auto|]. exists s2. split; [|done].
        cbn [mapM_]. erewrite bind_ok by exact Hb. exact Hr.
      * right. exists y, o, s2. split; [by right|]. split; [|done].
        cbn [mapM_]. erewrite bind_ok by exact Hb. exact Hr.
    + right. exists x, o, s1. split; [left|]. split; [|done].
      cbn [mapM_]. unfold bind. rewrite Hb. destruct o; try done. by destruct (Ho a).
Qed.

Section with_fops.
Context {fo : FOps}.

Lemma holds_allocable h r v dt :
  holds h r v -> fits dt (sizes (t_lay r)) -> allocable dt (sizes (t_lay r)).
Proof. intros H Hf. split; [by eapply holds_shape|done]. Qed.

(** the common loop of tensor_clone and tensor_to_type *)
Lemma copy_run h r v dt (ss := sizes (t_lay r)) :
  holds h r v -> allocable dt ss ->
  let run := for_each_sizevec ss (copy_body dt (t_dt r) (fresh_rec h dt (contig ss) false None) r)
               (alloc_heap h dt (contig ss) (raw_cells ss) false None) in
  (forall w, (forall idx, in_range ss idx -> cpp_cvt (t_dt r) dt (v idx) = Some (w idx)) ->
     run = (Ok tt, alloc_heap h dt (contig ss) (rm_cells ss w) false None)) /\
  ((exists idx, in_range ss idx /\ cpp_cvt (t_dt r) dt (v idx) = None) ->
     exists cs, run = (UB FloatRange, alloc_heap h dt (contig ss) cs false None)).
Proof.
  intros Hh Ha run. unfold run. clear run.
  set (g := fun idx => cvt (t_dt r) dt (v idx)).
  destruct (fresh_loop h dt ss false None
    (copy_body dt (t_dt r) (fresh_rec h dt (contig ss) false None) r) g (raw_cells ss) Ha)
    as [(w & Hw & Hrun)|(o & cs & idx & Hrun & Hi & He)].
  { apply replicate_length. }
  { intros idx cs Hi Hlen. unfold copy_body.
    erewrite bind_ok by (eapply holds_exact; [|exact Hi];
      eapply holds_extends; [apply alloc_extends|exact Hh]).
    by apply fresh_write_exact. }
  - rewrite Hrun. split.
    + intros w' Hw'. do 2 f_equal. apply rm_cells_ext. intros idx Hi.
      specialize (Hw idx Hi). unfold g in Hw. rewrite cvt_cpp, (Hw' idx Hi) in Hw. congruence.
    + intros (idx & Hi & Hn). exfalso. specialize (Hw idx Hi). unfold g in Hw.
      by rewrite cvt_cpp, Hn in Hw.
  - rewrite Hrun. unfold g in He. rewrite cvt_cpp in He. split.
    + intros w' Hw'. exfalso. rewrite (Hw' idx Hi) in He. done.
    + intros _. exists cs. destruct (cpp_cvt (t_dt r) dt (v idx)); [done|].
      destruct o; try done. simpl in He. by subst.
Qed.

(** conversion to the own type changes nothing *)
Lemma cpp_cvt_self T v : has_ty T v -> cpp_cvt T T v = Some v.
Proof.
  unfold cpp_cvt, to_float, conv. destruct v as [z|f].
  - intros [H1 H2]%has_ty_int. rewrite H1. by rewrite reduce_id by (apply width_pos || done).
  - intros H%has_ty_float. rewrite H. by rewrite bool_decide_true.
Qed.

Definition clone_fn (rg : bool) (t : nat) : option gradfn :=
  if rg then Some (Gfn CloneBack [t] 0 0 0) else None.

Lemma clone_ok h t r v :
  h_ten h !! t = Some r -> holds h r v -> fits (t_dt r) (sizes (t_lay r)) ->
  op_clone t h = (Ok (length (h_ten h)),
    alloc_heap h (t_dt r) (contig (sizes (t_lay r))) (rm_cells (sizes (t_lay r)) v)
      (t_rg r) (clone_fn (t_rg r) t)).
Proof.
  intros Ht Hh Hf. pose proof (holds_allocable _ _ _ _ Hh Hf) as Ha.
  unfold op_clone. erewrite bind_ok by (by apply get_ten_ok).
  erewrite bind_ok by (by apply create_ok). cbn [sizes contig].
  erewrite bind_ok by (apply get_ten_ok, alloc_ten). unfold tensor_clone. cbn [sizes contig t_lay fresh_rec].
  destruct (copy_run h r v (t_dt r) Hh Ha) as [Hok _].
  erewrite bind_ok.
  2:{ apply (Hok v). intros idx Hi. apply cpp_cvt_self. by eapply Hh. }
  unfold clone_fn. destruct (t_rg r) eqn:Erg; cbn [negb]; [|done].
  by rewrite alloc_track_bind.
Qed.

Lemma to_dtype_ok h t r v dt :
  h_ten h !! t = Some r -> holds h r v -> fits dt (sizes (t_lay r)) ->
  dt <> t_dt r -> t_rg r && negb (floating dt) = false ->
  (forall w, (forall idx, in_range (sizes (t_lay r)) idx -> cpp_cvt (t_dt r) dt (v idx) = Some (w idx)) ->
     to_dtype t dt h = (Ok (length (h_ten h)),
       alloc_heap h dt (contig (sizes (t_lay r))) (rm_cells (sizes (t_lay r)) w)
         (t_rg r) (clone_fn (t_rg r) t))) /\
  ((exists idx, in_range (sizes (t_lay r)) idx /\ cpp_cvt (t_dt r) dt (v idx) = None) ->
     exists cs, to_dtype t dt h =
       (UB FloatRange, alloc_heap h dt (contig (sizes (t_lay r))) cs false None)).
Proof.
  intros Ht Hh Hf Hne Hrg. pose proof (holds_allocable _ _ _ _ Hh Hf) as Ha.
  unfold to_dtype. erewrite bind_ok by (by apply get_ten_ok).
  rewrite is_int_floating, Hrg. rewrite bool_decide_false by done.
  erewrite bind_ok by (by apply create_ok). cbn [sizes contig].
  erewrite bind_ok by (apply get_ten_ok, alloc_ten). unfold tensor_to_type. cbn [sizes contig t_lay fresh_rec].
  destruct (copy_run h r v dt Hh Ha) as [Hok Hub]. split.
  - intros w Hw. erewrite bind_ok by (by apply (Hok w)).
    unfold clone_fn. destruct (t_rg r) eqn:Erg; cbn [negb]; [|done].
    by rewrite alloc_track_bind.
  - intros Hn. destruct (Hub Hn) as (cs & Hrun). exists cs. 
    erewrite bind_ub; [done|exact Hrun].
Qed.
Lemma to_dtype_same h t r : h_ten h !! t = Some r -> t_rg r && negb (floating (t_dt r)) = false ->
  to_dtype t (t_dt r) h = (Ok t, h).
Proof.
  intros Ht Hrg. unfold to_dtype. erewrite bind_ok by (by apply get_ten_ok).
  rewrite is_int_floating, Hrg. by rewrite bool_decide_true.
Qed.
Lemma to_dtype_reject h t r dt : h_ten h !! t = Some r -> t_rg r = true -> floating dt = false ->
  to_dtype t dt h = (Throw RuntimeError, h).
Proof.
  intros Ht Hrg Hf. unfold to_dtype. erewrite bind_ok by (by apply get_ten_ok).
  by rewrite is_int_floating, Hrg, Hf.
Qed.
End with_fops.
