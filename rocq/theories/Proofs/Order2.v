(** The main loop of backward() processes every node below the root once, after all its
    consumers. *)
From Verif.Proofs Require Export Order.
From Verif.Model Require Export Api.

Section with_fops.
Context {fo : FOps}.
Notation any := (fun _ _ => True).

(** ** refresh_n_outway *)
Definition e1 (v : Z) (P L : list nat) (x : nat) (f : gradfn) : gradfn :=
  if decide (x ∈ L) then gf_with_nout (gf_with_ver f v) 0 else f.
Definition e2 (h0 : heap) (R : list nat) (v : Z) (P L : list nat) (x : nat) (f : gradfn) : gradfn :=
  if decide (x ∈ R) then
    Gfn (gf_kind f) (gf_in f) (uses (inputs h0) P x) (gf_acc f) (if decide (x ∈ L) then v else v - 1)
  else f.
Lemma upd_fn_state h t f g : fn_of h t = Some f -> exists h', upd_fn t g h = (Ok tt, h') /\ h_sto h' = h_sto h /\ h_ver h' = h_ver h /\
  forall x, h_ten h' !! x = on_fn (fun x f => if decide (x = t) then g f else f) x <$> h_ten h !! x.
Proof.
  unfold fn_of. destruct (h_ten h !! t) as [r|] eqn:Er; [|done]. intros Hf. unfold upd_fn.
  erewrite bind_ok by (by apply get_ten_ok). rewrite Hf. erewrite set_ten_eq by done. eexists. split; [done|]. split; [done|].
  split; [done|]. intros x. simpl. destruct (decide (x = t)) as [->|Hx].
  - rewrite list_lookup_insert by (by eapply lookup_lt_Some). rewrite Er. cbn [fmap option_fmap option_map]. unfold on_fn. rewrite Hf. cbn [fmap option_fmap option_map].
    by rewrite decide_True.
  - rewrite list_lookup_insert_ne by done. destruct (h_ten h !! x) as [rx|]; [|done]. cbn [fmap option_fmap option_map]. f_equal. unfold on_fn.
    destruct rx as [? ? ? ? ? ? [fx|]]; [|done]. cbn [fmap option_fmap option_map t_fn]. by rewrite decide_False.
Qed.
Lemma refresh_ok h0 t f : tinv h0 -> vinv h0 -> fn_of h0 t = Some f ->
  exists R h', refresh_n_outway t h0 = (Ok tt, h') /\ NoDup R /\ (forall x, x ∈ R <-> region h0 t x) /\
    state h0 (h_ver h0 + 2) (e2 h0 R (h_ver h0 + 2)) R R h'.
Proof.
  intros Hi [Hv0 Hv] Hf. set (v1 := h_ver h0 + 1). assert (t < length (h_ten h0))%nat as Hlt by (by eapply fn_of_lt).
  assert (is_node h0 t) as Hnt by (by eexists).
  assert (forall x g, fn_of h0 x = Some g -> gf_ver g <= h_ver h0) as Hver.
  { intros x g. unfold fn_of. destruct (h_ten h0 !! x) as [r|] eqn:Er; [|done]. intros Hg. by apply (Hv x r). }
  unfold refresh_n_outway. erewrite (bind_ok heap_size) by done. erewrite (bind_ok bump) by done. fold v1.
  set (h1 := Hp (h_sto h0) (h_ten h0) v1).
  destruct (upd_fn_state h1 t f (fun g => gf_with_ver (gf_with_nout g 0) v1)) as (h2 & E2 & S2 & V2 & T2); [done|].
  erewrite bind_ok by exact E2.
  assert (forall P L x g, gf_in (e1 v1 P L x g) = gf_in g) as A1. { intros. unfold e1. by case_decide. }
  assert (forall P L x g, region h0 t x -> fn_of h0 x = Some g ->
    (gf_ver (e1 v1 P L x g) <? v1) = negb (bool_decide (x ∈ L))) as A2.
  { intros P L x g _ Hg. unfold e1. case_decide; [rewrite bool_decide_true by done|rewrite bool_decide_false by done]; simpl; [lia|].
    specialize (Hver x g Hg). unfold v1. lia. }
  destruct (phase_ok h0 t v1 Hi visit_reset
    (fun ins new v x f => if decide (x ∈ new) then gf_with_nout (gf_with_ver f v) 0 else f) visit_reset_spec (e1 v1) A1 A2)
    with (length (h_ten h0)) h2 as (R1 & h3 & E3 & Hd1 & HR1 & S3 & V3 & T3); [|done|done| |].
  { intros P L x new y g _ _ _. unfold e1. repeat case_decide; try done; rewrite ?elem_of_app in *; tauto. }
  { split; [done|]. split; [done|]. intros x. rewrite T2. simpl. destruct (h_ten h0 !! x) as [rx|]; [|done].
    cbn [fmap option_fmap option_map]. f_equal. apply on_fn_ext. intros g _. unfold e1.
    repeat case_decide; try done; rewrite ?elem_of_list_singleton in *; tauto. }
  erewrite bind_ok by exact E3. erewrite (bind_ok bump) by done. rewrite V3.
  set (v2 := v1 + 1). set (h4 := Hp (h_sto h3) (h_ten h3) v2).
  assert (fn_of h4 t = Some (e1 v1 R1 R1 t f)) as Hf4.
  { unfold fn_of. simpl. rewrite T3. unfold fn_of in Hf. destruct (h_ten h0 !! t); [|done]. simpl. by rewrite Hf. }
  destruct (upd_fn_state h4 t _ (fun g => gf_with_ver g v2) Hf4) as (h5 & E5 & S5 & V5 & T5).
  erewrite bind_ok by exact E5.
  assert (forall P L x g, gf_in (e2 h0 R1 v2 P L x g) = gf_in g) as B1. { intros. unfold e2. by case_decide. }
  assert (forall P L x g, region h0 t x -> fn_of h0 x = Some g ->
    (gf_ver (e2 h0 R1 v2 P L x g) <? v2) = negb (bool_decide (x ∈ L))) as B2.
  { intros P L x g Hx%HR1 Hg. unfold e2. rewrite decide_True by done. simpl.
    case_decide; [rewrite bool_decide_true by done|rewrite bool_decide_false by done]; simpl; lia. }
  destruct (phase_ok h0 t v2 Hi visit_count
    (fun ins new v x f => gf_with_nout (if decide (x ∈ new) then gf_with_ver f v else f) (gf_nout f + cnt ins x))
    visit_count_spec (e2 h0 R1 v2) B1 B2)
    with (length (h_ten h0)) h5 as (R2 & h6 & E6 & Hd2 & HR2 & S6 & V6 & T6); [|done|done| |].
  { intros P L x new y g Hx Hg Hnew. unfold e2. destruct (decide (y ∈ R1)) as [Hy|Hy].
    - unfold gf_with_nout, gf_with_ver. rewrite uses_app. cbn [uses foldr]. repeat case_decide; simpl; f_equal; try lia;
        rewrite ?elem_of_app in *; tauto.
    - assert (y ∉ inputs h0 x) as Hni.
      { intros Hin. apply Hy, HR1. split; [|by eexists]. destruct Hx as [Hb _]. by eapply below_in. }
      rewrite decide_False by (intros ?%Hnew; done). rewrite cnt_zero by done. unfold gf_with_nout. destruct g; simpl. f_equal. lia. }
  { split; [by rewrite S5; simpl; rewrite S3|]. split; [by rewrite V5|]. intros x. rewrite T5. simpl. rewrite T3.
    destruct (h_ten h0 !! x) as [rx|] eqn:Ex; [|done].
    cbn [fmap option_fmap option_map]. f_equal. rewrite on_fn_on_fn. apply on_fn_ext. intros g Hg. unfold e1, e2. cbn [uses foldr].
    destruct (decide (x ∈ R1)) as [Hx|Hx]; [|case_decide; [|done]].
    - unfold gf_with_nout, gf_with_ver, v2. repeat case_decide; simpl; f_equal; try lia; rewrite ?elem_of_list_singleton in *; tauto.
    - subst x. destruct Hx. apply HR1. split; [constructor|done]. }
  exists R2, h6. split; [exact E6|]. split; [done|]. split; [done|]. replace (h_ver h0 + 2) with v2 by (unfold v2, v1; lia).
  split; [done|]. split; [done|]. intros x. rewrite T6. destruct (h_ten h0 !! x) as [rx|]; [|done].
  cbn [fmap option_fmap option_map]. f_equal. apply on_fn_ext. intros g _. unfold e2.
  destruct (decide (x ∈ R1)) as [Hx|Hx], (decide (x ∈ R2)) as [Hx'|Hx']; try done; rewrite ?HR1, ?HR2 in *; tauto.
Qed.
End with_fops.
