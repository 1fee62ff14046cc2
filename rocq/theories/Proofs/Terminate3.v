(** Graph traversals stop: no node is pushed twice. *)
From Verif.Proofs Require Export Visit.
From Verif.Model Require Export Api.

Lemma bounded_nodup (l : list nat) n : NoDup l -> (forall x, x ∈ l -> x < n)%nat -> (length l <= n)%nat.
Proof.
  intros Hd Hb. rewrite <- (seq_length n 0). apply NoDup_incl_length; [by apply NoDup_ListNoDup|].
  intros x Hx%elem_of_list_In. apply elem_of_list_In, elem_of_seq. specialize (Hb x Hx). lia.
Qed.

Section with_fops.
Context {fo : FOps}.
Notation any := (fun _ _ => True).
(** [y] has been pushed in the current traversal *)
Definition marked (h : heap) (y : nat) : Prop := exists f, fn_of h y = Some f /\ h_ver h <= gf_ver f.
Definition pushes (x : nat) (h : heap) (new : list nat) (h' : heap) : Prop :=
  tinv h' /\ h_ver h' = h_ver h /\ (forall y, marked h y -> marked h' y) /\ NoDup new /\
  (forall y, y ∈ new -> (y < x)%nat /\ ~ marked h y /\ marked h' y).
Definition steps (body : nat -> E (list nat)) : Prop :=
  forall x h, tinv h -> sized h -> marked h x -> nd (body x) (pushes x h) h.
Lemma nd_bfs body n : steps body -> forall fuel P Q h, tinv h -> sized h -> NoDup (P ++ Q) ->
  (forall y, y ∈ P ++ Q -> (y < n)%nat /\ marked h y) -> (n <= length P + fuel)%nat ->
  nd (bfs fuel body Q) (fun _ h' => tinv h') h.
Proof.
  intros Hb. induction fuel as [|fuel IH]; intros P Q h Hi Hs Hd Hm Hn; destruct Q as [|x Q]; try by (apply nd_ret).
  - exfalso. assert (length (P ++ x :: Q) <= n)%nat as HL.
    { apply bounded_nodup; [done|]. intros y Hy. by apply Hm. }
    rewrite app_length in HL. simpl in HL. lia.
  - cbn [bfs]. assert (x ∈ P ++ x :: Q) as Hx by (rewrite elem_of_app, elem_of_cons; auto).
    eapply nd_bind; [apply Hb; [done|done|by apply Hm]|].
    intros new h' Hs' (Hi' & V & K & Hd' & Hnew).
    apply (IH (P ++ [x])); [done|done| | |rewrite app_length; simpl; lia].
    + rewrite <- app_assoc. simpl. rewrite app_comm_cons, app_assoc. apply NoDup_app. split; [done|]. split; [|done].
      intros y Hy Hy'. destruct (Hnew y Hy') as (_ & H & _). apply H. by apply Hm.
    + intros y. rewrite <- app_assoc. simpl. rewrite app_comm_cons, app_assoc, elem_of_app. intros [Hy|Hy].
      * destruct (Hm y Hy) as [H1 H2]. auto.
      * destruct (Hnew y Hy) as (H1 & _ & H2). destruct (Hm x Hx). split; [lia|done].
Qed.

Lemma tinv_inputs h x f : tinv h -> fn_of h x = Some f ->
  exists r, h_ten h !! x = Some r /\ t_fn r = Some f /\ fn_fits h r (gf_kind f) (gf_in f) /\
  forall i, i ∈ gf_in f -> (i < x)%nat /\ is_Some (h_ten h !! i).
Proof.
  intros Hi Hf. unfold fn_of in Hf. destruct (h_ten h !! x) as [r|] eqn:Er; [|done]. exists r. split; [done|]. split; [done|].
  destruct (ok_fn _ _ _ (Hi x r Er) f Hf) as (Hin & _ & Hfit). split; [done|]. intros i Hii.
  rewrite Forall_forall in Hin. split; [by apply Hin|]. apply lookup_lt_is_Some.
  apply lookup_lt_Some in Er. specialize (Hin i Hii). lia.
Qed.
Lemma get_fn_ok h x f : fn_of h x = Some f -> get_fn x h = (Ok f, h).
Proof.
  unfold fn_of. intros H. destruct (h_ten h !! x) as [r|] eqn:Er; [|done]. unfold get_fn.
  erewrite bind_ok by (by apply get_ten_ok). by rewrite H.
Qed.
Lemma visited_fn c e ins new h h' x : visited c e ins new h h' -> fn_of h' x = e x <$> fn_of h x.
Proof. intros (_ & _ & S & _). unfold fn_of. rewrite S. by destruct (h_ten h !! x). Qed.
Lemma visited_sized c e ins new h h' : visited c e ins new h h' -> sized h -> sized h'.
Proof.
  intros (_ & _ & S & _) Hs t r. rewrite S. destruct (h_ten h !! t) as [r0|] eqn:Er; [|done]. intros [= <-]. exact (Hs t r0 Er).
Qed.
(** what the loops must do to the version *)
Definition marks (c : Z -> gradfn -> bool) (e : nat -> gradfn -> gradfn) (new : list nat) (v : Z) : Prop :=
  (forall f, c v f = true -> gf_ver f < v) /\
  (forall x f, gf_ver (e x f) = if decide (x ∈ new) then v else gf_ver f).
Lemma visited_pushes c e ins new h h' x : visited c e ins new h h' -> marks c e new (h_ver h) -> tinv h' ->
  (forall i, i ∈ ins -> i < x)%nat -> pushes x h new h'.
Proof.
  intros Hv [Hc He] Hi Hlt. pose proof (fun y => visited_fn _ _ _ _ _ _ y Hv) as Hfn.
  destruct Hv as (_ & V & _ & Hd & Hn). split; [done|]. split; [done|]. split; [|split; [done|]].
  - intros y (f & Hf & Hle). exists (e y f). rewrite Hfn, Hf. split; [done|]. rewrite V, He. by case_decide.
  - intros y Hy. pose proof Hy as Hy'. apply Hn in Hy as (Hin & f & Hf & Hcf). split; [by apply Hlt|]. split.
    + intros (f' & Hf' & Hle). assert (f' = f) as -> by congruence. apply Hc in Hcf. lia.
    + exists (e y f). rewrite Hfn, Hf. split; [done|]. rewrite V, He, decide_True by done. done.
Qed.
Lemma tinv_out {A} (m : E A) h : tv m any h -> forall a h', m h = (Ok a, h') -> tinv h'.
Proof. intros H a h' E. unfold tv, wp in H. rewrite E in H. tauto. Qed.
Lemma steps_reset : steps (fun x => let! g := get_fn x in visit_reset (gf_in g)).
Proof.
  intros x h Hi Hs (f & Hf & _). destruct (tinv_inputs h x f Hi Hf) as (r & Hr & Hf' & Hfit & Hin).
  unfold nd, wp. erewrite bind_ok by (by apply get_fn_ok).
  destruct (visit_reset_spec (gf_in f) h) as (new & h' & E & Hv); [intros i Hii; by apply Hin|].
  rewrite E. split; [by eapply visited_sized|]. eapply visited_pushes; [done| |by eapply tinv_out; [by apply tv_visit_reset|]|].
  - split; [intros g; unfold c_ver; lia|]. intros y g. by case_decide.
  - intros i Hii. by apply Hin.
Qed.
Lemma steps_count : steps (fun x => let! g := get_fn x in visit_count (gf_in g)).
Proof.
  intros x h Hi Hs (f & Hf & _). destruct (tinv_inputs h x f Hi Hf) as (r & Hr & Hf' & Hfit & Hin).
  unfold nd, wp. erewrite bind_ok by (by apply get_fn_ok).
  destruct (visit_count_spec (gf_in f) h) as (new & h' & E & Hv); [intros i Hii; by apply Hin|].
  rewrite E. split; [by eapply visited_sized|]. eapply visited_pushes; [done| |by eapply tinv_out; [by apply tv_visit_count|]|].
  - split; [intros g; unfold c_ver; lia|]. intros y g. by case_decide.
  - intros i Hii. by apply Hin.
Qed.

(** processing one node: step_back, then the gradient is dropped unless retained *)
Definition back_part (x : nat) : E unit :=
  let! g := get_fn x in
  step_back x (gf_kind g) (gf_in g) ;;;
  let! r := get_ten x in
  if t_ret r then mret tt else set_ten x (with_grad r None).
Lemma process_eq x h : process x h = (back_part x ;;; let! g := get_fn x in visit_ready (gf_in g)) h.
Proof.
  unfold process, back_part. unfold bind. destruct (get_fn x h) as [[g|?|?|] h1]; try done.
  destruct (step_back _ _ _ h1) as [[?|?|?|] h2]; try done. destruct (get_ten x h2) as [[?|?|?|] h3]; try done.
Qed.
(** [back_part] runs step_back, then forgets the gradient of the node *)
Definition dropped (x : nat) (r r' : tensor) : Prop :=
  same_data r r' /\ t_rg r' = t_rg r /\ t_ret r' = t_ret r /\ t_fn r' = t_fn r /\
  t_grad r' = if t_ret r then t_grad r else None.
Lemma nd_back_part x f h : sized h -> tinv h -> fn_of h x = Some f ->
  nd (back_part x) (fun _ h2 => exists h1 r r2, step_back x (gf_kind f) (gf_in f) h = (Ok tt, h1) /\
    sb (gf_in f) (gf_in f) h h1 /\ h_sto h2 = h_sto h1 /\ h_ver h2 = h_ver h1 /\ h_ten h1 !! x = Some r /\ dropped x r r2 /\
    h_ten h2 = <[x := r2]> (h_ten h1)) h.
Proof.
  intros Hs Hi Hf. destruct (tinv_inputs h x f Hi Hf) as (r & Hr & Hf' & Hfit & Hin).
  assert (nb (step_back x (gf_kind f) (gf_in f)) (gf_in f) (gf_in f)
    (fun _ h1 => step_back x (gf_kind f) (gf_in f) h = (Ok tt, h1)) h) as Hb.
  { pose proof (nb_step x r (gf_kind f) (gf_in f) h Hs Hfit) as H. revert H. unfold nb, nd, wp.
    destruct (step_back _ _ _ h) as [[[]|?|?|] h1]; tauto. }
  unfold back_part. unfold nd, wp. erewrite bind_ok by (by apply get_fn_ok).
  change (nd (step_back x (gf_kind f) (gf_in f) ;;; let! r := get_ten x in if t_ret r then mret tt else set_ten x (with_grad r None))
    (fun _ h2 => exists h1 r r2, step_back x (gf_kind f) (gf_in f) h = (Ok tt, h1) /\
    sb (gf_in f) (gf_in f) h h1 /\ h_sto h2 = h_sto h1 /\ h_ver h2 = h_ver h1 /\ h_ten h1 !! x = Some r /\ dropped x r r2 /\
    h_ten h2 = <[x := r2]> (h_ten h1)) h).
  eapply nd_bind; [exact Hb|]. intros ? h1 Hs1 [Hsb HE]. apply nd_get; [done|]. intros r1 Hr1 Hn1.
  destruct (t_ret r1) eqn:Et.
  - apply nd_ret; [done|]. exists h1, r1, r1. unfold dropped. rewrite Et. split_and!; try done.
    by rewrite list_insert_id.
  - split; [by apply sized_set|]. exists h1, r1, (with_grad r1 None). unfold dropped. rewrite Et. split_and!; done.
Qed.
Lemma tv_back_part x h : tinv h -> tv (back_part x) any h.
Proof.
  intros Hi. unfold back_part. apply tv_get_fn; [done|]. intros g. eapply tv_bind; [by apply tv_step_back|].
  intros _ h1 Hi1 _ _. apply tv_get; [done|]. intros r Hr. case_match; [by apply tv_ret|]. eapply tv_weak, tv_set_grad; done.
Qed.
(** the counters after [back_part] *)
Lemma back_part_fn x l g h h1 h2 r r2 : sb l g h h1 -> h_ten h1 !! x = Some r -> dropped x r r2 ->
  h_ten h2 = <[x := r2]> (h_ten h1) -> forall y, fn_of h2 y =
  match h_ten h !! y with
  | Some ry => (fun f => gf_with_acc f (gf_acc f + (if t_rg ry then cnt l y else 0))) <$> t_fn ry
  | None => None end.
Proof.
  intros (V & K & N) Hr (_ & _ & _ & Hd & _) E y.
  assert (fn_of h2 y = fn_of h1 y) as ->.
  { unfold fn_of. rewrite E. destruct (decide (y = x)) as [->|Hne].
    - rewrite list_lookup_insert by (by eapply lookup_lt_Some). by rewrite Hr.
    - by rewrite list_lookup_insert_ne. }
  unfold fn_of. destruct (h_ten h !! y) as [ry|] eqn:Ey.
  - destruct (K y ry Ey) as (r' & -> & (_ & _ & _ & -> & _)). by destruct (t_fn ry).
  - destruct (h_ten h1 !! y) as [r'|] eqn:Ey'; [|done]. by destruct (N y r' Ey' Ey).
Qed.
Lemma steps_process : steps process.
Proof.
  intros x h Hi Hs (f & Hf & Hle). unfold nd, wp. rewrite process_eq.
  change (nd (back_part x ;;; let! g := get_fn x in visit_ready (gf_in g)) (pushes x h) h).
  eapply nd_bind.
  { eapply wp_mono; [apply wp_conj; [by eapply nd_back_part|by apply tv_back_part]| |].
    - intros a h' [[H1 H2] (H3 & H4 & _)]. split; [exact H1|]. exact (conj H2 H3).
    - intros a h' [H _]. exact H. }
  cbv beta. intros _ h2 Hs2 [(h1 & r & r2 & E1 & Hsb & _ & V2 & Hr & Hd & E2) Hi2].
  pose proof (back_part_fn x _ _ _ _ _ _ _ Hsb Hr Hd E2) as Hfn. assert (h_ver h1 = h_ver h) as V1 by apply Hsb.
  assert (forall y f, fn_of h y = Some f -> exists f', fn_of h2 y = Some f' /\ gf_ver f' = gf_ver f /\ gf_in f' = gf_in f) as Hk.
  { intros y g Hg. rewrite Hfn. unfold fn_of in Hg. destruct (h_ten h !! y) as [ry|]; [|done]. rewrite Hg. simpl. by eexists. }
  assert (forall y f', fn_of h2 y = Some f' -> exists f, fn_of h y = Some f /\ gf_ver f' = gf_ver f) as Hk'.
  { intros y g. rewrite Hfn. unfold fn_of. destruct (h_ten h !! y) as [ry|]; [|done]. destruct (t_fn ry) as [f0|]; [|done].
    intros [= <-]. by exists f0. }
  destruct (Hk x f Hf) as (f2 & Hf2 & _ & Ein).
  destruct (tinv_inputs h2 x f2 Hi2 Hf2) as (rx & Hrx & _ & _ & Hin).
  unfold nd, wp. erewrite bind_ok by (by apply get_fn_ok).
  destruct (visit_ready_spec (gf_in f2) h2) as (new & h' & E & Hv); [intros i Hii; by apply Hin|].
  rewrite E. split; [by eapply visited_sized|].
  assert (pushes x h2 new h') as (A1 & A2 & A3 & A4 & A5).
  { eapply visited_pushes; [done| |by eapply tinv_out; [by apply tv_visit_ready|]|].
    - split; [intros g; unfold c_ready; intros [? _]%andb_true_iff; lia|]. intros y g. by case_decide.
    - intros i Hii. by apply Hin. }
  split; [done|]. split; [congruence|]. split; [|split; [done|]].
  - intros y (g & Hg & Hl). apply A3. destruct (Hk y g Hg) as (g' & Hg' & Ev & _). exists g'. split; [done|]. rewrite Ev, V2, V1. done.
  - intros y Hy. destruct (A5 y Hy) as (B1 & B2 & B3). split; [done|]. split; [|done]. intros (g & Hg & Hl). apply B2.
    destruct (Hk y g Hg) as (g' & Hg' & Ev & _). exists g'. split; [done|]. rewrite Ev, V2, V1. done.
Qed.

(** [tinv] as a postcondition *)
Lemma nd_tv {A} (m : E A) P h : nd m P h -> tv m any h -> nd m (fun a h' => tinv h' /\ P a h') h.
Proof.
  intros H1 H2. eapply wp_mono; [apply wp_conj; [exact H1|exact H2]| |].
  - intros a h' [[? ?] (? & _)]. auto.
  - intros a h' [? _]. done.
Qed.
Lemma nd_upd_fn t g h : sized h -> nd (upd_fn t g) (fun _ h' => exists f, fn_of h t = Some f /\ fn_of h' t = Some (g f) /\
  h_ver h' = h_ver h /\ length (h_ten h') = length (h_ten h)) h.
Proof.
  intros Hs. apply nd_get; [done|]. intros r Hr Hn. destruct (t_fn r) as [f|] eqn:Ef; [|done].
  split; [by apply sized_set|]. exists f. unfold fn_of. simpl. rewrite Hr, list_lookup_insert by (by eapply lookup_lt_Some).
  split; [done|]. split; [done|]. split; [done|]. by rewrite insert_length.
Qed.
Lemma nd_bump h : sized h -> nd bump (fun v h' => v = h_ver h + 1 /\ h_ver h' = v /\ h_ten h' = h_ten h) h.
Proof. done. Qed.
Lemma root_marked t v h : sized h -> h_ver h = v -> forall g, (forall f, gf_ver (g f) = v) ->
  nd (upd_fn t g) (fun _ h' => marked h' t /\ length (h_ten h') = length (h_ten h)) h.
Proof.
  intros Hs Hv g Hg. eapply nd_mono; [by apply nd_upd_fn|]. intros _ h' _ (f & _ & Hf & V & L). split; [|done].
  exists (g f). split; [done|]. rewrite V, Hv, Hg. done.
Qed.
Lemma fn_of_lt h t f : fn_of h t = Some f -> (t < length (h_ten h))%nat.
Proof. unfold fn_of. destruct (h_ten h !! t) eqn:E; [|done]. intros _. by eapply lookup_lt_Some. Qed.
Lemma nd_bfs_root body n t h : steps body -> tinv h -> sized h -> marked h t -> (t < n)%nat -> nd (bfs n body [t]) (fun _ h' => tinv h') h.
Proof.
  intros. eapply (nd_bfs body n) with (P := []); [done|done|done|apply NoDup_singleton| |simpl; lia].
  intros y ->%elem_of_list_singleton. done.
Qed.
Lemma nd_refresh t h : tinv h -> sized h -> (t < length (h_ten h))%nat -> nd (refresh_n_outway t) (fun _ h' => tinv h') h.
Proof.
  intros Hi Hs Ht. unfold refresh_n_outway. apply nd_read; [done|done|done|]. intros n [= <-].
  eapply nd_bind; [apply (nd_tv bump); [by apply nd_bump|by apply tv_bump]|]. intros v h1 Hs1 (Hi1 & _ & V1 & T1).
  eapply nd_bind; [apply nd_tv; [by apply (root_marked t v)|by apply tv_upd_fn]|]. intros _ h2 Hs2 (Hi2 & M2 & L2).
  eapply nd_bind; [apply nd_bfs_root; [apply steps_reset|done..]|]. intros ? h3 Hs3 Hi3.
  eapply nd_bind; [apply (nd_tv bump); [by apply nd_bump|by apply tv_bump]|]. intros v' h4 Hs4 (Hi4 & _ & V4 & T4).
  eapply nd_bind; [apply nd_tv; [by apply (root_marked t v')|by apply tv_upd_fn]|]. intros _ h5 Hs5 (Hi5 & M5 & L5).
  apply nd_bfs_root; [apply steps_count|done..].
Qed.
Lemma nd_both {A} (m : E A) (P Q : A -> heap -> Prop) h : nd m P h -> tv m Q h ->
  nd m (fun a h' => tinv h' /\ mono h h' /\ P a h' /\ Q a h') h.
Proof.
  intros H1 H2. eapply wp_mono; [apply wp_conj; [exact H1|exact H2]| |].
  - intros a h' [[? ?] (? & ? & ?)]. auto.
  - intros a h' [? _]. done.
Qed.
Lemma tv_refresh t h : tinv h -> tv (refresh_n_outway t) any h.
Proof.
  intros Hi. unfold refresh_n_outway. apply tv_read; [done|done|]. intros m _.
  eapply tv_bind; [by apply tv_bump|]. intros v h1 Hi1 _ _.
  eapply tv_bind; [by apply tv_upd_fn|]. intros _ h2 Hi2 _ _.
  eapply tv_bind; [apply tv_bfs; [|done]|].
  { intros x h3 Hi3. apply tv_get_fn; [done|]. intros g. by apply tv_visit_reset. }
  intros _ h3 Hi3 _ _. eapply tv_bind; [by apply tv_bump|]. intros v' h4 Hi4 _ _.
  eapply tv_bind; [by apply tv_upd_fn|]. intros _ h5 Hi5 _ _. apply tv_bfs; [|done].
  intros x h6 Hi6. apply tv_get_fn; [done|]. intros g. by apply tv_visit_count.
Qed.
Lemma nd_backward t h : tinv h -> sized h -> nd (backward t) any h.
Proof.
  intros Hi Hs. unfold backward. apply nd_get; [done|]. intros r Hr Hn. do 3 (apply nd_expect; [done|]; intros _).
  apply nd_read; [done|done|done|]. intros n [= <-]. assert (t < length (h_ten h))%nat as Ht by (by eapply lookup_lt_Some).
  eapply nd_bind; [apply nd_both; [by apply nd_refresh|by apply tv_refresh]|]. intros _ h1 Hs1 (Hi1 & M1 & _).
  destruct (mono_get _ _ _ _ M1 Hr) as (r1 & Hr1 & X1 & X2 & X3).
  eapply nd_bind; [apply (nd_both (ones_like t) any); [|by eapply tv_ones_like]|].
  { unfold ones_like. apply nd_get; [done|]. intros x _ Hx. by apply nd_ones. }
  intros o h2 Hs2 (Hi2 & M2 & _ & Hf). apply nd_get; [done|]. intros r2 Hr2 Hn2.
  destruct (mono_get _ _ _ _ M2 Hr1) as (r2' & Hr2' & Y1 & Y2 & Y3). assert (r2' = r2) as -> by congruence.
  eapply nd_bind; [apply (nd_both (set_ten t (with_grad r2 (Some o))) any); [by apply nd_set|apply tv_set_grad; [done|done|]]|].
  { intros x [= <-]. destruct Hf as (_ & _ & s & Hs'). eexists. split; [exact Hs'|]. unfold shape. simpl. rewrite Y1, Y2. done. }
  intros _ h3 Hs3 (Hi3 & _ & _). eapply nd_bind; [apply (nd_tv bump); [by apply nd_bump|by apply tv_bump]|].
  intros v h4 Hs4 (Hi4 & _ & V4 & T4).
  eapply nd_bind; [apply nd_tv; [by apply (root_marked t v)|by apply tv_upd_fn]|]. intros _ h5 Hs5 (Hi5 & M5 & L5).
  eapply nd_weak. apply nd_bfs_root; [apply steps_process|done..].
Qed.
End with_fops.
