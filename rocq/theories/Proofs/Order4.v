(** backward(): one pass over the nodes below the root, consumers first. *)
From Verif.Proofs Require Export Order3.
From Verif.Model Require Export Api.

Section with_fops.
Context {fo : FOps}.
Notation any := (fun _ _ => True).
Lemma backward_eq t h : backward t h = (prepare t ;;; bfs (length (h_ten h)) process [t]) h.
Proof.
  unfold backward, prepare, bind. destruct (get_ten t h) as [[r|?|?|] h1] eqn:E; try done. apply get_ten_inv in E as [_ ->].
  unfold run_expect. destruct (t_rg r); [|done]. simpl. destruct (t_fn r); [|done]. simpl. destruct (lnumel (t_lay r) =? 1); [|done]. simpl.
  destruct (refresh_n_outway t h) as [[?|?|?|] h2]; try done. destruct (ones_like t h2) as [[o|?|?|] h3]; try done.
  destruct (get_ten t h3) as [[r'|?|?|] h4]; try done.
Qed.
Section root.
Variables (h0 : heap) (t : nat) (r0 : tensor) (f0 : gradfn).
Hypothesis Hinv : tinv h0.
Hypothesis Hver : vinv h0.
Hypothesis Hsz : sized h0.
Hypothesis Hr0 : h_ten h0 !! t = Some r0.
Hypothesis Hf0 : t_fn r0 = Some f0.
Hypothesis Hrg0 : t_rg r0 = true.
Hypothesis Hone : lnumel (t_lay r0) = 1.
Hypothesis Hun : untraversed h0 t.
Lemma prepare_ok : exists R, NoDup R /\ (forall x, x ∈ R <-> region h0 t x) /\
  nd (prepare t) (fun _ h => main_inv h0 t R [] [t] h) h0.
Proof.
  assert (fn_of h0 t = Some f0) as Hft by (unfold fn_of; by rewrite Hr0).
  destruct (refresh_ok h0 t f0 Hinv Hver Hft) as (R & h1 & E1 & HdR & HR & S1 & V1 & T1).
  exists R. split; [done|]. split; [done|].
  assert (tinv h1) as Hi1 by (eapply tinv_out; [by apply tv_refresh|done]).
  assert (sized h1) as Hs1.
  { intros y r. rewrite T1. destruct (h_ten h0 !! y) as [ry|] eqn:Ey; [|done]. intros [= <-]. exact (Hsz y ry Ey). }
  unfold prepare, nd, wp. erewrite bind_ok by (by apply get_ten_ok). unfold run_expect. rewrite Hrg0, Hf0, Hone. 
  rewrite Z.eqb_refl. do 3 rewrite bind_ret. erewrite bind_ok by exact E1.
  match goal with |- match ?m h1 with _ => _ end => change (nd m (fun _ h => main_inv h0 t R [] [t] h) h1) end.
  assert (h_ten h1 !! t = Some (on_fn (e2 h0 R (h_ver h0 + 2) R R) t r0)) as Hr1 by (rewrite T1, Hr0; done).
  eapply nd_bind; [apply (nd_both (ones_like t) (fun _ h' => sb [] [] h1 h')); [|by eapply tv_ones_like]|].
  { eapply nd_mono; [by apply nb_ones_like|]. by intros ? ? _ [? _]. }
  intros o h2 Hs2 (Hi2 & M2 & Hsb & Hf). apply nd_get; [done|]. intros r2 Hr2 Hn2.
  destruct (mono_get _ _ _ _ M2 Hr1) as (r2' & Hr2' & Y1 & Y2 & Y3). assert (r2' = r2) as -> by congruence.
  eapply nd_bind; [apply (nd_both (set_ten t (with_grad r2 (Some o))) any); [by apply nd_set|apply tv_set_grad; [done|done|]]|].
  { intros x [= <-]. destruct Hf as (_ & _ & s & Hs'). eexists. split; [exact Hs'|]. unfold shape. simpl. rewrite Y1, Y2. done. }
  intros _ h3 Hs3 (Hi3 & _ & _ & E3). eapply nd_bind; [apply (nd_tv bump); [by apply nd_bump|by apply tv_bump]|].
  intros v h4 Hs4 (Hi4 & Ev & V4 & T4).
  assert (h_ver h2 = h_ver h0 + 2) as V2 by (destruct Hsb as (-> & _); done).
  assert (v = h_ver h0 + 3) as Ev' by (rewrite Ev, E3; simpl; lia).
  assert (h_ten h4 !! t = Some (with_grad r2 (Some o))) as Ht4.
  { rewrite T4, E3. simpl. apply list_lookup_insert. by eapply lookup_lt_Some. }
  assert (exists f2, t_fn r2 = Some f2) as (f2 & Hf2).
  { destruct Hsb as (_ & K & _). destruct (K _ _ Hr1) as (r' & Hr' & _ & _ & _ & Fn & _). assert (r' = r2) as -> by congruence.
    rewrite Fn. unfold on_fn. rewrite Hf0. simpl. by eexists. }
  assert (fn_of h4 t = Some f2) as Hf4 by (unfold fn_of; by rewrite Ht4).
  destruct (upd_fn_state h4 t f2 (fun g => gf_with_ver g v) Hf4) as (h5 & E5 & S5 & V5 & T5).
  assert (sized h5) as Hs5.
  { intros y r. rewrite T5. destruct (h_ten h4 !! y) as [ry|] eqn:Ey; [|done]. intros [= <-]. exact (Hs4 y ry Ey). }
  assert (tinv h5) as Hi5 by (refine (tinv_out _ _ (tv_upd_fn t (fun g => gf_with_ver g v) h4 _ Hi4) _ _ E5); done).
  unfold nd, wp. rewrite E5. split; [done|].
  (* records of [h0] in [h5] *)
  assert (forall y r, h_ten h0 !! y = Some r -> exists r5, h_ten h5 !! y = Some r5 /\ same_data r r5 /\ t_rg r5 = t_rg r /\
    t_ret r5 = t_ret r /\ t_grad r5 = (if decide (y = t) then Some o else t_grad r) /\
    t_fn r5 = (fun f => (if decide (y = t) then (fun g => gf_with_ver g v) else id) (e2 h0 R (h_ver h0 + 2) R R y f)) <$> t_fn r) as Hrec.
  { intros y r Hr. destruct Hsb as (_ & K & _).
    destruct (K y (on_fn (e2 h0 R (h_ver h0 + 2) R R) y r)) as (ry & Hry & D & Rg & Rt & Fn & G & _); [rewrite T1, Hr; done|].
    rewrite T5, T4, E3. cbn [h_ten].
    assert (t_fn ry = e2 h0 R (h_ver h0 + 2) R R y <$> t_fn r) as Fn'.
    { rewrite Fn. simpl. destruct (t_fn r) as [f|]; [|done]. simpl. f_equal. assert ((if t_rg r then cnt [] y else 0) = 0) as -> by (by destruct (t_rg r)). apply acc_id. }
    assert (t_grad ry = t_grad r) as G'. { destruct G as [G|(_ & _ & _ & []%not_elem_of_nil)]. done. }
    destruct (decide (y = t)) as [->|Hne].
    - rewrite list_lookup_insert by (by eapply lookup_lt_Some). assert (ry = r2) as -> by congruence.
      eexists. split; [done|]. split; [done|]. split; [done|]. split; [done|]. split; [done|].
      unfold on_fn. cbn [t_fn with_fn with_grad]. rewrite Fn'. destruct (t_fn r); [|done]. cbn [fmap option_fmap option_map]. by rewrite decide_True.
    - rewrite list_lookup_insert_ne, Hry by done. eexists. split; [done|]. split; [done|]. split; [done|]. split; [done|]. split; [done|].
      unfold on_fn. simpl. rewrite Fn'. destruct (t_fn r); [|done]. simpl. by rewrite decide_False. }
  split.
  - done.
  - done.
  - congruence.
  - intros y [Hb [f Hf']]. unfold fn_of in Hf'. destruct (h_ten h0 !! y) as [r|] eqn:Er; [|done].
    destruct (Hrec y r Er) as (r5 & Hr5 & _ & Rg & _ & _ & Fn). destruct (Hun y r f Hb Er Hf') as [Hrg Hacc].
    exists r5, f. split; [done|]. split; [unfold fn_of; by rewrite Er|]. split; [congruence|]. rewrite Fn, Hf'. cbn [fmap option_fmap option_map]. f_equal.
    assert (y ∈ R) as HyR. { apply HR. split; [done|]. exists f. unfold fn_of. by rewrite Er. }
    unfold e2. rewrite !(decide_True (P := y ∈ R)) by done. unfold acc0. cbn [app uses foldr]. destruct (decide (y = t)) as [->|Hne].
    + rewrite decide_True by apply elem_of_list_here. unfold gf_with_ver. simpl. rewrite Ev'. f_equal. lia.
    + rewrite decide_False by (by rewrite elem_of_list_singleton). unfold id. rewrite Hacc by done. f_equal. lia.
  - intros y r Hr. destruct (Hrec y r Hr) as (r5 & Hr5 & D & Rg & Rt & G & Fn). exists r5. split; [done|]. split; [done|]. split; [done|]. split; [done|].
    split.
    + intros Hn. rewrite Fn, Hn. split; [done|]. intros g Hg. rewrite G. rewrite decide_False; [done|]. intros ->. congruence.
    + split; [|intros Hrf; rewrite G, decide_False; [done|]; intros ->; congruence].
      intros Hnb. assert (y <> t) as Hne by (intros ->; apply Hnb; constructor). rewrite G, Fn, !decide_False by done. split; [|done].
      destruct (t_fn r) as [f|]; [|done]. cbn [fmap option_fmap option_map]. unfold id, e2. rewrite decide_False; [done|]. by intros [? _]%HR.
  - apply NoDup_singleton.
  - apply elem_of_list_here.
  - intros y ->%elem_of_list_singleton. split; [constructor|by eexists].
  - intros y ->%elem_of_list_singleton. by left.
  - intros y ->%elem_of_list_singleton c [Hb Hn] Hin. exfalso. destruct (inputs_node h0 Hinv c Hn t Hin) as [Hlt _].
    apply (below_le h0 t Hinv) in Hb. lia.
  - intros y Ry Hy Hu. simpl in Hu. symmetry in Hu. simpl in Hy. rewrite elem_of_list_singleton in Hy. destruct Ry as [Hb Hn].
    destruct Hb as [|c y Hb Hin]; [done|]. eapply (uses_zero _ _ _ Hu c); [|exact Hin]. apply HR. split; [done|].
    unfold inputs in Hin. unfold is_node. destruct (fn_of h0 c); [done|]. by apply elem_of_nil in Hin.
  - by intros y r ?%elem_of_nil.
  - intros y r Hr _ Hrg [->|(p & ?%elem_of_nil & _)]; [|done]. destruct (Hrec t r0 Hr0) as (r5 & Hr5 & _ & _ & _ & G & _).
    assert (r5 = r) as -> by congruence. rewrite G, decide_True by done. done.
Qed.
Lemma backward_order : exists order,
  backward t h0 = (prepare t ;;; process_all order) h0 /\ NoDup order /\
  (forall k x, order !! k = Some x -> below h0 t x /\ is_node h0 x /\
    forall c, below h0 t c -> x ∈ inputs h0 c -> c ∈ take k order) /\
  (forall h', backward t h0 = (Ok tt, h') ->
    (forall x, below h0 t x -> is_node h0 x -> x ∈ order) /\
    (forall x r r', below h0 t x -> h_ten h0 !! x = Some r -> h_ten h' !! x = Some r' ->
       t_ret r' = t_ret r /\
       (is_node h0 x -> if t_ret r then is_Some (t_grad r') else t_grad r' = None) /\
       (~ is_node h0 x -> t_rg r = true -> is_Some (t_grad r') /\ forall g, t_grad r = Some g -> t_grad r' = Some g))) /\
  (backward t h0).1 <> Diverge.
Proof.
  destruct prepare_ok as (R & HdR & HR & Hp). unfold nd, wp in Hp. rewrite backward_eq.
  destruct (prepare t h0) as [[[]|e|u|] h1] eqn:E1.
  2-4: exists []; split; [unfold bind; by rewrite E1|]; split; [constructor|]; split; [done|]; unfold bind; rewrite E1; split; [done|].
  2-3: done.
  2: by destruct Hp.
  destruct Hp as [Hs1 HI].
  destruct (bfs_run (main_inv h0 t R) (may h0 t) process (length (h_ten h0))) with (fuel := length (h_ten h0)) (P := @nil nat) (Q := [t]) (h := h1)
    as (order & E & HX & HE).
  - intros. by apply main_step.
  - intros P Q h HI'. split; [apply HI'|]. intros y Hy. destruct (mi_region _ _ _ _ _ _ HI' y Hy) as [_ [f Hf]]. by eapply fn_of_lt.
  - done.
  - simpl. lia.
  - exists order. erewrite !bind_ok by exact E1. rewrite E. split; [done|].
    assert (forall k x, order !! k = Some x -> may h0 t (take k order) x) as HX' by exact HX.
    split; [|split; [|split]].
    + apply NoDup_alt. assert (forall i j x, (i < j)%nat -> order !! i = Some x -> order !! j = Some x -> False) as H.
      { intros i j x Hij Hi Hj. destruct (HX' j x Hj) as (_ & Hn & _). apply Hn. apply elem_of_list_lookup. exists i. by rewrite lookup_take. }
      intros i j x Hi Hj. destruct (Nat.lt_total i j) as [?|[?|?]]; [by destruct (H i j x)|done|by destruct (H j i x)].
    + intros k x Hk. destruct (HX' k x Hk) as ([Hb Hn] & _ & Hc). split; [done|]. split; [done|]. intros c Hbc Hin. apply Hc; [|done].
      split; [done|]. unfold inputs in Hin. unfold is_node. destruct (fn_of h0 c); [done|]. by apply elem_of_nil in Hin.
    + rewrite <- E. intros h' E'. rewrite E' in HE. simpl in HE.
      pose proof (main_end h0 t R Hinv HdR HR order h' HE) as Hall.
      split; [intros x Hb Hn; by apply Hall|]. intros x r r' Hb Hr Hr'.
      destruct (mi_kept _ _ _ _ _ _ HE x r Hr) as (r'' & Hr'' & K1 & K2 & K3 & K4 & _). assert (r'' = r') as -> by congruence.
      split; [done|]. split.
      * intros Hn. pose proof (mi_done _ _ _ _ _ _ HE x r' (Hall x (conj Hb Hn)) Hr') as H. by rewrite K3 in H.
      * intros Hn Hrg. assert (t_fn r = None) as Hfn.
        { destruct (t_fn r) eqn:Ef; [|done]. destruct Hn. unfold is_node, fn_of. rewrite Hr, Ef. by eexists. }
        destruct (K4 Hfn) as [_ K5]. split; [|done]. eapply (mi_grad _ _ _ _ _ _ HE); [exact Hr'| |congruence|].
        { intros Hin. destruct (mi_region _ _ _ _ _ _ HE x) as [_ ?]; [by rewrite app_nil_r|done]. }
        destruct Hb as [|c y Hb Hin]; [by left|right]. exists c. split; [|done]. apply Hall. split; [done|].
        unfold inputs in Hin. unfold is_node. destruct (fn_of h0 c); [done|]. by apply elem_of_nil in Hin.
    + rewrite <- E. by destruct (bfs _ _ _ _) as [[?|?|?|] ?].
Qed.
End root.
End with_fops.
