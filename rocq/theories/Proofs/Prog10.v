(** Backward passes over separate graphs add up. *)
From Verif.Proofs Require Export Prog9.
From Verif.Model Require Export Exact Api.
#[local] Existing Instance Exact.
#[local] Existing Instance is_view_dec.

Lemma rule_kept h h' d x k ins : (forall y, y ∈ x :: ins ++ kg_of k -> Prog.kept h h' y) -> rule h d x k ins -> rule h' d x k ins.
Proof.
  intros K. assert (forall y, y ∈ x :: ins -> Prog.kept h h' y) as K' by (intros y Hy; apply K; rewrite app_comm_cons; apply elem_of_app; by left).
  assert (forall y, y ∈ x :: ins -> lay_of h' y = lay_of h y) as L. { intros y Hy. apply Prog.kept_lay, K'; done. }
  assert (forall y, y ∈ x :: ins -> shape_of h' y = shape_of h y) as S. { intros y Hy. apply Prog.kept_shape, K'; done. }
  assert (forall y idx, y ∈ x :: ins -> value h' y idx = value h y idx) as V. { intros y idx Hy. apply Prog.kept_value, K'; done. }
  assert (forall kg idx, k = KnownGradBack kg -> value h' kg idx = value h kg idx) as Kg.
  { intros kg idx ->. apply Prog.kept_value, K. rewrite app_comm_cons. apply elem_of_app. right. apply elem_of_list_here. }
  unfold rule. destruct k.
  9:{ intros H idx Hi. rewrite S in Hi by mem. specialize (H idx Hi). cbv zeta in *.
      assert (map (fun a => nth (Z.to_nat dim) (shape_of h' a) 0) ins = map (fun a => nth (Z.to_nat dim) (shape_of h a) 0) ins) as E.
      { assert (forall y, y ∈ ins -> shape_of h' y = shape_of h y) as S' by (intros y Hy; apply S; mem).
        clear - S'. induction ins as [|a l IH]; [done|]. cbn [map]. rewrite S' by mem. rewrite IH; [done|]. intros y Hy. apply S'. mem. }
      by rewrite E. }
  all: destruct ins as [|a [|b [|]]]; try done; rewrite ?S, ?L by mem; intros H.
  - done.
  - done.
  - intros idx Hi. rewrite !V by mem. by apply H.
  - intros idx Hi. rewrite !V by mem. by apply H.
  - done.
  - done.
  - done.
  - done.
  - case_decide.
    + intros idx Hi. rewrite (Kg _ idx eq_refl). by apply H.
    + rewrite H. apply sumq_ext. intros idx _. by rewrite (Kg _ idx eq_refl).
Qed.

Section after.
Variables (D T : nat -> Prop) (h h' : heap) (t : nat).
Hypothesis Hinv : tinv h.
Hypothesis G : GI D T h.
Hypothesis Dt : D t.
Hypothesis HT : forall x, below h t x -> x <> t -> ~ T x.
Hypothesis F : effect h t h'.

Lemma data_outside s : gdata h D s -> outside h t s.
Proof.
  intros Hs. split; [by eapply gdata_exists|]. intros b (B1 & B2 & B3) Hbt Hbs.
  assert (D b) as Db by (eapply below_D; [apply (g_in _ _ _ G)|exact Dt|exact B1]). by apply (g_apart _ _ _ G b s Db (HT b B1 Hbt) B3 Hbs).
Qed.
Lemma data_kept y : (D y \/ exists x f, D x /\ fn_of h x = Some f /\ y ∈ kg_of (gf_kind f)) -> is_Some (h_ten h !! y) -> Prog.kept h h' y.
Proof.
  intros Hy [r Hr]. destruct (ef_rec _ _ _ F y r Hr) as (r' & M1 & M2 & M3 & _). exists r, r'. split; [done|]. split; [done|]. split; [done|]. split; [congruence|].
  assert (gdata h D (t_sto r)) as Hd by (exists y, r; done). destruct (gdata_exists D T h _ G Hd) as [x Hx]. rewrite Hx. apply (ef_sto _ _ _ F _ _ (data_outside _ Hd) Hx).
Qed.
Lemma fn_kept x : D x -> (fun f => (gf_kind f, gf_in f)) <$> fn_of h' x = (fun f => (gf_kind f, gf_in f)) <$> fn_of h x.
Proof.
  intros Dx. destruct (g_rec _ _ _ G x Dx) as (r & Hr & _). destruct (ef_rec _ _ _ F x r Hr) as (r' & M1 & _ & _ & _ & M4 & _). unfold fn_of. by rewrite Hr, M1.
Qed.
Lemma inputs_kept x : D x -> inputs h' x = inputs h x.
Proof. intros Dx. pose proof (fn_kept x Dx) as E. unfold inputs. destruct (fn_of h' x), (fn_of h x); simpl in E; try done. congruence. Qed.
Lemma node_kept x : D x -> is_node h' x <-> is_node h x.
Proof. intros Dx. pose proof (fn_kept x Dx) as E. unfold is_node. destruct (fn_of h' x), (fn_of h x); simpl in E; try done. Qed.
Lemma view_kept x : D x -> is_view h' x <-> is_view h x.
Proof.
  intros Dx. pose proof (fn_kept x Dx) as E. unfold is_view. destruct (fn_of h' x) as [f'|], (fn_of h x) as [f|]; simpl in E; try done.
  injection E as E1 E2. split; intros (g & Hg & Hk); apply (inj Some) in Hg as <-; eexists; (split; [done|]); congruence.
Qed.
Lemma tracked_kept x : D x -> tracked h' x <-> tracked h x.
Proof.
  intros Dx. destruct (g_rec _ _ _ G x Dx) as (r & Hr & _). destruct (ef_rec _ _ _ F x r Hr) as (r' & M1 & _ & M3 & _).
  split; intros (r1 & H1 & H2); [exists r|exists r']; split; try done; congruence.
Qed.
Lemma D_kept x : D x -> Prog.kept h h' x.
Proof. intros Dx. apply data_kept; [by left|]. destruct (g_rec _ _ _ G x Dx) as (r & Hr & _). by exists r. Qed.
Lemma below_kept u x : D u -> below h' u x <-> below h u x.
Proof. intros Du. apply (below_same D); [apply (g_in _ _ _ G)|apply inputs_kept|done]. Qed.
Lemma obeys_kept u d : D u -> obeys h u d -> obeys h' u d.
Proof.
  intros Du [H1 H2]. assert (forall x, below h u x -> D x) as HD by (intros x; apply below_D; [apply (g_in _ _ _ G)|done]). split.
  - intros x f' Hx Hf'. apply below_kept in Hx; [|done]. pose proof (HD x Hx) as Dx. pose proof (fn_kept x Dx) as E. rewrite Hf' in E.
    destruct (fn_of h x) as [f|] eqn:Hf; [|done]. simpl in E. injection E as E1 E2. rewrite E1, E2. apply (rule_kept h); [|by apply H1].
    intros y. rewrite elem_of_cons, elem_of_app. intros [->|[Hy|Hy]].
    + by apply D_kept.
    + apply D_kept. eapply (g_in _ _ _ G); [exact Dx|]. unfold inputs. by rewrite Hf.
    + apply data_kept; [right; by exists x, f|]. destruct (g_node _ _ _ G x f Dx Hf) as (Hn & _). destruct (gf_kind f) as [ | | | | | | | | |kg]; try (by apply elem_of_nil in Hy).
      apply elem_of_list_singleton in Hy as ->. destruct (gf_in f) as [|? [|]]; try done. destruct Hn as ((r & Hr & _) & _). by exists r.
  - intros x idx Hx Hn. apply below_kept in Hx; [|done]. apply H2; [done|]. intros K. apply Hn, tracked_kept; [by apply HD|done].
Qed.
Lemma derivative_kept u a i q : D u -> derivative h u a i q -> derivative h' u a i q.
Proof.
  intros Du (d & H1 & H2 & ->). assert (forall x, below h u x -> D x) as HD by (intros x; apply below_D; [apply (g_in _ _ _ G)|done]).
  exists d. split; [by apply obeys_kept|]. split; [|by rewrite (Prog.kept_shape h h' u (D_kept u Du))].
  intros x idx Hx Hn Ht. apply below_kept in Hx; [|done]. apply H2; [done|by rewrite <- node_kept by (by apply HD)|by rewrite <- tracked_kept by (by apply HD)].
Qed.
End after.

Lemma program_twice ops H T h t u : program ops H T h -> may_backward h H T t -> may_backward h H T u ->
  (forall x, below h t x -> below h u x -> x <> u -> ~ is_node h x) ->
  exists h1 h2, exec (OBackward (Some t)) h = (Ok RUnit, h1) /\ exec (OBackward (Some u)) h1 = (Ok RUnit, h2) /\
  forall a i, a ∈ H -> tracked h a -> ~ is_node h a -> in_range (shape_of h a) i ->
    exists p q, (below h t a /\ derivative h t a i p \/ ~ below h t a /\ p = 0%Qc) /\
      (below h u a /\ derivative h u a i q \/ ~ below h u a /\ q = 0%Qc) /\
      grad_value h2 a i = (grad_value h a i + p + q)%Qc.
Proof.
  intros Hp Ht Hu Hsep. pose proof (program_ready _ _ _ _ _ Hp Ht) as Hgt. pose proof (program_ready _ _ _ _ _ Hp Hu) as Hgu.
  destruct (program_facts _ _ _ _ Hp) as (Hinv & Hver & Hsz). destruct (program_GI _ _ _ _ Hp) as (D & G & HD).
  destruct (program_backward _ _ _ _ _ Hp Ht) as (h1 & E1 & Hp1 & K1). pose proof E1 as E1'. destruct (backward_run h t Hinv Hver Hsz Hgt) as (h1' & E1'' & F & _).
  assert (h1' = h1) as -> by congruence. clear E1' E1''. pose proof (HD t (mb_held _ _ _ _ Ht)) as Dt. pose proof (HD u (mb_held _ _ _ _ Hu)) as Du.
  pose proof (mb_first _ _ _ _ Ht) as HT.
  assert (forall x, below h u x -> D x) as HDu by (intros x; apply below_D; [apply (g_in _ _ _ G)|done]).
  pose proof (Prog.kept_shape _ _ _ (D_kept D T h h1 t G Dt HT F u Du)) as Esu.
  assert (may_backward h1 H (fun x => T x \/ below h t x /\ is_node h x) u) as Hu1.
  { destruct Hu as [[U1 U2 U3 U4 U5 U6] U7]. split; [split|].
    - done.
    - by apply (node_kept D T h h1 t G F).
    - by rewrite (view_kept D T h h1 t G F).
    - by rewrite Esu.
    - rewrite Esu. by rewrite (Prog.kept_lay _ _ _ (D_kept D T h h1 t G Dt HT F u Du)).
    - intros x Hx Hxu. apply (below_kept D T h h1 t G F) in Hx; [|done]. intros [Hx'|[Hx' Hn]]; [by apply (U6 x)|by apply (Hsep x)].
    - intros x f' Hx Hf' Hk. apply (below_kept D T h h1 t G F) in Hx; [|done]. pose proof (fn_kept D T h h1 t G F x (HDu x Hx)) as E. rewrite Hf' in E.
      destruct (fn_of h x) as [f|] eqn:Hf; [|done]. simpl in E. injection E as E2 E3. apply (U7 x f); [done|done|congruence]. }
  destruct (program_backward _ _ _ _ _ Hp1 Hu1) as (h2 & E2 & _ & K2). exists h1, h2. split; [done|]. split; [done|]. intros a i Ha Ta Na Hi. pose proof (HD a Ha) as Da.
  assert (~ is_node h1 a) as Na1 by (by rewrite (node_kept D T h h1 t G F)). assert (tracked h1 a) as Ta1 by (by rewrite (tracked_kept D T h h1 t G F)).
  assert (in_range (shape_of h1 a) i) as Hi1 by (by rewrite (Prog.kept_shape _ _ _ (D_kept D T h h1 t G Dt HT F a Da))).
  assert (exists p, (below h t a /\ derivative h t a i p \/ ~ below h t a /\ p = 0%Qc) /\ grad_value h1 a i = (grad_value h a i + p)%Qc) as (p & Hp1' & Ep).
  { destruct (below_em h t a Hinv Hver (mb_node _ _ _ _ Ht)) as [Hb|Hb].
    - destruct (K1 a i Hb Na Ta Hi) as (p & P1 & _ & P2). exists p. split; [by left|done].
    - exists 0%Qc. split; [by right|]. rewrite (program_other _ _ _ _ _ _ a i Hp Ht E1 Ha Na Hb). ring. }
  assert (exists q, (below h u a /\ derivative h u a i q \/ ~ below h u a /\ q = 0%Qc) /\ grad_value h2 a i = (grad_value h1 a i + q)%Qc) as (q & Hq1 & Eq).
  { destruct (below_em h u a Hinv Hver (mb_node _ _ _ _ Hu)) as [Hb|Hb].
    - assert (below h1 u a) as Hb1 by (by apply (below_kept D T h h1 t G F)). destruct (K2 a i Hb1 Na1 Ta1 Hi1) as (q & Q1 & Q2 & Q3). exists q. split; [left; split; [done|]|done].
      destruct (derivative_exists h u a i Hinv Hgu) as [q' Hq']. rewrite <- (Q2 q'); [done|]. by apply (derivative_kept D T h h1 t G Dt HT F).
    - exists 0%Qc. split; [by right|]. assert (~ below h1 u a) as Hb1 by (by rewrite (below_kept D T h h1 t G F)).
      rewrite (program_other _ _ _ _ _ _ a i Hp1 Hu1 E2 Ha Na1 Hb1). ring. }
  exists p, q. split; [done|]. split; [done|]. by rewrite Eq, Ep.
Qed.

Lemma program_direction ops H T h t : program ops H T h -> may_backward h H T t ->
  exists h', exec (OBackward (Some t)) h = (Ok RUnit, h') /\
    (forall e : tangent, exists d, obeys h t d /\ forall x idx, ~ is_node h x -> tracked h x -> d x idx = e x idx) /\
    (exists ls, leaves h t ls) /\
    forall d ls, obeys h t d -> leaves h t ls -> pairing h' ls d = (pairing h ls d + sum_over (shape_of h t) (d t))%Qc.
Proof.
  intros Hp Hb. pose proof (program_ready _ _ _ _ _ Hp Hb) as Hgr. destruct (program_facts _ _ _ _ Hp) as (Hinv & Hver & Hsz).
  destruct (backward_plain h t Hinv Hver Hsz Hgr (mb_no_means _ _ _ _ Hb)) as (h' & E & _ & K). exists h'. split; [done|]. split; [intros e; by apply tangent_exists|].
  split; [apply leaves_exist; [done|done|apply Hb]|done].
Qed.
