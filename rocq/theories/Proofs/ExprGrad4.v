(** Gradients of expressions: the values of the graph are those of the expression. *)
From Verif.Proofs Require Export ExprGrad3.
From Verif.Model Require Export Exact Api.
#[local] Existing Instance Exact.

Lemma occurs_dec e a : {occurs e a} + {~ occurs e a}.
Proof. induction e; cbn [occurs]; try done; try (by apply Nat.eq_dec); destruct IHe1, IHe2; tauto. Qed.
Lemma arr_facts h x A : has_arr h x A -> shape_of h x = a_ss A /\ (forall idx, in_range (a_ss A) idx -> value h x idx = num (a_v A idx)) /\ (tracked h x <-> a_rg A = true).
Proof.
  intros (r & [Hr Hv] & _ & Hs & Hg). rewrite (shape_rec _ _ _ Hr). split; [done|]. split.
  - intros idx Hi. eapply holds_value; [done|done|by rewrite Hs].
  - rewrite <- Hg. split; [intros (r' & Hr' & E); congruence|intros E; by exists r].
Qed.
Lemma table_some D ss rg f : (forall idx, in_range ss idx -> f idx <> None) ->
  exists A, table D ss rg f = Some A /\ a_dt A = D /\ a_ss A = ss /\ a_rg A = rg /\ forall idx, in_range ss idx -> f idx = Some (a_v A idx).
Proof.
  intros Hf. destruct (table D ss rg f) as [A|] eqn:E; [exists A; split; [done|by apply table_spec]|]. apply table_none in E as (idx & Hi & Hn). by destruct (Hf idx Hi).
Qed.
Lemma below_cases h x y : below h x y -> y = x \/ exists z, z ∈ inputs h x /\ below h z y.
Proof.
  intros Hb. induction Hb as [|y z Hy [->|(u & Hu & Hb)] Hz]; [by left|right|right].
  - exists z. split; [done|constructor].
  - exists u. split; [done|by eapply below_in].
Qed.

Section sem.
Context (h0 : heap) (env : nat -> option array) (h : heap).
Hypothesis Hfl : forall x r, h_ten h !! x = Some r -> t_rg r = true -> floating (t_dt r) = true.
Hypothesis Hlv : forall t A, env t = Some A -> has_arr h t A.

Ltac inv1 E A EA := cbn [den] in E; destruct (den env _) as [A|] eqn:EA in E; [cbn [bind1] in E|done].
Ltac inv2 E A B EA EB := cbn [den] in E; destruct (den env _) as [A|] eqn:EA in E; [|done]; destruct (den env _) as [B|] eqn:EB in E; [cbn [bind1 bind2] in E|done].
(** ** tracking *)
Lemma occurs_tracked a B : env a = Some B -> a_rg B = true -> forall e A, smooth env e -> occurs e a -> den env e = Some A -> a_rg A = true.
Proof.
  intros Ea Ga. induction e as [t|o p IHp q IHq|c p IHp q IHq|p IHp|p IHp D|p IHp|p IHp|p IHp|p IHp d0 d1|p IHp s xs|p IHp xs ss|p IHp q IHq d]; intros A Hs Ho EA; cbn [smooth occurs] in *.
  - cbn [den] in EA. subst t. congruence.
  - destruct Hs as (S1 & S2 & _). inv2 EA P P2 EP EP2. apply table_spec in EA as (_ & _ & -> & _). apply orb_true_iff. destruct Ho as [Ho|Ho]; [left; by apply IHp|right; by apply IHq].
  - destruct Hs as (S1 & S2 & S3). inv2 EA P P2 EP EP2. destruct (S3 P P2 EP EP2). destruct Ho as [Ho|Ho]; [rewrite (IHp P) in *; done|rewrite (IHq P2) in *; done].
  - inv1 EA P EP. apply table_spec in EA as (_ & _ & -> & _). by apply IHp.
  - inv1 EA P EP. apply table_spec in EA as (_ & _ & -> & _). by apply IHp.
  - by apply IHp.
  - inv1 EA P EP. unfold d_sum in EA. destruct (array_sum _ _ _); [|done]. injection EA as <-. by apply (IHp P).
  - destruct Hs as [S1 S2]. inv1 EA P EP. pose proof (S2 P EP) as S3. cbv beta in S3. rewrite (IHp P) in S3; done.
  - inv1 EA P EP. injection EA as <-. by apply (IHp P).
  - inv1 EA P EP. injection EA as <-. by apply (IHp P).
  - destruct Hs as [S1 _]. inv1 EA P EP. injection EA as <-. by apply (IHp P).
  - destruct Hs as [S1 S2]. inv2 EA P P2 EP EP2. apply table_spec in EA as (_ & _ & -> & _). apply orb_true_iff. destruct Ho as [Ho|Ho]; [left; by apply IHp|right; by apply IHq].
Qed.
Lemma den_other a i s e : ~ occurs e a -> den (nudge env a i s) e = den env e.
Proof.
  induction e; cbn [occurs den]; intros Hn; rewrite ?IHe, ?IHe1, ?IHe2 by tauto; try done.
  unfold nudge. destruct (env t); [|done]. by rewrite decide_False.
Qed.
Lemma grown_untracked e : smooth env e -> forall x, grown h0 env h e x -> ~ tracked h x -> ~ is_node h x.
Proof.
  assert (forall x k ins, nodeat h x k ins -> ~ tracked h x -> ~ is_node h x) as Hnd. { intros x k ins Hx Ht [f Hf]. by rewrite (nodeat_untracked h x k ins Hx Ht) in Hf. }
  induction e as [t|o p IHp q IHq|c p IHp q IHq|p IHp|p IHp D|p IHp|p IHp|p IHp|p IHp d0 d1|p IHp s xs|p IHp xs ss|p IHp q IHq d]; intros Hs x [_ Hx] Ht; cbn [smooth] in Hs.
  - by destruct Hx as [-> ?].
  - destruct Hx as (y & z & _ & _ & _ & Nd). by eapply Hnd.
  - done.
  - destruct Hx as (z & y & _ & _ & Nd & _). by eapply Hnd.
  - destruct Hx as (y & Gy & [->|[_ Nd]]); [by apply IHp|by eapply Hnd].
  - destruct Hx as (y & _ & _ & Nd). by eapply Hnd.
  - destruct Hx as (y & _ & _ & Nd). by eapply Hnd.
  - destruct Hx as (y & _ & _ & Nd). by eapply Hnd.
  - destruct Hx as (y & _ & _ & Nd & _). by eapply Hnd.
  - destruct Hx as (y & _ & _ & Nd & _). by eapply Hnd.
  - destruct Hx as (y & m & _ & _ & _ & _ & Nd & _). by eapply Hnd.
  - destruct Hx as (y & z & _ & _ & _ & Nd). by eapply Hnd.
Qed.
(** ** the nodes *)
Definition clause (x : nat) (f : gradfn) : Prop :=
  h_ten h0 !! x = None /\ gf_kind f <> MeanBack /\
  match gf_kind f, gf_in f with
  | DivBack, [a; b] => forall idx, in_range (shape_of h b) idx -> value h b idx <> 0%Qc
  | KnownGradBack _, [a] => False
  | _, _ => True
  end.
Lemma inputs_of x k ins y : nodeat h x k ins -> y ∈ inputs h x -> y ∈ ins.
Proof.
  intros Nd Hy. unfold inputs in Hy. destruct (fn_of h x) as [f|] eqn:Ef; [|by apply elem_of_nil in Hy]. destruct (nodeat_fn h x k ins f Nd Ef) as [_ <-]. done.
Qed.
Lemma node_tracked x k ins f : nodeat h x k ins -> fn_of h x = Some f -> tracked h x.
Proof. intros (r & Hr & Hf & _) E. exists r. split; [done|]. unfold fn_of in E. rewrite Hr, Hf in E. by destruct (t_rg r). Qed.
Lemma leaf_below x y : ~ is_node h x -> below h x y -> y = x.
Proof.
  intros N [->|(z & Hz & _)]%below_cases; [done|]. unfold inputs in Hz. destruct (fn_of h x) as [f|] eqn:Ef; [destruct N; by exists f|by apply elem_of_nil in Hz].
Qed.
Lemma clauses x k ins : nodeat h x k ins -> h_ten h0 !! x = None -> k <> MeanBack -> k <> DivBack -> (forall kg, k <> KnownGradBack kg) ->
  (forall z, z ∈ ins -> forall y f, below h z y -> fn_of h y = Some f -> clause y f) -> forall y f, below h x y -> fn_of h y = Some f -> clause y f.
Proof.
  intros Nd N0 N1 N2 N3 IH y f [->|(z & Hz & Hb)]%below_cases Hf; [|eapply IH; [by eapply inputs_of|done|done]].
  destruct (nodeat_fn h x k ins f Nd Hf) as [Ek _]. split; [done|]. rewrite Ek. split; [done|]. destruct k as [| | | | | | | | |kg]; try done. by destruct (N3 kg).
Qed.
Lemma grown_nodes e : smooth env e -> forall x, grown h0 env h e x -> forall y f, below h x y -> fn_of h y = Some f -> clause y f.
Proof.
  induction e as [t|o p IHp q IHq|c p IHp q IHq|p IHp|p IHp D|p IHp|p IHp|p IHp|p IHp d0 d1|p IHp s xs|p IHp xs ss|p IHp q IHq d]; intros Hs x Hx; pose proof (grown_arr _ _ _ _ _ Hx) as (A & EA & HA); destruct Hx as [_ Hx]; cbn [smooth] in Hs.
  - destruct Hx as [-> N]. intros y f Hb Hf. rewrite (leaf_below _ _ N Hb) in Hf. destruct N. by exists f.
  - destruct Hs as (S1 & S2 & S3). destruct Hx as (y & z & Gy & Gz & N & Nd). assert (forall w, w ∈ [y; z] -> forall u f, below h w u -> fn_of h u = Some f -> clause u f) as IH.
    { intros w [->| ->%elem_of_list_singleton]%elem_of_cons u f; [by apply IHp|by apply IHq]. }
    assert (o = ADiv \/ o <> ADiv) as [->|Ho] by (destruct o; [by right..|by left]); [|eapply clauses; try done; by destruct o].
    intros u f [->|(w & Hw & Hb)]%below_cases Hf; [|eapply IH; [by eapply inputs_of|done|done]].
    destruct (nodeat_fn h x _ _ f Nd Hf) as [Ek Ei]. split; [done|]. rewrite Ek, Ei. split; [done|].
    pose proof (grown_arr _ _ _ _ _ Gy) as (P & EP & HP). pose proof (grown_arr _ _ _ _ _ Gz) as (Q & EQ & HQ). destruct (arr_facts h z Q HQ) as (Sz & Vz & _).
    cbn [back_of]. rewrite Sz. intros idx Hi. rewrite Vz by done. destruct (S3 eq_refl P Q EP EQ) as (_ & _ & _ & K); [|by apply K].
    destruct (arr_facts h x A HA) as (_ & _ & Tx). pose proof (node_tracked _ _ _ _ Nd Hf) as Tr. apply Tx in Tr. cbn [den] in EA. rewrite EP, EQ in EA. cbn [bind1 bind2] in EA. apply table_spec in EA as (_ & _ & Er & _). congruence.
  - intros y f Hb Hf. rewrite (leaf_below _ _ Hx Hb) in Hf. destruct Hx. by exists f.
  - destruct Hx as (z & y & Gy & N & Nd & Hz & Nz). eapply clauses; try done. intros w [->| ->%elem_of_list_singleton]%elem_of_cons u f.
    + intros Hb Hf. rewrite (leaf_below _ _ Nz Hb) in Hf. destruct Nz. by exists f.
    + by apply IHp.
  - destruct Hx as (y & Gy & [->|[N Nd]]); [by apply IHp|]. eapply clauses; try done. intros w ->%elem_of_list_singleton. by apply IHp.
  - destruct Hx as (y & Gy & N & Nd). eapply clauses; try done. intros w ->%elem_of_list_singleton. by apply IHp.
  - destruct Hx as (y & Gy & N & Nd). eapply clauses; try done. intros w ->%elem_of_list_singleton. by apply IHp.
  - destruct Hs as [S1 S2]. destruct Hx as (y & Gy & N & Nd). pose proof (grown_arr _ _ _ _ _ Gy) as (P & EP & HP). specialize (S2 P EP).
    assert (~ is_node h x) as Nx. { intros [f Hf]. destruct (arr_facts h x A HA) as (_ & _ & Tx). pose proof (node_tracked _ _ _ _ Nd Hf) as Tr. apply Tx in Tr. cbn [den] in EA. rewrite EP in EA. cbn [bind1] in EA. unfold d_mean in EA. destruct (array_mean _ _ _); [|done]. injection EA as <-. cbn in Tr. congruence. }
    intros u f Hb Hf. rewrite (leaf_below _ _ Nx Hb) in Hf. destruct Nx. by exists f.
  - destruct Hx as (y & Gy & N & Nd & _). eapply clauses; try done. intros w ->%elem_of_list_singleton. by apply IHp.
  - destruct Hx as (y & Gy & N & Nd & _). eapply clauses; try done. intros w ->%elem_of_list_singleton. by apply IHp.
  - destruct Hx as (y & m & Gy & N & Nm & R). destruct Hs as [S1 _]. destruct R as (Hm & Nd & _). eapply clauses; try done. intros w ->%elem_of_list_singleton.
    destruct Hm as [->|[Nd' _]]; [by apply IHp|]. destruct Nm as [->|Nm]; [by apply IHp|]. eapply clauses; try done. intros w ->%elem_of_list_singleton. by apply IHp.
  - destruct Hs as [S1 S2]. destruct Hx as (y & z & Gy & Gz & N & Nd). eapply clauses; try done. intros w [->| ->%elem_of_list_singleton]%elem_of_cons; [by apply IHp|by apply IHq].
Qed.
(** ** the leaves *)
Lemma grown_leaf a B : env a = Some B -> a_rg B = true -> forall e, smooth env e -> occurs e a -> forall x, grown h0 env h e x -> below h x a.
Proof.
  intros Ea Ga. assert (forall e x, smooth env e -> occurs e a -> grown h0 env h e x -> tracked h x) as Htr.
  { intros e x Hs Ho (A & EA & HA)%grown_arr. apply (arr_facts h x A HA). by eapply occurs_tracked. }
  assert (forall x k ins y, tracked h x -> nodeat h x k ins -> y ∈ ins -> below h y a -> below h x a) as Hst.
  { intros x k ins y Tx Nd Hy Hb. apply (below_step h x y); [|done]. unfold inputs. by rewrite (nodeat_tracked _ _ _ _ Nd Tx). }
  induction e as [t|o p IHp q IHq|c p IHp q IHq|p IHp|p IHp D|p IHp|p IHp|p IHp|p IHp d0 d1|p IHp s xs|p IHp xs ss|p IHp q IHq d]; intros Hs Ho x Hx; pose proof (Htr _ x Hs Ho Hx) as Tx;
    pose proof (grown_arr _ _ _ _ _ Hx) as (A & EA & HA); destruct Hx as [_ Hx]; cbn [smooth occurs] in Hs, Ho.
  - destruct Hx as [-> _]. subst t. constructor.
  - destruct Hs as (S1 & S2 & S3). destruct Hx as (y & z & Gy & Gz & N & Nd). destruct Ho as [Ho|Ho]; [apply (Hst x _ _ y Tx Nd); [mem|by apply IHp]|apply (Hst x _ _ z Tx Nd); [mem|by apply IHq]].
  - cbn [den] in EA. destruct (den env p) as [P|]; [|done]. destruct (den env q) as [Q|]; [|done]. cbn in EA. injection EA as <-. apply (arr_facts h x _ HA) in Tx. done.
  - destruct Hx as (z & y & Gy & N & Nd & _). apply (Hst x _ _ y Tx Nd); [mem|by apply IHp].
  - destruct Hx as (y & Gy & [->|[N Nd]]); [by apply IHp|]. apply (Hst x _ _ y Tx Nd); [mem|by apply IHp].
  - destruct Hx as (y & Gy & N & Nd). apply (Hst x _ _ y Tx Nd); [mem|by apply IHp].
  - destruct Hx as (y & Gy & N & Nd). apply (Hst x _ _ y Tx Nd); [mem|by apply IHp].
  - destruct Hs as [S1 _]. destruct Hx as (y & Gy & N & Nd). apply (Hst x _ _ y Tx Nd); [mem|by apply IHp].
  - destruct Hx as (y & Gy & N & Nd & _). apply (Hst x _ _ y Tx Nd); [mem|by apply IHp].
  - destruct Hx as (y & Gy & N & Nd & _). apply (Hst x _ _ y Tx Nd); [mem|by apply IHp].
  - destruct Hs as [S1 _]. destruct Hx as (y & m & Gy & N & Nm & Hm & Nd & _ & Tr). destruct (Tr Tx) as [Tm Ty]. apply (Hst x _ _ m Tx Nd); [mem|].
    destruct Hm as [->|[Nd' _]]; [by apply IHp|]. apply (Hst m _ _ y Tm Nd'); [mem|by apply IHp].
  - destruct Hs as (S1 & S2). destruct Hx as (y & z & Gy & Gz & N & Nd). destruct Ho as [Ho|Ho]; [apply (Hst x _ _ y Tx Nd); [mem|by apply IHp]|apply (Hst x _ _ z Tx Nd); [mem|by apply IHq]].
Qed.
End sem.
