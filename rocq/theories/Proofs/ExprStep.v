(** One step of gradient descent on an expression. *)
From Verif.Proofs Require Export ExprGrad6 StoAll.
From Verif.Spec Require Export ExprStep.
From Verif.Model Require Export Exact Api.
#[local] Existing Instance Exact.

Lemma run_prefix ops1 : forall h ops2 rs1 rs h1 h2, run h ops1 = (Ok rs1, h1) -> run h (ops1 ++ ops2) = (Ok rs, h2) -> exists rs2, run h1 ops2 = (Ok rs2, h2).
Proof.
  induction ops1 as [|o ops IH]; intros h ops2 rs1 rs h1 h2 E1 E2; cbn [run app] in *.
  - injection E1 as <- <-. by exists rs.
  - destruct (exec o h) as [x h'] eqn:E. destruct x; try done; destruct (run h' ops) as [[?| | |] h''] eqn:Er; try done; destruct (run h' (ops ++ ops2)) as [[?| | |] h3] eqn:Er2; try done;
      injection E1 as <- <-; injection E2 as <- <-; by eapply IH.
Qed.
Lemma program_rs ops l H T h H' T' h' : program ops H T h -> program (ops ++ l) H' T' h' -> rs (h_sto h) (h_sto h').
Proof.
  intros Hp Hp'. destruct (program_run _ _ _ _ Hp) as (_ & rs1 & E1). destruct (program_run _ _ _ _ Hp') as (_ & rs2 & E2).
  destruct (run_prefix _ _ _ _ _ _ _ E1 E2) as [rs3 E3]. by eapply run_rs.
Qed.
Lemma roomy_later h h' r r' : Forall sok (h_sto h) -> rs (h_sto h) (h_sto h') -> same_data r r' -> (exists cs, backed h' r' cs) -> roomy h r -> roomy h' r'.
Proof.
  intros Hsok [R _] (D1 & D2 & D3) [cs' Hb] Hro Hpos. unfold shape, small_strides in *. rewrite <- D2 in *. destruct (Hro Hpos) as (H1 & H2 & cs & (((b & Hs) & _) & Hlen)).
  split; [done|]. split; [done|]. exists cs'. split; [done|]. destruct Hb as ((b' & Hs') & _). destruct (R _ _ Hs) as (x' & Hx' & _ & _ & L). rewrite D3 in Hx'. assert (x' = Sto (t_dt r') b' (Some cs')) as -> by congruence.
  destruct (L cs' eq_refl) as [(cs0 & E0 & ->)|E]; [injection E0 as <-; done|]. cbn [sto_bytes sto_ty] in E.
  pose proof (Forall_lookup_1 _ _ _ _ Hsok Hs) as [Hr Hc]. cbn [sto_bytes sto_ty sto_blob] in Hr, Hc. lia.
Qed.
Lemma expr_step ops H T h env e A c C ls : program ops H T h -> (forall x, x ∈ H -> ~ is_node h x) -> leaves_ok h env -> leaves_held h H env -> accepted env e -> smooth_root env e ->
  den env e = Some A -> a_rg A = true -> size_prod (a_ss A) = 1 -> env c = Some C -> may_step h H env e c ls -> no_gradients h ls ->
  exists l t h1 h2 u h3 env', Spec.Expr.eval e h = (Ok t, h1) /\ has_arr h1 t A /\ exec (OBackward (Some t)) h1 = (Ok RUnit, h2) /\ updated c h2 ls u h3 /\
    program (ops ++ l ++ OBackward (Some t) :: u) H none h3 /\ (forall x, x ∈ H -> ~ is_node h3 x) /\
    descends env e C ls env' /\ leaves_ok h3 env' /\ leaves_held h3 H env' /\ may_step h3 H env' e c ls /\ no_gradients h3 ls.
Proof.
  intros Hp Hlf L LH Hac Hs EA Hg H1 EC [Hnd Hls] Hz. pose proof (proj1 (leaves_is h env) L) as L'.
  destruct (expr_root ops H T h env e A Hp L LH Hac Hs EA Hg H1) as (l & t & h1 & h2 & H' & Ev & HA & Hp1 & Sub & K & Kp & Hb & E2 & Hp2 & Hbel & Hsl).
  destruct (program_GI _ _ _ _ Hp) as (D & G & HD).
  assert (forall x, x ∈ H -> exists r r1, h_ten h !! x = Some r /\ h_ten h1 !! x = Some r1 /\ same_data r r1 /\ t_rg r1 = t_rg r /\ t_fn r1 = t_fn r) as Hrec.
  { intros x Hx. destruct (g_rec _ _ _ G x (HD x Hx)) as (r & Hr & _). destruct (K x r Hr) as (r1 & Hr1 & D1 & D2 & D3 & _). by exists r, r1. }
  assert (forall x, x ∈ H -> ~ is_node h1 x) as Hlf1.
  { intros x Hx [f Hf]. apply (Hlf x Hx). exists f. destruct (Hrec x Hx) as (r & r1 & Hr & Hr1 & _ & _ & E). unfold fn_of in *. rewrite Hr. rewrite Hr1 in Hf. congruence. }
  assert (forall x, x ∈ H -> shape_of h1 x = shape_of h x) as Hsh.
  { intros x Hx. destruct (Hrec x Hx) as (r & r1 & Hr & _). by eapply shape_stays. }
  assert (forall a b, a ∈ H -> b ∈ H -> apart h a b -> apart h1 a b) as Hap.
  { intros a b Ha Hb' Hab rx ry Hx Hy. destruct (Hrec a Ha) as (ra & ra1 & Ra & Ra1 & (_ & _ & Da) & _). destruct (Hrec b Hb') as (rb & rb1 & Rb & Rb1 & (_ & _ & Db) & _).
    pose proof (Hab ra rb Ra Rb). congruence. }
  assert (forall a, a ∈ ls -> a ∈ H /\ c ∈ H /\ c <> a /\ exists B, env a = Some B /\ a_rg B = true) as Hin.
  { intros a Ha. destruct (Hls a Ha) as (Ea & _ & (ra & rc & [A1 A2] & _ & A3 & [A4 A5] & A6 & _) & _). split; [done|]. split; [done|]. split; [intros ->; congruence|].
    destruct (env a) as [B|] eqn:EB; [|done]. exists B. split; [done|]. destruct (L a B EB) as ((r & [Hr _] & _ & _ & <-) & _). congruence. }
  destruct (descend _ H' T h1 t c ls H Hp1 Hb Hnd) as (h2' & u & h3 & E2' & U & P3 & V & O & R).
  { intros x Hx. auto. }
  { intros a Ha. destruct (Hin a Ha) as (HaH & HcH & Hne & B & EB & GB). destruct (Hls a Ha) as (_ & Ho & (ra & rc & [A1 A2] & A0 & A3 & [A4 A5] & A6 & A7 & A8 & A9 & A10) & N).
    split; [|split; [by eapply Hbel|split; [apply Hap; auto|]]].
    - destruct (Hrec a HaH) as (ra' & ra1 & Ra & Ra1 & (Da1 & Da2 & Da3) & Da4 & _). destruct (Hrec c HcH) as (rc' & rc1 & Rc & Rc1 & (Dc1 & Dc2 & Dc3) & Dc4 & _).
      assert (ra' = ra) as -> by congruence. assert (rc' = rc) as -> by congruence. exists ra1, rc1. unfold at_hand, shape in *. rewrite <- Da1, <- Da2, <- Dc1, <- Dc2, Da4, Dc4. split_and!; auto.
    - intros b Hb' Hne'. destruct (Hin b Hb') as [HbH _]. apply Hap; auto. }
  assert (h2' = h2) as -> by congruence. clear E2'.
  assert (forall x, x ∈ H -> exists r r3, h_ten h !! x = Some r /\ h_ten h3 !! x = Some r3 /\ same_data r r3 /\ t_rg r3 = t_rg r /\ ~ is_node h3 x) as Hrec3.
  { intros x Hx. destruct (Hrec x Hx) as (r & r1 & Hr & Hr1 & (X1 & X2 & X3) & X4 & _). destruct (R x r1 Hx Hr1) as (r3 & Hr3 & (Y1 & Y2 & Y3) & Y4 & Y5). exists r, r3.
    split; [done|]. split; [done|]. split; [split; [congruence|split; congruence]|]. split; [congruence|done]. }
  assert (forall x, x ∈ H -> shape_of h3 x = shape_of h x) as Hsh3.
  { intros x Hx. destruct (Hrec3 x Hx) as (r & r3 & Hr & Hr3 & (_ & X2 & _) & _). unfold shape_of, lay_of. by rewrite Hr, Hr3, X2. }
  assert (program (ops ++ l ++ OBackward (Some t) :: u) H none h3) as P3'. { rewrite app_assoc. exact P3. }
  destruct (program_GI _ _ _ _ P3) as (D3 & G3 & HD3).
  set (env' := fun x => match env x with Some B => match h_ten h3 !! x with Some r => Some (Arr (a_dt B) (a_ss B) (a_rg B) (contents h3 r)) | None => None end | None => None end).
  assert (forall x B, env x = Some B -> exists r r3, x ∈ H /\ h_ten h !! x = Some r /\ h_ten h3 !! x = Some r3 /\ same_data r r3 /\ env' x = Some (Arr (a_dt B) (a_ss B) (a_rg B) (contents h3 r3)) /\ tensor_at h3 x r3 (contents h3 r3) /\ t_dt r3 = a_dt B /\ shape r3 = a_ss B /\ t_rg r3 = a_rg B) as Henv.
  { intros x B EB. destruct (LH x B EB) as [Hx _]. destruct (Hrec3 x Hx) as (r & r3 & Hr & Hr3 & (X1 & X2 & X3) & X4 & _). exists r, r3. split; [done|]. split; [done|]. split; [done|]. split; [done|]. split; [unfold env'; by rewrite EB, Hr3|].
    destruct (g_rec _ _ _ G3 x (HD3 x Hx)) as (r' & Hr' & Hh & _). assert (r' = r3) as -> by congruence. destruct (L x B EB) as ((r0 & [Hr0 _] & T1 & T2 & T3) & _). assert (r0 = r) as -> by congruence.
    split; [done|]. unfold shape in *. rewrite <- X1, <- X2, X4. done. }
  exists l, t, h1, h2, u, h3, env'. split; [done|]. split; [done|]. split; [done|]. split; [done|]. split; [done|]. split; [intros x Hx; by destruct (Hrec3 x Hx) as (? & ? & _ & _ & _ & _ & ?)|].
  assert (forall x i B, env x = Some B -> in_range (a_ss B) i -> value h1 x i = num (a_v B i)) as Hv1.
  { intros x i B EB Hi. destruct (arr_facts h1 x B) as (_ & Hv & _); [|by apply Hv]. eapply keeps_has; [done|]. eapply is_has. by apply L'. }
  split; [|split; [|split; [|split]]].
  - intros x. destruct (env x) as [B|] eqn:EB; [|unfold env'; by rewrite EB]. destruct (Henv x B EB) as (r & r3 & Hx & Hr & Hr3 & SD & -> & Hat & _ & Es & _). cbn [a_dt a_ss a_rg a_v]. split; [done|]. split; [done|]. split; [done|].
    intros i Hi. assert (shape_of h1 x = a_ss B) as Sx. { rewrite (Hsh x Hx), <- (Hsh3 x Hx), <- Es. by apply shape_rec. }
    assert (num (contents h3 r3 i) = value h3 x i) as ->. { unfold value. by rewrite Hr3. }
    case_decide as Hl.
    + destruct (Hin x Hl) as (_ & HcH & _ & B' & EB' & GB). assert (B' = B) as -> by congruence. destruct (V x i Hl) as (q & Hq & _ & Vq & _); [by rewrite Sx|].
      exists (grad_value h2 x i - grad_value h x i)%Qc. split; [by eapply Hsl|]. rewrite Vq, (Hv1 x i B EB Hi).
      destruct (program_backward _ _ _ _ _ Hp1 Hb) as (h2' & E2' & _ & Hd). assert (h2' = h2) as -> by congruence. destruct (Hls x Hl) as (_ & Ho & (ra & rc & [A1 A2] & A0 & A3 & [A4 A5] & A6 & A7 & A8 & A9 & A10) & N).
      destruct (Hd x i) as (q' & Hq' & Hu & ->); [by eapply Hbel|by apply Hlf1| |by rewrite Sx|].
      { destruct (Hrec x Hx) as (r0 & r1 & Hr0 & Hr1 & _ & E & _). exists r1. split; [done|]. assert (r0 = ra) as -> by congruence. congruence. }
      assert (q = q') as -> by (by apply Hu). rewrite (stays_grad _ _ _ _ _ x i Hp K Hx (Hlf x Hx)). rewrite (Hz x i Hl) by (by rewrite <- (Hsh x Hx), Sx).
      assert (shape_of h1 c = a_ss C) as Sc. { destruct (arr_facts h1 c C) as (Hc & _); [|done]. eapply keeps_has; [done|]. eapply is_has. by apply L'. }
      rewrite Sc. rewrite (Hv1 c _ C EC); [ring|]. destruct (L c C EC) as ((rc0 & [Rc0 _] & _ & Hcs & _) & _). assert (rc0 = rc) as -> by congruence. rewrite <- Hcs. eapply bidx_in_r; [exact A7|]. rewrite A9.
      destruct (L x B EB) as ((rx0 & [Rx0 _] & _ & Hxs & _) & _). assert (rx0 = ra) as -> by congruence. by rewrite Hxs.
    + rewrite O; [by apply Hv1|done|]. intros a Ha. destruct (Hin a Ha) as [HaH _]. apply Hap; [done|done|]. apply (Hls a Ha); [done|by intros ->].
  - intros x B'. destruct (env x) as [B|] eqn:EB; [|unfold env'; by rewrite EB]. destruct (Henv x B EB) as (r & r3 & Hx & Hr & Hr3 & SD & -> & Hat & E1 & E2' & E3). intros E. apply (inj Some) in E as <-. split; [by exists r3|].
    intros r' Hr'. assert (r' = r3) as -> by congruence. eapply (roomy_later h); [|by eapply program_rs|exact SD|apply Hat|by apply (L x B EB)].
    apply reachable_sok. destruct (program_run _ _ _ _ Hp) as (_ & rs1 & Er). by exists ops, rs1.
  - intros x B' E. destruct (env x) as [B|] eqn:EB; [|unfold env' in E; by rewrite EB in E]. destruct (LH x B EB) as [Hx _]. split; [done|]. by destruct (Hrec3 x Hx) as (? & ? & _ & _ & _ & _ & ?).
  - split; [done|]. intros a Ha. destruct (Hin a Ha) as (HaH & HcH & _ & B & EB & _). destruct (Henv a B EB) as (r0 & r30 & _ & _ & _ & _ & -> & _). split; [done|].
    destruct (Hls a Ha) as (_ & Ho & (ra & rc & [A1 A2] & A0 & A3 & [A4 A5] & A6 & A7) & N). split; [done|].
    destruct (Hrec3 a HaH) as (ra' & ra3 & Ra & Ra3 & (Da1 & Da2 & Da3) & Da4 & Dn). destruct (Hrec3 c HcH) as (rc' & rc3 & Rc & Rc3 & (Dc1 & Dc2 & Dc3) & Dc4 & _).
    assert (ra' = ra) as -> by congruence. assert (rc' = rc) as -> by congruence. split.
    + exists ra3, rc3. unfold at_hand, shape in *. rewrite <- Da1, <- Da2, <- Dc1, <- Dc2, Da4, Dc4. split_and!; auto; apply A7.
    + intros b Hb' Hne rx ry Hx Hy. destruct (Hrec3 b Hb') as (rb & rb3 & Rb & Rb3 & (_ & _ & Db) & _). pose proof (N b Hb' Hne rb ra Rb Ra). congruence.
  - intros a i Ha Hi. destruct (Hin a Ha) as (HaH & _). rewrite (Hsh3 a HaH) in Hi. destruct (V a i Ha) as (q & _ & _ & _ & Z); [by rewrite Hsh|done].
Qed.

(** ** rounds *)
(** type, shape and tracking *)
Definition alike (A B : array) : Prop := a_dt A = a_dt B /\ a_ss A = a_ss B /\ a_rg A = a_rg B.
Definition alike_env (env env' : nat -> option array) : Prop :=
  forall t, match env t, env' t with Some A, Some A' => alike A' A | None, None => True | _, _ => False end.
Lemma descends_alike env e C ls env' : descends env e C ls env' -> alike_env env env'.
Proof. intros H t. specialize (H t). destruct (env t), (env' t); try done. destruct H as (? & ? & ? & _). done. Qed.
Lemma table_sig D ss rg f A : table D ss rg f = Some A -> a_dt A = D /\ a_ss A = ss /\ a_rg A = rg.
Proof. unfold table. destruct (forallb _ _); [|done]. by intros [= <-]. Qed.
Lemma on1_alike env env' a A (P : array -> Prop) : den env a = Some A -> (forall A', den env' a = Some A' -> alike A' A) -> (forall A', alike A' A -> P A -> P A') -> on1 env a P -> on1 env' a P.
Proof. intros E H HP K A' E'. apply HP; [by apply H|]. by apply K. Qed.
Lemma on2_alike env env' a b A B (P : array -> array -> Prop) : den env a = Some A -> den env b = Some B -> (forall A', den env' a = Some A' -> alike A' A) -> (forall B', den env' b = Some B' -> alike B' B) ->
  (forall A' B', alike A' A -> alike B' B -> P A B -> P A' B') -> on2 env a b P -> on2 env' a b P.
Proof. intros E E' H H' HP K A' B' EA EB. apply HP; [by apply H|by apply H'|]. by apply K. Qed.
Ltac alike1 := let A' := fresh "A'" in let X1 := fresh in let X2 := fresh in let X3 := fresh in intros A' (X1 & X2 & X3); rewrite ?X1, ?X2, ?X3; done.
Ltac alike2 := let A' := fresh "A'" in let B' := fresh "B'" in let X1 := fresh in let X2 := fresh in let X3 := fresh in let Y1 := fresh in let Y2 := fresh in let Y3 := fresh in
  intros A' B' (X1 & X2 & X3) (Y1 & Y2 & Y3); rewrite ?X1, ?X2, ?X3, ?Y1, ?Y2, ?Y3; done.
Lemma accepted_alike env env' e : alike_env env env' -> forall A, den env e = Some A -> accepted env e -> accepted env' e /\ forall A', den env' e = Some A' -> alike A' A.
Proof.
  intros HE. induction e as [t|o a IHa b IHb|c a IHa b IHb|a IHa|a IHa D|a IHa|a IHa|a IHa|a IHa d0 d1|a IHa s xs|a IHa xs ss|a IHa b IHb d]; intros A EA Hac; cbn [den accepted] in *.
  - specialize (HE t). rewrite EA in HE. destruct (env' t); [|done]. split; [done|]. by intros A' [= <-].
  - destruct Hac as (Ha & Hb & K). destruct (den env a) as [X|] eqn:EX; [|done]. destruct (den env b) as [Y|] eqn:EY; [|done]. destruct (IHa X eq_refl Ha) as [Ka La]. destruct (IHb Y eq_refl Hb) as [Kb Lb]. split.
    + split; [done|]. split; [done|]. eapply on2_alike; eauto. alike2.
    + intros A' E'. destruct (den env' a) as [X'|]; [|done]. destruct (den env' b) as [Y'|]; [|done]. destruct (La X' eq_refl) as (X1 & X2 & X3). destruct (Lb Y' eq_refl) as (Y1 & Y2 & Y3).
      cbn [bind2 bind1] in *. apply table_sig in EA as (E1 & E2 & E3), E' as (F1 & F2 & F3). unfold alike. rewrite E1, E2, E3, F1, F2, F3, X1, X2, X3, Y1, Y2, Y3. done.
  - destruct Hac as (Ha & Hb & K). destruct (den env a) as [X|] eqn:EX; [|done]. destruct (den env b) as [Y|] eqn:EY; [|done]. destruct (IHa X eq_refl Ha) as [Ka La]. destruct (IHb Y eq_refl Hb) as [Kb Lb]. split.
    + split; [done|]. split; [done|]. eapply on2_alike; eauto. alike2.
    + intros A' E'. destruct (den env' a) as [X'|]; [|done]. destruct (den env' b) as [Y'|]; [|done]. destruct (La X' eq_refl) as (X1 & X2 & X3). destruct (Lb Y' eq_refl) as (Y1 & Y2 & Y3).
      cbn [bind2 bind1] in *. unfold d_cmp in *. apply (inj Some) in EA as <-, E' as <-. unfold alike. cbn [a_dt a_ss a_rg]. by rewrite X2, Y2.
  - destruct Hac as (Ha & K). destruct (den env a) as [X|] eqn:EX; [|done]. destruct (IHa X eq_refl Ha) as [Ka La]. split.
    + split; [done|]. eapply on1_alike; eauto. alike1.
    + intros A' E'. destruct (den env' a) as [X'|]; [|done]. destruct (La X' eq_refl) as (X1 & X2 & X3). cbn [bind1] in *. apply table_sig in EA as (E1 & E2 & E3), E' as (F1 & F2 & F3). unfold alike. rewrite E1, E2, E3, F1, F2, F3, X1, X2, X3. done.
  - destruct Hac as (Ha & K). destruct (den env a) as [X|] eqn:EX; [|done]. destruct (IHa X eq_refl Ha) as [Ka La]. split.
    + split; [done|]. eapply on1_alike; eauto. alike1.
    + intros A' E'. destruct (den env' a) as [X'|]; [|done]. destruct (La X' eq_refl) as (X1 & X2 & X3). cbn [bind1] in *. apply table_sig in EA as (E1 & E2 & E3), E' as (F1 & F2 & F3). unfold alike. rewrite E1, E2, E3, F1, F2, F3, X2, X3. done.
  - destruct Hac as (Ha & K). destruct (IHa A EA Ha) as [Ka La]. split; [|done]. split; [done|]. eapply on1_alike; eauto. alike1.
  - destruct Hac as (Ha & K). destruct (den env a) as [X|] eqn:EX; [|done]. destruct (IHa X eq_refl Ha) as [Ka La]. split.
    + split; [done|]. eapply on1_alike; eauto. alike1.
    + intros A' E'. destruct (den env' a) as [X'|]; [|done]. destruct (La X' eq_refl) as (X1 & X2 & X3). cbn [bind1] in *. unfold d_sum in *. destruct (array_sum _ _ _); [|done]. destruct (array_sum _ _ _); [|done].
      apply (inj Some) in EA as <-, E' as <-. unfold alike. cbn [a_dt a_ss a_rg]. by rewrite X1, X3.
  - destruct Hac as (Ha & K). destruct (den env a) as [X|] eqn:EX; [|done]. destruct (IHa X eq_refl Ha) as [Ka La]. split.
    + split; [done|]. eapply on1_alike; eauto. alike1.
    + intros A' E'. destruct (den env' a) as [X'|]; [|done]. destruct (La X' eq_refl) as (X1 & X2 & X3). cbn [bind1] in *. unfold d_mean in *. destruct (array_mean _ _ _); [|done]. destruct (array_mean _ _ _); [|done].
      apply (inj Some) in EA as <-, E' as <-. unfold alike. cbn [a_dt a_ss a_rg]. by rewrite X1, X3.
  - destruct Hac as (Ha & K). destruct (den env a) as [X|] eqn:EX; [|done]. destruct (IHa X eq_refl Ha) as [Ka La]. split.
    + split; [done|]. eapply on1_alike; eauto. alike1.
    + intros A' E'. destruct (den env' a) as [X'|]; [|done]. destruct (La X' eq_refl) as (X1 & X2 & X3). cbn [bind1] in *. unfold d_transpose in *. apply (inj Some) in EA as <-, E' as <-. unfold alike. cbn [a_dt a_ss a_rg]. by rewrite X1, X2, X3.
  - destruct Hac as (Ha & Hr & Hx & K). destruct (den env a) as [X|] eqn:EX; [|done]. destruct (IHa X eq_refl Ha) as [Ka La]. split.
    + split; [done|]. split; [done|]. split; [done|]. eapply on1_alike; eauto. alike1.
    + intros A' E'. destruct (den env' a) as [X'|]; [|done]. destruct (La X' eq_refl) as (X1 & X2 & X3). cbn [bind1] in *. unfold d_slice in *. apply (inj Some) in EA as <-, E' as <-. unfold alike. cbn [a_dt a_ss a_rg]. by rewrite X1, X2, X3.
  - destruct Hac as (Ha & Hr & Hx & K). destruct (den env a) as [X|] eqn:EX; [|done]. destruct (IHa X eq_refl Ha) as [Ka La]. split.
    + split; [done|]. split; [done|]. split; [done|]. eapply on1_alike; eauto. alike1.
    + intros A' E'. destruct (den env' a) as [X'|]; [|done]. destruct (La X' eq_refl) as (X1 & X2 & X3). cbn [bind1] in *. unfold d_reshape in *. apply (inj Some) in EA as <-, E' as <-. unfold alike. cbn [a_dt a_ss a_rg]. by rewrite X1, X3.
  - destruct Hac as (Ha & Hb & K). destruct (den env a) as [X|] eqn:EX; [|done]. destruct (den env b) as [Y|] eqn:EY; [|done]. destruct (IHa X eq_refl Ha) as [Ka La]. destruct (IHb Y eq_refl Hb) as [Kb Lb]. split.
    + split; [done|]. split; [done|]. eapply on2_alike; eauto. alike2.
    + intros A' E'. destruct (den env' a) as [X'|]; [|done]. destruct (den env' b) as [Y'|]; [|done]. destruct (La X' eq_refl) as (X1 & X2 & X3). destruct (Lb Y' eq_refl) as (Y1 & Y2 & Y3).
      cbn [bind2 bind1] in *. apply table_sig in EA as (E1 & E2 & E3), E' as (F1 & F2 & F3). unfold alike. rewrite E1, E2, E3, F1, F2, F3, X1, X2, X3, Y1, Y2, Y3. done.
Qed.
Lemma expr_rounds n : forall ops H (h : heap) env e A c C ls, program ops H none h -> (forall x, x ∈ H -> ~ is_node h x) -> leaves_ok h env -> leaves_held h H env -> accepted env e ->
  den env e = Some A -> a_rg A = true -> size_prod (a_ss A) = 1 -> env c = Some C -> may_step h H env e c ls -> no_gradients h ls ->
  (forall As env', descents e c ls env As env' -> (length As < n)%nat -> smooth_root env' e /\ den env' e <> None) ->
  exists As l env' h', length As = n /\ descents e c ls env As env' /\ descended e c ls h As l h' /\ program (ops ++ l) H none h' /\ leaves_ok h' env' /\ no_gradients h' ls.
Proof.
  induction n as [|n IH]; intros ops H h env e A c C ls Hp Hlf L LH Hac EA Hg H1 EC Hm Hz Hpath.
  { exists [], [], env, h. rewrite app_nil_r. split; [done|]. split; [constructor|]. split; [constructor|]. done. }
  destruct (Hpath [] env (DNone _ _ _ _)) as [Hs _]; [simpl; lia|].
  destruct (expr_step ops H none h env e A c C ls Hp Hlf L LH Hac Hs EA Hg H1 EC Hm Hz) as (l & t & h1 & h2 & u & h3 & env1 & Ev & HA & Eb & U & P3 & N3 & De & L3 & LH3 & M3 & Z3).
  pose proof (accepted_alike env env1 e (descends_alike _ _ _ _ _ De) A EA Hac) as [Hac1 Hal].
  assert (descents e c ls env [A] env1) as D1. { eapply DMore; eauto. constructor. }
  destruct n as [|n].
  { exists [A], ((l ++ OBackward (Some t) :: u) ++ []), env1, h3. split; [done|]. split; [done|]. split; [eapply RMore; eauto; constructor|]. by rewrite app_nil_r. }
  destruct (Hpath [A] env1 D1) as [_ Hd]; [simpl; lia|]. destruct (den env1 e) as [A1|] eqn:E1; [|done]. destruct (Hal A1 eq_refl) as (_ & S1 & G1).
  assert (exists C1, env1 c = Some C1) as [C1 EC1]. { specialize (De c). rewrite EC in De. destruct (env1 c) as [C1|]; [by exists C1|done]. }
  destruct (IH _ H h3 env1 e A1 c C1 ls P3 N3 L3 LH3 Hac1 E1 ltac:(congruence) ltac:(by rewrite S1) EC1 M3 Z3) as (As & l' & env' & h' & Hlen & Ds & Dd & P' & L' & Z').
  { intros As env' Ds Hlt. apply (Hpath (A :: As) env'); [by eapply DMore|simpl; lia]. }
  exists (A :: As), ((l ++ OBackward (Some t) :: u) ++ l'), env', h'. split; [simpl; by rewrite Hlen|]. split; [by eapply DMore|]. split; [by eapply RMore|]. split; [by rewrite app_assoc|done].
Qed.
