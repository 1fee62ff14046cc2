(** The watching arithmetic is IEEE arithmetic, and exact arithmetic as far as it keeps the exact value. *)
From Coq Require Import QArith Qcanon Floats.SpecFloat.
From Verif.Proofs Require Export Rel5.
From Verif.Spec Require Import Watch.
From Verif.Model Require Import Ieee Exact Api.
Local Open Scope Z_scope.

Lemma watch_ieee : related Watch Ieee (fun _ x y => x.1 = y) (fun _ => True).
Proof.
  split; intros; cbn in *; subst; try done. destruct (snd x); [by right|by left].
Qed.

(** ** the values of floats *)
Definition scaled (s : bool) (m : positive) (e n : Z) : Z := cond_Zopp s (Zpos m) * 2 ^ (e + n).
Definition sq (s : bool) (m : positive) (e : Z) : Q := cond_Zopp s (Zpos m) * 2 ^ Z.max e 0 # Z.to_pos (2 ^ Z.max (- e) 0).
Lemma sq_scaled s m e n : 0 <= n -> 0 <= e + n -> (sq s m e * inject_Z (2 ^ n) == inject_Z (scaled s m e n))%Q.
Proof.
  intros Hn He. unfold sq, scaled, inject_Z, Qmult, Qeq. cbn [Qnum Qden]. rewrite Pos.mul_1_r, Z.mul_1_r, Z2Pos.id by (apply Z.pow_pos_nonneg; lia).
  rewrite <- !Z.mul_assoc, <- !Z.pow_add_r by lia. do 2 f_equal. lia.
Qed.
Lemma sq_compare s m e s' m' e' n : 0 <= n -> 0 <= e + n -> 0 <= e' + n -> (sq s m e ?= sq s' m' e')%Q = (scaled s m e n ?= scaled s' m' e' n).
Proof.
  intros Hn He He'. assert (0 < inject_Z (2 ^ n))%Q as Hp. { unfold Qlt. cbn [Qnum Qden inject_Z]. assert (0 < 2 ^ n) by (apply Z.pow_pos_nonneg; lia). lia. }
  assert ((inject_Z (scaled s m e n) ?= inject_Z (scaled s' m' e' n))%Q = (scaled s m e n ?= scaled s' m' e' n)) as <- by (unfold Qcompare; cbn; by rewrite !Z.mul_1_r).
  rewrite <- (sq_scaled s m e n), <- (sq_scaled s' m' e' n) by done.
  destruct (sq s m e ?= sq s' m' e')%Q eqn:C; symmetry.
  - apply Qeq_alt in C. apply Qeq_alt. by rewrite C.
  - apply Qlt_alt in C. apply Qlt_alt. by apply Qmult_lt_r.
  - apply Qgt_alt in C. apply Qgt_alt. by apply Qmult_lt_r.
Qed.
Lemma digits_spec m : 2 ^ (Zpos (digits2_pos m) - 1) <= Zpos m < 2 ^ Zpos (digits2_pos m).
Proof.
  induction m as [m IH|m IH|]; cbn [digits2_pos]; [| |by cbn]; rewrite Pos2Z.inj_succ.
  - replace (Z.succ (Zpos (digits2_pos m)) - 1) with (Z.succ (Zpos (digits2_pos m) - 1)) by lia. rewrite !Z.pow_succ_r by lia. lia.
  - replace (Z.succ (Zpos (digits2_pos m)) - 1) with (Z.succ (Zpos (digits2_pos m) - 1)) by lia. rewrite !Z.pow_succ_r by lia. lia.
Qed.
Lemma canon_lt p x m e m' e' n : 0 < p -> bounded p x m e = true -> bounded p x m' e' = true -> e < e' -> 0 <= e + n ->
  Zpos m * 2 ^ (e + n) < Zpos m' * 2 ^ (e' + n).
Proof.
  intros Hp B B' He Hn. unfold bounded, canonical_mantissa in B, B'. apply andb_true_iff in B as [B _], B' as [B' _].
  apply Zeq_bool_eq in B, B'. unfold fexp in B, B'. set (d := Zpos (digits2_pos m)) in *. set (d' := Zpos (digits2_pos m')) in *.
  assert (d <= p) by lia. assert (d' = p) as Ed by lia.
  pose proof (digits_spec m) as [_ H1]. pose proof (digits_spec m') as [H2 _]. fold d in H1. fold d' in H2.
  assert (2 ^ d <= 2 ^ p) by (apply Z.pow_le_mono_r; lia). rewrite Ed in H2.
  assert (2 ^ (e' + n) = 2 * 2 ^ (e' + n - 1)) as E1. { rewrite <- Z.pow_succ_r by lia. f_equal. lia. }
  assert (2 ^ p = 2 * 2 ^ (p - 1)) as E2. { rewrite <- Z.pow_succ_r by lia. f_equal. lia. }
  assert (2 ^ (e + n) <= 2 ^ (e' + n - 1)) by (apply Z.pow_le_mono_r; lia).
  assert (0 < 2 ^ (e + n)) by (apply Z.pow_pos_nonneg; lia). assert (0 < 2 ^ (p - 1)) by (apply Z.pow_pos_nonneg; lia).
  rewrite E1. nia.
Qed.
Lemma canon_compare p x m e m' e' n : 0 < p -> bounded p x m e = true -> bounded p x m' e' = true -> 0 <= e + n -> 0 <= e' + n ->
  (Zpos m * 2 ^ (e + n) ?= Zpos m' * 2 ^ (e' + n)) = match e ?= e' with Lt => Lt | Gt => Gt | Eq => Pcompare m m' Eq end.
Proof.
  intros Hp B B' Hn Hn'. destruct (Z.compare_spec e e') as [<-|He|He].
  - assert (0 < 2 ^ (e + n)) by (apply Z.pow_pos_nonneg; lia). rewrite <- (Zmult_compare_compat_r (Zpos m) (Zpos m') (2 ^ (e + n))) by lia. done.
  - apply Z.compare_lt_iff. by eapply canon_lt.
  - apply Z.compare_gt_iff. by eapply canon_lt.
Qed.
Lemma sf_compare t x y a b : valid_binary (fprec t) (femax t) x = true -> valid_binary (fprec t) (femax t) y = true ->
  sf_value x = Some a -> sf_value y = Some b -> SFcompare x y = Some (a ?= b)%Q.
Proof.
  assert (0 < fprec t) as Hp by (by destruct t). intros Vx Vy Ex Ey.
  assert (forall s m e, (this (Q2Qc (sq s m e)) == sq s m e)%Q) as Hq by (intros; apply Qred_correct).
  assert (forall s m e, (sq s m e ?= 0)%Q = if s then Lt else Gt) as H0.
  { intros s m e. unfold Qcompare, sq. cbn [Qnum Qden]. rewrite Z.mul_1_r, Z.mul_0_l. assert (0 < 2 ^ Z.max e 0) by (apply Z.pow_pos_nonneg; lia).
    destruct s; cbn [cond_Zopp]; [apply Z.compare_lt_iff|apply Z.compare_gt_iff]; nia. }
  destruct x as [sx|sx| |sx mx ex]; cbn in Ex; try done; apply (inj Some) in Ex as <-;
  destruct y as [sy|sy| |sy my ey]; cbn in Ey; try done; apply (inj Some) in Ey as <-; cbn [SFcompare].
  - done.
  - fold (sq sy my ey). rewrite Hq. rewrite <- Qcompare_antisym. change (this 0%Qc) with 0%Q. rewrite H0. by destruct sy.
  - fold (sq sx mx ex). rewrite Hq. change (this 0%Qc) with 0%Q. rewrite H0. by destruct sx.
  - fold (sq sx mx ex) (sq sy my ey). rewrite !Hq. set (n := Z.max 0 (Z.max (- ex) (- ey))).
    rewrite (sq_compare _ _ _ _ _ _ n) by lia. unfold scaled. cbn in Vx, Vy.
    assert (0 < 2 ^ (ex + n)) by (apply Z.pow_pos_nonneg; lia). assert (0 < 2 ^ (ey + n)) by (apply Z.pow_pos_nonneg; lia).
    destruct sx, sy; cbn [cond_Zopp]; f_equal; symmetry.
    + change (Zneg mx) with (- Zpos mx). change (Zneg my) with (- Zpos my). change (- Z.pos mx * 2 ^ (ex + n)) with ((- Z.pos mx) * 2 ^ (ex + n)). rewrite !Z.mul_opp_l, <- Z.compare_opp.
      rewrite !Z.opp_involutive. rewrite (canon_compare _ _ _ _ _ _ n Hp Vy Vx) by lia. rewrite (Z.compare_antisym ex ey). destruct (ex ?= ey); [|done|done]. cbn. apply Pos.compare_antisym.
    + apply Z.compare_lt_iff. nia.
    + apply Z.compare_gt_iff. nia.
    + by rewrite (canon_compare _ _ _ _ _ _ n Hp Vx Vy) by lia.
Qed.
Lemma sf_opp x q : sf_value x = Some q -> sf_value (SFopp x) = Some (Qcopp q).
Proof.
  destruct x as [s|s| |s m e]; cbn; intros E; try done; apply (inj Some) in E as <-; [done|]. f_equal. apply Qc_is_canon. cbn [this Q2Qc Qcopp]. rewrite !Qred_correct.
  unfold Qopp. cbn [Qnum Qden]. destruct s; cbn [negb cond_Zopp]; unfold Qeq; cbn [Qnum Qden]; lia.
Qed.
Lemma valid_opp p x f : valid_binary p x f = true -> valid_binary p x (SFopp f) = true.
Proof. by destruct f. Qed.
Lemma quot_red (a : Q) : Z.quot (Qnum (Qred a)) (Zpos (Qden (Qred a))) = Z.quot (Qnum a) (Zpos (Qden a)).
Proof.
  pose proof (Qred_correct a) as E. unfold Qeq in E. set (n := Qnum (Qred a)) in *. set (d := Zpos (Qden (Qred a))) in *. set (N := Qnum a) in *. set (D := Zpos (Qden a)) in *.
  assert (0 < d) by lia. assert (0 < D) by lia.
  rewrite <- (Z.quot_mul_cancel_r n d D) by lia. rewrite E, (Z.mul_comm d D). apply Z.quot_mul_cancel_r; lia.
Qed.
Lemma sf_trunc x q : sf_value x = Some q -> ieee_trunc x = Some (Z.quot (Qnum q) (Zpos (Qden q))).
Proof.
  destruct x as [s|s| |s m e]; cbn [sf_value]; intros E; try done; apply (inj Some) in E as <-; [done|]. cbn [this Q2Qc]. rewrite quot_red. cbn [Qnum Qden ieee_trunc]. f_equal.
  destruct (Z.leb_spec 0 e).
  - rewrite (Z.max_l e 0), (Z.max_r (- e) 0) by lia. cbn [Z.pow Z.to_pos]. change (Z.pow_pos 2 1) with 2. rewrite Z.quot_1_r. by destruct s; cbn [cond_Zopp]; lia.
  - rewrite (Z.max_r e 0), (Z.max_l (- e) 0) by lia. assert (0 < 2 ^ (- e)) by (apply Z.pow_pos_nonneg; lia). rewrite Z2Pos.id by done. rewrite Z.pow_0_r, Z.mul_1_r.
    destruct s; cbn [cond_Zopp]; [rewrite Z.quot_opp_l by lia; f_equal|]; symmetry; apply Z.quot_div_nonneg; lia.
Qed.

(** ** exact arithmetic *)
Definition Rx (t : fty) (w : @F Watch) (y : @F Exact) : Prop :=
  forall q, w.2 = Some q -> q = y /\ sf_value w.1 = Some q /\ valid_binary (fprec t) (femax t) w.1 = true.
Definition keeps_value (w : @F Watch) : Prop := w.2 <> None.
Lemma keep_rel t x o y : (forall q, o = Some q -> q = y) -> Rx t (keep t x o) y.
Proof.
  intros H q. unfold keep. cbn. destruct o as [p|]; [|done]. destruct (denotes t x p) eqn:D; [|done]. intros E. apply (inj Some) in E as <-.
  unfold denotes in D. apply andb_true_iff in D as [D1 D2]. split; [by apply H|]. split; [|done]. destruct (sf_value x) as [v|]; [|done]. f_equal. by apply Qc_eq_bool_correct.
Qed.
Lemma both_rel f t x y a b : Rx t x y -> Rx t a b -> forall q, both f x.2 a.2 = Some q -> q = f y b.
Proof.
  intros H1 H2 q. unfold both. destruct (x.2) as [p|] eqn:E1; [|done]. destruct (a.2) as [r|] eqn:E2; [|done]. intros E. apply (inj Some) in E as <-.
  destruct (H1 _ E1) as [-> _]. by destruct (H2 _ E2) as [-> _].
Qed.
Lemma watch_exact : related Watch Exact Rx keeps_value.
Proof.
  split.
  - intros t q E. cbn in E. apply (inj Some) in E as <-. done.
  - done.
  - intros t z. cbn [f_of_Z Watch Exact]. apply keep_rel. intros q E. by apply (inj Some) in E as <-.
  - intros t z Hz. assert (z = -1 \/ z = 0 \/ z = 1) as [->|[->| ->]] by lia; destruct t; by vm_compute.
  - intros t u x y H. apply keep_rel. intros q E. by destruct (H q E).
  - intros t x y a b H1 H2. apply keep_rel. by eapply both_rel.
  - intros t x y a b H1 H2. apply keep_rel. by eapply both_rel.
  - intros t x y a b H1 H2. apply keep_rel. by eapply both_rel.
  - intros t x y a b H1 H2. apply keep_rel. by eapply both_rel.
  - intros t x y H q. cbn. destruct (x.2) as [p|] eqn:E; [|done]. intros X. apply (inj Some) in X as <-. destruct (H p E) as (-> & H2 & H3).
    split; [done|]. split; [by apply sf_opp|by apply valid_opp].
  - intros x. unfold keeps_value. cbn. by destruct (x.2).
  - intros t x y a b H1 H2 C1 C2. unfold keeps_value in *. destruct (x.2) as [p|] eqn:E1; [|done]. destruct (a.2) as [r|] eqn:E2; [|done].
    destruct (H1 _ E1) as (<- & V1 & B1), (H2 _ E2) as (<- & V2 & B2). cbn. unfold SFltb. rewrite (sf_compare t _ _ _ _ B1 B2 V1 V2).
    destruct (p ?= r)%Q eqn:C; symmetry; [| |]; [apply Qeq_alt in C|apply Qlt_alt in C|apply Qgt_alt in C]; [apply negb_false_iff, Qle_bool_iff; by rewrite C; apply Qle_refl| |].
    + apply negb_true_iff. apply not_true_iff_false. intros K%Qle_bool_iff. by apply Qlt_not_le in C.
    + apply negb_false_iff, Qle_bool_iff. by apply Qlt_le_weak.
  - intros t x y a b H1 H2 C1 C2. unfold keeps_value in *. destruct (x.2) as [p|] eqn:E1; [|done]. destruct (a.2) as [r|] eqn:E2; [|done].
    destruct (H1 _ E1) as (<- & V1 & B1), (H2 _ E2) as (<- & V2 & B2). cbn. unfold SFleb. rewrite (sf_compare t _ _ _ _ B1 B2 V1 V2).
    destruct (p ?= r)%Q eqn:C; symmetry; [apply Qeq_alt in C|apply Qlt_alt in C|apply Qgt_alt in C].
    + apply Qle_bool_iff. rewrite C. apply Qle_refl.
    + apply Qle_bool_iff. by apply Qlt_le_weak.
    + apply not_true_iff_false. intros K%Qle_bool_iff. by apply Qlt_not_le in C.
  - intros t x y a b H1 H2 C1 C2. unfold keeps_value in *. destruct (x.2) as [p|] eqn:E1; [|done]. destruct (a.2) as [r|] eqn:E2; [|done].
    destruct (H1 _ E1) as (<- & V1 & B1), (H2 _ E2) as (<- & V2 & B2). cbn. unfold SFeqb. rewrite (sf_compare t _ _ _ _ B1 B2 V1 V2).
    destruct (p ?= r)%Q eqn:C; symmetry; [apply Qeq_alt in C|apply Qlt_alt in C|apply Qgt_alt in C].
    + by apply Qeq_bool_iff.
    + apply not_true_iff_false. intros K%Qeq_bool_iff. rewrite K in C. by apply Qlt_irrefl in C.
    + apply not_true_iff_false. intros K%Qeq_bool_iff. rewrite K in C. by apply Qlt_irrefl in C.
  - intros t x y H. cbn. destruct (x.2) as [p|] eqn:E; [|by left]. right. destruct (H p E) as (<- & V & _). by apply sf_trunc.
Qed.

(** ** histories *)
Definition IW := hrel (fa:=Watch) (fb:=Ieee) (fun _ : nat => fun (_ : fty) (x : @F Watch) (y : @F Ieee) => x.1 = y) 0.
Definition XW := hrel (fa:=Watch) (fb:=Exact) (fun _ : nat => Rx) 0.
Lemma map_val_id (v : @val Ieee) : map_val (fa:=Ieee) (fb:=Ieee) (fun x => x) v = v.
Proof. by destruct v. Qed.
Lemma map_vals_id (l : list (@val Ieee)) : map (map_val (fa:=Ieee) (fb:=Ieee) (fun x => x)) l = l.
Proof. induction l as [|v l IH]; [done|]. cbn [map]. by rewrite map_val_id, IH. Qed.
Lemma map_tinit_id : forall t : @tinit Ieee, map_tinit (fa:=Ieee) (fb:=Ieee) (fun x => x) t = t.
Proof.
  fix IH 1. intros [dt xs|ts]; cbn [map_tinit]; [by rewrite map_vals_id|]. f_equal. induction ts as [|t ts IHl]; [done|]. cbn [map]. by rewrite IH, IHl.
Qed.
Lemma map_op_id (o : @op Ieee) : map_op (fa:=Ieee) (fb:=Ieee) (fun x => x) o = o.
Proof. destruct o; cbn [map_op]; rewrite ?map_val_id, ?map_vals_id, ?map_tinit_id, ?map_id; done. Qed.
Lemma map_ops_id ops : map (map_op (fa:=Ieee) (fb:=Ieee) (fun x => x)) ops = ops.
Proof. induction ops as [|o ops IH]; [done|]. cbn [map]. by rewrite map_op_id, IH. Qed.
Lemma lit_ieee (o : @op Ieee) : proper o -> lit_ok (R:=fun (_ : fty) (x : @F Watch) (y : @F Ieee) => x.1 = y) (fc:=Ieee)
  (fun x : spec_float => (x, sf_value x)) (fun x => x) (lits o).
Proof. intros H t v Hv. specialize (H t v Hv). destruct v; cbn; [done|]. by destruct H. Qed.
Lemma lit_exact (o : @op Ieee) : proper o -> lit_ok (R:=Rx) (fc:=Ieee) (fun x : spec_float => (x, sf_value x)) (fun x : spec_float => default 0%Qc (sf_value x)) (lits o).
Proof.
  intros H t v Hv. specialize (H t v Hv). destruct v as [z|x]; cbn; [done|]. destruct H as [H1 H2]. split; [done|]. intros q E. cbn in E |- *. rewrite E. done.
Qed.
Lemma calm_exact h o : compares_exact h o -> calm (fc:=Ieee) (clean:=keeps_value) h o.
Proof.
  destruct o; cbn; try done.
  - destruct a as [x|], b as [y|]; try done. intros [[H1 H2]|(H1 & H2 & H3)].
    + left. split; intros r Hr; [by apply (H1 x)|by apply (H2 y)].
    + right. left. split; [|split].
      * intros r s Hr Hs. by apply (H1 x r y s).
      * intros r s cs v Hr Hs Hc Hv. by apply (H2 x r s cs v).
      * intros r s cs v Hr Hs Hc Hv. by apply (H3 y r s cs v).
  - destruct a as [x|]; [|done]. intros H r s cs v Hr Hs Hc Hv. by apply (H x r s cs v).
  - destruct a as [x|]; [|done]. intros H r s cs v Hr Hs Hc Hv. by apply (H x r s cs v).
  - destruct a as [x|]; [|done]. intros H r s cs v Hr Hs Hc Hv. by apply (H x r s cs v).
  - destruct a as [x|]; [|done]. intros H r Hr. by apply (H x).
Qed.
Lemma calm_weaken h o : calm (fc:=Ieee) (clean:=keeps_value) h o -> calm (fa:=Watch) (fc:=Ieee) (clean:=fun _ => True) h o.
Proof.
  destruct o; cbn; try done.
  - destruct a as [x|], b as [y|]; try done. intros _. by right; right.
  - destruct a as [x|]; [|done]. by intros H r s cs v Hr Hs Hc Hv.
  - destruct a as [x|]; [|done]. by intros H r s cs v Hr Hs Hc Hv.
  - destruct a as [x|]; [|done]. by intros H r s cs v Hr Hs Hc Hv.
Qed.
Lemma calm_all_exact ops h : compares_all h ops -> calm_all (fc:=Ieee) (clean:=keeps_value) (fun x : spec_float => (x, sf_value x)) h ops.
Proof. revert h. induction ops as [|o ops IH]; intros h; [done|]. intros [H1 H2]. split; [by apply calm_exact|]. by apply IH. Qed.
Lemma calm_all_ieee ops h : compares_all h ops -> calm_all (fa:=Watch) (fc:=Ieee) (clean:=fun _ => True) (fun x : spec_float => (x, sf_value x)) h ops.
Proof. revert h. induction ops as [|o ops IH]; intros h; [done|]. intros [H1 H2]. split; [by apply calm_weaken, calm_exact|]. by apply IH. Qed.
Lemma start_rel {fa fb : FOps} (Qs : nat -> fty -> @F fa -> @F fb -> Prop) : hrel Qs 0 (@empty_heap fa) (@empty_heap fb).
Proof. split; try done. Qed.
Lemma elem_rel {fa fb : FOps} (R : fty -> @F fa -> @F fb -> Prop) h h' t idx : hrel (fun _ : nat => R) 0 h h' ->
  match @element fa h t idx, @element fb h' t idx with None, None => True | Some v, Some v' => exists u, vrel R u v v' | _, _ => False end.
Proof.
  intros H. unfold element. rewrite <- (hr_ten _ _ _ _ H). destruct (h_ten h !! t) as [r|]; [|done]. unfold elem, cells.
  destruct (h_sto h !! t_sto r) as [s|] eqn:E.
  - destruct (hr_sto _ _ _ _ H _ _ E) as (s' & -> & _ & _ & B). destruct B as [cs cs' B|]; [|done]. destruct (_ <=? _); [|done].
    destruct (cs !! _) as [c|] eqn:Ec.
    + destruct (Forall2_lookup_l _ _ _ _ _ B Ec) as (c' & -> & Hc). destruct Hc as [v v' Hv|]; [|done]. by exists (sto_ty s).
    + apply lookup_ge_None in Ec. rewrite (Forall2_length _ _ _ B) in Ec. apply lookup_ge_None in Ec as ->. done.
  - apply lookup_ge_None in E. rewrite (hr_len _ _ _ _ H) in E. apply lookup_ge_None in E as ->. done.
Qed.
Theorem watch_agree ops rs w : (forall o, o ∈ ops -> proper o) -> compares_all empty_heap ops -> @run Watch empty_heap (map watched ops) = (Ok rs, w) ->
  exists h rx e, @run Ieee empty_heap ops = (Ok rs, h) /\ @run Exact empty_heap (map exactly ops) = (Ok rx, e) /\ Forall2 same_result rs rx /\ agree h w e.
Proof.
  intros HL HC HW.
  destruct (p_run (fc:=Ieee) watch_ieee (fun x : spec_float => (x, sf_value x)) (fun x => x) eq) with (ops := ops) (h := @empty_heap Watch) (h' := @empty_heap Ieee) (rs := rs) (g := w) as (ri & h & Ei & Fi & Hi).
  { intros t v v' H. destruct v, v'; try done; destruct H as [_ H]; subst; done. } { done. }
  { intros l l' H. f_equal. f_equal. f_equal. induction H as [|?????? IH]; [done|]. by subst. }
  { intros o Ho. by apply lit_ieee, HL. } { apply start_rel. } { by apply calm_all_ieee. } { exact HW. }
  rewrite map_ops_id in Ei.
  destruct (p_run (fc:=Ieee) watch_exact (fun x : spec_float => (x, sf_value x)) (fun x : spec_float => default 0%Qc (sf_value x)) (fun _ _ => True)) with (ops := ops) (h := @empty_heap Watch) (h' := @empty_heap Exact) (rs := rs) (g := w) as (rx & e & Ex & Fx & Hx).
  { done. } { done. } { done. }
  { intros o Ho. by apply lit_exact, HL. } { apply start_rel. } { by apply calm_all_exact. } { exact HW. }
  assert (ri = rs) as ->.
  { clear -Fi. induction Fi as [|a b l l' H _ IH]; [done|]. f_equal; [|done]. destruct a as [r|?|?|], b as [r'|?|?|]; try done; cbn in H; [|by subst|by subst].
    destruct r, r'; try done; cbn in H; congruence. }
  exists h, rx, e. split; [done|]. split; [done|]. split.
  { eapply Forall2_impl; [exact Fx|]. intros a b H. destruct a as [r|?|?|], b as [r'|?|?|]; try done; cbn in H; [|left; by subst|left; by subst|by left].
    destruct r, r'; try done; cbn in H; try (left; congruence). right. by eexists _, _. }
  split; [by rewrite (hr_ten _ _ _ _ Hi)|]. split; [by rewrite (hr_ten _ _ _ _ Hx)|]. intros t idx.
  pose proof (elem_rel _ _ _ t idx Hi) as A. pose proof (elem_rel _ _ _ t idx Hx) as B.
  destruct (@element Watch w t idx) as [[z|[x o]]|], (@element Ieee h t idx) as [v|], (@element Exact e t idx) as [u|]; try done.
  - destruct A as [? A], B as [? B]. destruct v as [z'|], u as [z''|]; try done. destruct A as [_ <-], B as [_ <-]. done.
  - destruct A as [? A], B as [? B]. destruct v as [|x'], u as [|y]; try done. destruct A as [_ <-], B as [_ B]. split; [done|]. exists y. split; [done|].
    intros q ->. destruct (B q eq_refl) as (-> & V & _). done.
Qed.
