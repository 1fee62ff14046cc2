(** A little calculus over the rationals. *)
From Verif.Proofs Require Export Qsum.
From Verif.Spec Require Export Slope.
From Verif.Model Require Export Exact Api.
From Coq Require Import Lqa.
#[local] Existing Instance Exact.
Open Scope Qc_scope.

Ltac qc_nra := intros; unfold Qcle, Qclt, Qcminus, Qcopp, Qcmult, Qcplus in *; cbn [this Q2Qc] in *;
  repeat (rewrite Qred_correct || match goal with H : context [Qred _] |- _ => rewrite Qred_correct in H end); try nra.

(** ** absolute values *)
Lemma qabs_cases q : (0 <= q /\ qabs q = q) \/ (q < 0 /\ qabs q = - q).
Proof. unfold qabs. case_decide as H; [by right|left]. split; [by apply Qcnot_lt_le|done]. Qed.
Ltac qabs_split := repeat match goal with |- context [qabs ?q] => let H := fresh in destruct (qabs_cases q) as [[? H]|[? H]]; rewrite H; clear H end.
Lemma qabs_nonneg q : 0 <= qabs q.
Proof. qabs_split; qc_nra. Qed.
Lemma qabs_0 : qabs 0 = 0.
Proof. done. Qed.
Lemma qabs_add a b : qabs (a + b) <= qabs a + qabs b.
Proof. qabs_split; qc_nra. Qed.
Lemma qabs_mul a b : qabs (a * b) = qabs a * qabs b.
Proof.
  destruct (qabs_cases a) as [[? ->]|[? ->]], (qabs_cases b) as [[? ->]|[? ->]], (qabs_cases (a * b)) as [[? ->]|[? ->]]; try ring.
  all: apply Qcle_antisym; qc_nra.
Qed.
Lemma qabs_opp a : qabs (- a) = qabs a.
Proof. replace (- a) with ((- (1)) * a) by ring. rewrite qabs_mul. change (qabs (- (1))) with 1. ring. Qed.

(** ** near 0 *)
Definition near (P : Qc -> Prop) : Prop := exists e, 0 < e /\ forall s, qabs s < e -> P s.
Lemma near_all (P : Qc -> Prop) : (forall s, P s) -> near P.
Proof. intros H. exists 1. split; [done|]. intros s _. apply H. Qed.
Lemma near_and P P' : near P -> near P' -> near (fun s => P s /\ P' s).
Proof.
  intros (e & He & H) (e' & He' & H'). destruct (decide (e <= e')) as [Hle|Hle].
  - exists e. split; [done|]. intros s Hs. split; [by apply H|]. apply H'. by eapply Qclt_le_trans.
  - exists e'. split; [done|]. intros s Hs. apply Qcnot_le_lt in Hle. split; [|by apply H']. apply H. by eapply Qclt_trans.
Qed.
Lemma near_impl (P P' : Qc -> Prop) : near P -> (forall s, P s -> P' s) -> near P'.
Proof. intros (e & He & H) HP. exists e. split; [done|]. intros s Hs. by apply HP, H. Qed.
Lemma near_zero P : near P -> P 0.
Proof. intros (e & He & H). apply H. by rewrite qabs_0. Qed.
Lemma near_small c : 0 < c -> near (fun s => qabs s < c).
Proof. intros Hc. by exists c. Qed.

(** ** Lipschitz at 0 *)
Definition lip (f : Qc -> Qc) : Prop := exists C, 0 <= C /\ near (fun s => qabs (f s - f 0) <= C * qabs s).
Lemma lip_const c : lip (fun _ => c).
Proof. exists 0. split; [done|]. apply near_all. intros s. replace (c - c) with 0 by ring. rewrite qabs_0. replace (0 * qabs s) with 0 by ring. done. Qed.
Lemma lip_id : lip (fun s => s).
Proof. exists 1. split; [done|]. apply near_all. intros s. replace (s - 0) with s by ring. replace (1 * qabs s) with (qabs s) by ring. apply Qcle_refl. Qed.
Lemma lip_ext f g : near (fun s => f s = g s) -> lip f -> lip g.
Proof.
  intros He (C & HC & H). exists C. split; [done|]. pose proof (near_zero _ He) as E0. simpl in E0.
  apply (near_impl _ _ (near_and _ _ He H)). intros s [E K]. by rewrite <- E, <- E0.
Qed.
Lemma lip_add f g : lip f -> lip g -> lip (fun s => f s + g s).
Proof.
  intros (C & HC & H) (C' & HC' & H'). exists (C + C'). split; [revert HC HC'; qc_nra|]. apply (near_impl _ _ (near_and _ _ H H')). intros s [K K'].
  replace (f s + g s - (f 0 + g 0)) with ((f s - f 0) + (g s - g 0)) by ring. pose proof (qabs_add (f s - f 0) (g s - g 0)) as L. revert K K' L.
  generalize (qabs (f s - f 0)), (qabs (g s - g 0)), (qabs s), (qabs (f s - f 0 + (g s - g 0))). clear. qc_nra.
Qed.
Lemma lip_bound f : lip f -> exists B, 0 <= B /\ near (fun s => qabs (f s) <= B).
Proof.
  intros (C & HC & H). exists (qabs (f 0) + C). pose proof (qabs_nonneg (f 0)) as H0. split; [revert HC H0; generalize (qabs (f 0)); clear; qc_nra|].
  apply (near_impl _ _ (near_and _ _ H (near_small 1 ltac:(done)))). intros s [K L]. pose proof (qabs_add (f s - f 0) (f 0)) as M.
  replace (f s - f 0 + f 0) with (f s) in M by ring. pose proof (qabs_nonneg s) as N. revert HC K L M N.
  generalize (qabs (f s - f 0)), (qabs (f s)), (qabs (f 0)), (qabs s). clear. qc_nra.
Qed.
Lemma lip_mul f g : lip f -> lip g -> lip (fun s => f s * g s).
Proof.
  intros Hf Hg. destruct (lip_bound f Hf) as (B & HB & Hb). destruct Hf as (C & HC & H), Hg as (C' & HC' & H').
  exists (B * C' + C * qabs (g 0)). pose proof (qabs_nonneg (g 0)) as H0. split; [revert HB HC HC' H0; generalize (qabs (g 0)); clear; qc_nra|].
  apply (near_impl _ _ (near_and _ _ Hb (near_and _ _ H H'))). intros s (K & K1 & K2).
  replace (f s * g s - f 0 * g 0) with (f s * (g s - g 0) + (f s - f 0) * g 0) by ring.
  pose proof (qabs_add (f s * (g s - g 0)) ((f s - f 0) * g 0)) as L. rewrite !qabs_mul in L.
  pose proof (qabs_nonneg s) as N. pose proof (qabs_nonneg (f s)) as N1. pose proof (qabs_nonneg (g s - g 0)) as N2. pose proof (qabs_nonneg (f s - f 0)) as N3.
  revert HB HC HC' H0 K K1 K2 L N N1 N2 N3.
  generalize (qabs (f s * (g s - g 0) + (f s - f 0) * g 0)), (qabs (f s)), (qabs (g s - g 0)), (qabs (f s - f 0)), (qabs (g 0)), (qabs s). clear.
  intros w x y z u a HB HC HC' H0 K K1 K2 L N N1 N2 N3.
  assert (x * y <= B * (C' * a)) by qc_nra. assert (z * u <= C * a * u) by qc_nra.
  replace ((B * C' + C * u) * a) with (B * (C' * a) + C * a * u) by ring. revert L H H1. generalize (x * y), (z * u), (B * (C' * a)), (C * a * u). clear. qc_nra.
Qed.
Lemma qabs_pos q : q <> 0 -> 0 < qabs q.
Proof.
  intros H. destruct (qabs_cases q) as [[K ->]|[K ->]]; [|revert K; qc_nra]. apply Qcle_lt_or_eq in K as [K|K]; [done|congruence].
Qed.
Lemma inv_pos a : 0 < a -> 0 < / a.
Proof.
  intros H. assert (a * / a = 1) as E by (apply Qcmult_inv_r; intros ->; done). apply Qcnot_le_lt. intros K.
  assert (a * / a <= 0) as L by (revert H K; generalize (/ a); qc_nra). rewrite E in L. done.
Qed.
Lemma mul_pos a b : 0 < a -> 0 < b -> 0 < a * b.
Proof. qc_nra. Qed.
Lemma lip_close f c : lip f -> 0 < c -> near (fun s => qabs (f s - f 0) < c).
Proof.
  intros (C & HC & H) Hc. assert (0 < C + 1) as HC1 by (revert HC; qc_nra). pose proof (inv_pos _ HC1) as Hi.
  assert ((C + 1) * / (C + 1) = 1) as E by (apply Qcmult_inv_r; intros E; rewrite E in HC1; done).
  apply (near_impl _ _ (near_and _ _ H (near_small (c * / (C + 1)) (mul_pos _ _ Hc Hi)))). intros s [K L]. pose proof (qabs_nonneg s) as N.
  revert E. revert HC Hc Hi K L N. generalize (/ (C + 1)), (qabs s), (qabs (f s - f 0)). intros u a x HC Hc Hi K L N E.
  eapply Qcle_lt_trans; [exact K|]. eapply (Qcle_lt_trans _ ((C + 1) * a)); [revert HC N; clear; qc_nra|].
  replace c with ((C + 1) * (c * u)) by (replace ((C + 1) * (c * u)) with (((C + 1) * u) * c) by ring; rewrite E; ring).
  revert HC1 L. generalize (C + 1), (c * u). clear. qc_nra.
Qed.
Lemma lip_inv f : lip f -> f 0 <> 0 -> lip (fun s => / f s).
Proof.
  intros Hf H0. pose proof (qabs_pos _ H0) as Hp. pose proof (inv_pos _ Hp) as Hi. set (m := qabs (f 0)) in *.
  assert (0 < m * / (1 + 1)) as Hh by (apply mul_pos; [done|by apply inv_pos]).
  pose proof (lip_close f _ Hf Hh) as Hc. destruct Hf as (C & HC & H).
  exists ((1 + 1) * C * (/ m * / m)). split; [pose proof (mul_pos _ _ Hi Hi) as L; revert L HC; generalize (/ m * / m); clear; qc_nra|].
  apply (near_impl _ _ (near_and _ _ H Hc)). intros s [K L].
  (** |f s| is at least m / 2 *)
  assert (m * / (1 + 1) <= qabs (f s)) as M.
  { pose proof (qabs_add (f s) (- (f s - f 0))) as T. replace (f s + - (f s - f 0)) with (f 0) in T by ring. rewrite qabs_opp in T. fold m in T.
    assert (m = m * / (1 + 1) + m * / (1 + 1)) as E2. { replace (m * / (1 + 1) + m * / (1 + 1)) with (m * ((1 + 1) * / (1 + 1))) by ring. rewrite Qcmult_inv_r by done. ring. }
    revert L T E2. generalize (m * / (1 + 1)), (qabs (f s)), (qabs (f s - f 0)). clear. intros u x y L T ->. revert L T. qc_nra. }
  assert (f s <> 0) as Hn. { intros E. rewrite E, qabs_0 in M. apply (Qclt_not_le _ _ Hh M). }
  assert (/ f s - / f 0 = - (f s - f 0) * (/ f s * / f 0)) as -> by (field; done).
  rewrite !qabs_mul, qabs_opp.
  assert (forall q, q <> 0 -> qabs (/ q) = / qabs q) as Hinv.
  { intros q Hq. assert (qabs q * qabs (/ q) = 1) as E1 by (rewrite <- qabs_mul, Qcmult_inv_r by done; done).
    assert (qabs q <> 0) as Hq' by (intros E; rewrite E in E1; done). replace (qabs (/ q)) with (/ qabs q * (qabs q * qabs (/ q))) by (rewrite Qcmult_assoc, (Qcmult_comm (/ qabs q)), Qcmult_inv_r by done; ring).
    rewrite E1. ring. }
  rewrite !Hinv by done. fold m.
  (** the inverse of |f s| is at most 2 / m *)
  assert (/ qabs (f s) <= (1 + 1) * / m) as P.
  { pose proof (qabs_pos _ Hn) as Hq. pose proof (inv_pos _ Hq) as Hq'.
    assert (qabs (f s) * / qabs (f s) = 1) as E1 by (apply Qcmult_inv_r; intros E; rewrite E in Hq; done).
    assert (m * / m = 1) as E2 by (apply Qcmult_inv_r; intros E; rewrite E in Hp; done).
    assert ((1 + 1) * / (1 + 1) = 1) as E3 by (by apply Qcmult_inv_r).
    replace (/ qabs (f s)) with ((1 + 1) * / m * ((m * / (1 + 1)) * / qabs (f s))).
    2:{ replace ((1 + 1) * / m * (m * / (1 + 1) * / qabs (f s))) with ((m * / m) * ((1 + 1) * / (1 + 1)) * / qabs (f s)) by ring. rewrite E2, E3. ring. }
    assert (m * / (1 + 1) * / qabs (f s) <= 1) as Q1 by (apply (Qcle_trans _ (qabs (f s) * / qabs (f s))); [revert M Hq'; generalize (m * / (1 + 1)), (qabs (f s)), (/ qabs (f s)); clear; qc_nra|rewrite E1; apply Qcle_refl]).
    revert Hi Q1. generalize (/ m), (m * / (1 + 1) * / qabs (f s)). clear. qc_nra. }
  pose proof (qabs_nonneg (f s - f 0)) as N. pose proof (inv_pos _ (qabs_pos _ Hn)) as N1. pose proof (qabs_nonneg s) as N2. clear - K P HC Hi N N1 N2.
  revert K P HC Hi N N1 N2. generalize (qabs (f s - f 0)), (/ qabs (f s)), (/ m), (qabs s). clear. intros x y u a K P HC Hi N N1 N2.
  eapply (Qcle_trans _ (C * a * ((1 + 1) * u * u))).
  - assert (y * u <= (1 + 1) * u * u) as P' by (revert P Hi; clear; qc_nra). assert (0 <= y * u) as N3 by (revert N1 Hi; clear; qc_nra).
    revert K P' N N3. generalize (y * u), ((1 + 1) * u * u), (C * a). clear. qc_nra.
  - replace (C * a * ((1 + 1) * u * u)) with ((1 + 1) * C * (u * u) * a) by ring. apply Qcle_refl.
Qed.

(** ** derivatives, with the difference quotient [p] *)
Definition fd (f : Qc -> Qc) (q : Qc) : Prop := exists p, p 0 = q /\ lip p /\ near (fun s => f s = f 0 + s * p s).
Lemma fd_ext f g q : near (fun s => f s = g s) -> fd f q -> fd g q.
Proof.
  intros He (p & H0 & Hl & H). exists p. split; [done|]. split; [done|]. pose proof (near_zero _ He) as E0. simpl in E0.
  apply (near_impl _ _ (near_and _ _ He H)). intros s [E K]. by rewrite <- E, <- E0.
Qed.
Lemma fd_lip f q : fd f q -> lip f.
Proof.
  intros (p & _ & Hl & H). apply (lip_ext (fun s => f 0 + s * p s)).
  - apply (near_impl _ _ H). by intros s ->.
  - apply lip_add; [apply lip_const|]. apply lip_mul; [apply lip_id|done].
Qed.
Lemma fd_const c : fd (fun _ => c) 0.
Proof. exists (fun _ => 0). split; [done|]. split; [apply lip_const|]. apply near_all. intros s. ring. Qed.
Lemma fd_move c e : fd (fun s => c + s * e) e.
Proof. exists (fun _ => e). split; [done|]. split; [apply lip_const|]. apply near_all. intros s. ring. Qed.
Lemma fd_add f g q q' : fd f q -> fd g q' -> fd (fun s => f s + g s) (q + q').
Proof.
  intros (p & <- & Hl & H) (p' & <- & Hl' & H'). exists (fun s => p s + p' s). split; [done|]. split; [by apply lip_add|].
  apply (near_impl _ _ (near_and _ _ H H')). intros s [-> ->]. ring.
Qed.
Lemma fd_mul f g q q' : fd f q -> fd g q' -> fd (fun s => f s * g s) (q * g 0 + f 0 * q').
Proof.
  intros Hf Hg. pose proof (fd_lip _ _ Hf) as Lf. pose proof (fd_lip _ _ Hg) as Lg. destruct Hf as (p & <- & Hl & H), Hg as (p' & <- & Hl' & H').
  exists (fun s => p s * g s + f 0 * p' s). split; [done|]. split; [apply lip_add; apply lip_mul; try done; apply lip_const|].
  apply (near_impl _ _ (near_and _ _ H H')). intros s [E1 E2]. rewrite E1. replace (p s * g s) with (p s * (g 0 + s * p' s)) by (by rewrite <- E2).
  rewrite E2. ring.
Qed.
Lemma fd_opp f q : fd f q -> fd (fun s => - f s) (- q).
Proof.
  intros H. pose proof (fd_mul _ _ _ _ (fd_const (- (1))) H) as K. simpl in K. replace (- q) with (0 * f 0 + (- (1)) * q) by ring.
  eapply fd_ext; [|exact K]. apply near_all. intros s. ring.
Qed.
Lemma fd_sub f g q q' : fd f q -> fd g q' -> fd (fun s => f s - g s) (q - q').
Proof. intros Hf Hg. apply fd_add; [done|]. by apply fd_opp. Qed.
Lemma fd_scale c f q : fd f q -> fd (fun s => c * f s) (c * q).
Proof. intros H. pose proof (fd_mul _ _ _ _ (fd_const c) H) as K. simpl in K. replace (c * q) with (0 * f 0 + c * q) by ring. done. Qed.
Lemma near_nonzero f : lip f -> f 0 <> 0 -> near (fun s => f s <> 0).
Proof.
  intros Hl H0. apply (near_impl _ _ (lip_close f _ Hl (qabs_pos _ H0))). intros s K E. rewrite E in K. replace (0 - f 0) with (- f 0) in K by ring.
  rewrite qabs_opp in K. by apply Qclt_not_eq in K.
Qed.
Lemma fd_inv f q : fd f q -> f 0 <> 0 -> fd (fun s => / f s) (- q / (f 0 * f 0)).
Proof.
  intros Hf H0. pose proof (fd_lip _ _ Hf) as Lf. pose proof (near_nonzero _ Lf H0) as Hn. destruct Hf as (p & <- & Hl & H).
  exists (fun s => - (p s) * (/ f s * / f 0)). split; [field; done|]. split.
  - apply (lip_ext (fun s => (- (1)) * p s * (/ f s * / f 0))); [apply near_all; intros; ring|].
    apply lip_mul; [apply lip_mul; [apply lip_const|done]|]. apply lip_mul; [by apply lip_inv|apply lip_const].
  - apply (near_impl _ _ (near_and _ _ H Hn)). intros s [E1 E2]. assert (s * p s = f s - f 0) as E3 by (rewrite E1; ring).
    replace (s * (- p s * (/ f s * / f 0))) with (- (s * p s) * (/ f s * / f 0)) by ring. rewrite E3. field. done.
Qed.
Lemma fd_div f g q q' : fd f q -> fd g q' -> g 0 <> 0 -> fd (fun s => f s / g s) (q / g 0 - f 0 * q' / (g 0 * g 0)).
Proof.
  intros Hf Hg H0. pose proof (fd_mul _ _ _ _ Hf (fd_inv _ _ Hg H0)) as K. simpl in K.
  replace (q / g 0 - f 0 * q' / (g 0 * g 0)) with (q * / g 0 + f 0 * (- q' / (g 0 * g 0))) by (field; done). exact K.
Qed.
Lemma fd_abs f q : fd f q -> f 0 <> 0 -> fd (fun s => qabs (f s)) (qsign (f 0) * q).
Proof.
  intros Hf H0. pose proof (lip_close f _ (fd_lip _ _ Hf) (qabs_pos _ H0)) as Hc.
  apply (fd_ext (fun s => qsign (f 0) * f s)); [|by apply fd_scale]. apply (near_impl _ _ Hc). intros s K. unfold qsign. case_decide as D.
  - assert (f s < 0) as E. { unfold qabs in K at 2. rewrite decide_True in K by done. destruct (qabs_cases (f s - f 0)) as [[? E]|[? E]]; rewrite E in K; revert D K H; clear; generalize (f s), (f 0); qc_nra. }
    unfold qabs. rewrite decide_True by done. ring.
  - assert (0 < f s) as E. { apply Qcnot_lt_le in D. unfold qabs in K at 2. rewrite decide_False in K by (by apply Qcle_not_lt). destruct (qabs_cases (f s - f 0)) as [[? E]|[? E]]; rewrite E in K; [|revert D K H; clear; generalize (f s), (f 0); qc_nra].
      apply Qcle_lt_or_eq in D as [D|D]; [|congruence]. revert D H. clear. generalize (f s), (f 0). qc_nra. }
    unfold qabs. rewrite decide_False by (by apply Qcle_not_lt, Qclt_le_weak). ring.
Qed.
Lemma fd_sum {A} (f : Qc -> A -> Qc) (q : A -> Qc) l : (forall x, x ∈ l -> fd (fun s => f s x) (q x)) -> fd (fun s => sumq (map (f s) l)) (sumq (map q l)).
Proof.
  induction l as [|x l IH]; intros H; cbn [map sumq foldr]; [apply fd_const|]. apply fd_add; [apply H; left|]. apply IH. intros y Hy. apply H. by right.
Qed.
(** ** extrema *)
Lemma near_forall {A} (P : A -> Qc -> Prop) (l : list A) : (forall x, x ∈ l -> near (P x)) -> near (fun s => forall x, x ∈ l -> P x s).
Proof.
  induction l as [|y l IH]; intros H; [apply near_all; by intros s x ?%elem_of_nil|].
  apply (near_impl _ _ (near_and _ _ (H y ltac:(left)) (IH (fun x Hx => H x ltac:(by right))))). intros s [K1 K2] x [->|Hx]%elem_of_cons; [done|by apply K2].
Qed.
Lemma near_lt f g : lip f -> lip g -> f 0 < g 0 -> near (fun s => f s < g s).
Proof.
  intros Hf Hg H. assert (lip (fun s => g s + (- (1)) * f s)) as Hu by (apply lip_add; [done|]; apply lip_mul; [apply lip_const|done]).
  assert (0 < g 0 - f 0) as H0 by (revert H; generalize (f 0), (g 0); clear; qc_nra).
  apply (near_impl _ _ (lip_close _ _ Hu H0)). intros s K. simpl in K. revert K. destruct (qabs_cases (g s + - (1) * f s - (g 0 + - (1) * f 0))) as [[K1 K2]|[K1 K2]]; rewrite K2; clear K2; revert K1 H; generalize (f s), (g s), (f 0), (g 0); clear; qc_nra.
Qed.
Lemma fd_greatest ss (f : list Z -> Qc -> Qc) (q : list Z -> Qc) best (g : Qc -> Qc) : in_range ss best ->
  (forall idx, in_range ss idx -> fd (f idx) (q idx)) -> (forall idx, in_range ss idx -> idx <> best -> f idx 0 < f best 0) ->
  (forall s, greatest ss (fun idx => f idx s) (g s)) -> fd g (q best).
Proof.
  intros Hb Hf Hlt Hg. eapply fd_ext; [|apply (Hf best Hb)].
  assert (near (fun s => forall idx, idx ∈ indices ss -> idx <> best -> f idx s < f best s)) as K.
  { apply near_forall. intros idx Hi%elem_of_indices. destruct (decide (idx = best)) as [->|Hne]; [by apply near_all|].
    apply (near_impl _ _ (near_lt _ _ (fd_lip _ _ (Hf idx Hi)) (fd_lip _ _ (Hf best Hb)) (Hlt idx Hi Hne))). done. }
  apply (near_impl _ _ K). intros s Ks. destruct (Hg s) as [(idx & Hi & E) Hmax]. destruct (decide (idx = best)) as [->|Hne]; [done|].
  exfalso. apply (Qclt_not_le _ _ (Ks idx ltac:(by apply elem_of_indices) Hne)). rewrite <- E. by apply Hmax.
Qed.
Lemma fd_least ss (f : list Z -> Qc -> Qc) (q : list Z -> Qc) best (g : Qc -> Qc) : in_range ss best ->
  (forall idx, in_range ss idx -> fd (f idx) (q idx)) -> (forall idx, in_range ss idx -> idx <> best -> f best 0 < f idx 0) ->
  (forall s, least ss (fun idx => f idx s) (g s)) -> fd g (q best).
Proof.
  intros Hb Hf Hlt Hg. eapply fd_ext; [|apply (Hf best Hb)].
  assert (near (fun s => forall idx, idx ∈ indices ss -> idx <> best -> f best s < f idx s)) as K.
  { apply near_forall. intros idx Hi%elem_of_indices. destruct (decide (idx = best)) as [->|Hne]; [by apply near_all|].
    apply (near_impl _ _ (near_lt _ _ (fd_lip _ _ (Hf best Hb)) (fd_lip _ _ (Hf idx Hi)) (Hlt idx Hi Hne))). done. }
  apply (near_impl _ _ K). intros s Ks. destruct (Hg s) as [(idx & Hi & E) Hmax]. destruct (decide (idx = best)) as [->|Hne]; [done|].
  exfalso. apply (Qclt_not_le _ _ (Ks idx ltac:(by apply elem_of_indices) Hne)). rewrite <- E. by apply Hmax.
Qed.
(** the greatest or least number of a list *)
Definition best_of (top : bool) (l : list Qc) : Qc :=
  match l with [] => 0 | x :: l => foldr (fun y m => if top then (if decide (m <= y) then y else m) else if decide (y <= m) then y else m) x l end.
Lemma best_of_ok top l : l <> [] -> best_of top l ∈ l /\ forall y, y ∈ l -> if top then y <= best_of top l else best_of top l <= y.
Proof.
  destruct l as [|x l]; [done|]. intros _. unfold best_of. induction l as [|y l [IH1 IH2]]; simpl.
  - split; [left|]. intros y Hy%elem_of_list_singleton. subst. destruct top; apply Qcle_refl.
  - set (m := foldr _ x l) in *. split.
    + apply elem_of_cons in IH1. destruct top; case_decide; set_solver.
    + assert (forall z, z ∈ x :: y :: l -> z = y \/ z ∈ x :: l) as K by set_solver. intros z [->|Hz]%K.
      * destruct top; case_decide as Hd; try apply Qcle_refl; apply Qclt_le_weak, Qcnot_le_lt; done.
      * specialize (IH2 z Hz). destruct top; case_decide as Hd; try done; by eapply Qcle_trans.
Qed.
Lemma greatest_unique ss f q q' : greatest ss f q -> greatest ss f q' -> q = q'.
Proof. intros [(i & Hi & ->) H] [(j & Hj & ->) H']. apply Qcle_antisym; auto. Qed.
Lemma least_unique ss f q q' : least ss f q -> least ss f q' -> q = q'.
Proof. intros [(i & Hi & ->) H] [(j & Hj & ->) H']. apply Qcle_antisym; auto. Qed.
Lemma best_greatest ss f : indices ss <> [] -> greatest ss f (best_of true (map f (indices ss))) /\ least ss f (best_of false (map f (indices ss))).
Proof.
  intros Hn. assert (map f (indices ss) <> []) as Hn' by (by destruct (indices ss)).
  split; [destruct (best_of_ok true _ Hn') as [H1 H2]|destruct (best_of_ok false _ Hn') as [H1 H2]]; (apply elem_of_list_fmap in H1 as (i & E & Hi%elem_of_indices); split; [by exists i|]); intros j Hj; apply H2; apply elem_of_list_fmap; exists j; by rewrite elem_of_indices.
Qed.
Lemma greatest_ext ss f f' q : (forall idx, in_range ss idx -> f idx = f' idx) -> greatest ss f q -> greatest ss f' q.
Proof. intros H [(i & Hi & ->) K]. split; [exists i; by rewrite H|]. intros j Hj. rewrite <- H by done. by apply K. Qed.
Lemma least_ext ss f f' q : (forall idx, in_range ss idx -> f idx = f' idx) -> least ss f q -> least ss f' q.
Proof. intros H [(i & Hi & ->) K]. split; [exists i; by rewrite H|]. intros j Hj. rewrite <- H by done. by apply K. Qed.
Lemma fd_slope f q : fd f q -> slope f q.
Proof.
  intros (p & <- & Hl & H) eps He. destruct (near_and _ _ H (lip_close p eps Hl He)) as (e & Hpos & K). exists e. split; [done|].
  intros s Hs Hsm. destruct (K s Hsm) as [E L]. rewrite E. by replace ((f 0 + s * p s - f 0) / s) with (p s) by (field; done).
Qed.
Lemma slope_unique f q q' : slope f q -> slope f q' -> q = q'.
Proof.
  intros H H'. destruct (decide (q = q')) as [|Hne]; [done|]. assert (q - q' <> 0) as Hd. { intros E. apply Hne. replace q with (q - q' + q') by ring. rewrite E. ring. }
  pose proof (qabs_pos _ Hd) as Hp. assert (0 < qabs (q - q') * / (1 + 1)) as Hh by (apply mul_pos; [done|by apply inv_pos]).
  destruct (H _ Hh) as (e & He & K), (H' _ Hh) as (e' & He' & K').
  destruct (near_and (fun s => qabs s < e) (fun s => qabs s < e') (near_small e He) (near_small e' He')) as (m & Hm & M).
  set (s := m * / (1 + 1)). assert (0 < s) as Hs by (apply mul_pos; [done|by apply inv_pos]). assert (qabs s < m) as Hsm.
  { assert (m = s + s) as Em. { unfold s. replace (m * / (1 + 1) + m * / (1 + 1)) with (m * ((1 + 1) * / (1 + 1))) by ring. rewrite Qcmult_inv_r by done. ring. }
    destruct (qabs_cases s) as [[? E]|[? E]]; rewrite E; rewrite Em; revert Hs; generalize s; clear; qc_nra. }
  destruct (M s Hsm) as [M1 M2]. assert (s <> 0) as Hne0 by (intros E; rewrite E in Hs; done). specialize (K s Hne0 M1). specialize (K' s Hne0 M2).
  set (w := (f s - f 0) / s) in *. pose proof (qabs_add (- (w - q)) (w - q')) as T. replace (- (w - q) + (w - q')) with (q - q') in T by ring. rewrite qabs_opp in T.
  exfalso. assert (qabs (q - q') = qabs (q - q') * / (1 + 1) + qabs (q - q') * / (1 + 1)) as E2.
  { replace (qabs (q - q') * / (1 + 1) + qabs (q - q') * / (1 + 1)) with (qabs (q - q') * ((1 + 1) * / (1 + 1))) by ring. rewrite Qcmult_inv_r by done. ring. }
  revert K K' T E2. generalize (qabs (q - q') * / (1 + 1)). generalize (qabs (w - q)), (qabs (w - q')), (qabs (q - q')). clear. intros b c x a K K' T E. rewrite E in T. clear E. revert K K' T. qc_nra.
Qed.
