(** Training. *)
From Verif.Spec Require Export Train.
From Verif.Proofs Require Export Formula.
From Verif.Model Require Export Exact Api.
#[local] Existing Instance Exact.

Definition same_shapes (H : list nat) (h h' : heap) : Prop := forall a, a ∈ H -> shape_of h' a = shape_of h a.
Definition agree (H : list nat) (h : heap) (V V' : nat -> list Z -> Qc) : Prop := forall a i, a ∈ H -> in_range (shape_of h a) i -> V' a i = V a i.

Lemma may_write_held h H e : may_write h H e -> forall b, mentions e b -> b ∈ H.
Proof.
  induction e as [c|o p IHp q IHq]; cbn [may_write mentions]; intros Hm b Hb.
  - subst c. by destruct Hm as (r & [? _] & _).
  - destruct Hm as (? & ? & _), Hb; auto.
Qed.
Lemma form_same h h' H e : same_shapes H h h' -> (forall b, mentions e b -> b ∈ H) -> form h' e = form h e.
Proof.
  intros Hs. induction e as [c|o p IHp q IHq]; cbn [form mentions]; intros Hm; [by apply Hs, Hm|]. rewrite IHp, IHq; auto.
Qed.
Lemma eval_same v v' e : (forall b, mentions e b -> v' b = v b) -> eval v' e = eval v e.
Proof. induction e as [c|o p IHp q IHq]; cbn [eval mentions]; intros Hm; [by apply Hm|]. rewrite IHp, IHq; auto. Qed.
Lemma rate_same v v' a e : (forall b, mentions e b -> v' b = v b) -> rate v' a e = rate v a e.
Proof.
  induction e as [c|o p IHp q IHq]; cbn [rate mentions]; intros Hm; [done|].
  rewrite IHp, IHq, (eval_same v v' p), (eval_same v v' q) by auto. done.
Qed.
(** positions of the result read elements of the variables *)
Lemma reads_in h H e : may_write h H e -> forall idx, (length (form h e) <= length idx)%nat -> in_range (form h e) (bidx (form h e) idx) ->
  forall b, mentions e b -> in_range (shape_of h b) (bidx (shape_of h b) idx).
Proof.
  induction e as [c|o p IHp q IHq]; intros Hm idx Hl Hi b Hb.
  - cbn in Hb. by subst c.
  - destruct (form_in h H (Bin o p q) idx Hm Hl Hi) as (L1 & I1 & _ & L2 & I2 & _). destruct Hm as (? & ? & _), Hb; eauto.
Qed.
Lemma seen_same h h' H e V V' idx : same_shapes H h h' -> may_write h H e -> agree H h V V' -> in_range (form h e) idx ->
  forall b, mentions e b -> seen h' V' idx b = seen h V idx b.
Proof.
  intros Hs Hm Hv Hi b Hb. unfold seen. pose proof (may_write_held h H e Hm b Hb) as HbH. rewrite (Hs b HbH). apply Hv; [done|].
  eapply reads_in; [done| | |done]; [by rewrite (in_range_length _ _ Hi)|by rewrite Binary.bidx_self].
Qed.
Lemma loss_same h h' H e V V' : same_shapes H h h' -> may_write h H e -> agree H h V V' -> loss h' e V' = loss h e V.
Proof.
  intros Hs Hm Hv. unfold loss. rewrite (form_same h h' H e Hs) by (by eapply may_write_held). apply sum_over_ext. intros idx Hi.
  apply eval_same. by eapply seen_same.
Qed.
Lemma loss_rate_same h h' H e V V' a i : same_shapes H h h' -> may_write h H e -> agree H h V V' -> a ∈ H -> loss_rate h' e V' a i = loss_rate h e V a i.
Proof.
  intros Hs Hm Hv Ha. unfold loss_rate. rewrite (form_same h h' H e Hs) by (by eapply may_write_held). rewrite (Hs a Ha). apply sum_over_ext. intros idx Hi.
  case_decide; [|done]. apply rate_same. by eapply seen_same.
Qed.
Lemma descent_same h h' H e c ls V V' : same_shapes H h h' -> may_train h H e c ls -> agree H h V V' -> agree H h (descent h e c ls V) (descent h' e c ls V').
Proof.
  intros Hs Hm Hv a i Ha Hi. unfold descent. case_decide as Hl; [|by apply Hv].
  rewrite (loss_rate_same h h' H e V V' a i Hs (mt_write _ _ _ _ _ Hm) Hv Ha), (Hv a i Ha Hi).
  destruct (mt_params _ _ _ _ _ Hm a Hl) as (_ & (ra & rc & [_ Hra] & _ & _ & [Hc Hrc] & _ & Hcc & _ & Hcs & _) & _).
  rewrite (Hs c Hc). f_equal. f_equal. apply Hv; [done|]. rewrite (shape_rec h c rc Hrc). rewrite (shape_rec h a ra Hra) in Hi.
  eapply bidx_in_r; [exact Hcc|]. by rewrite Hcs.
Qed.
Lemma iter_same h h' H e c ls V V' n : same_shapes H h h' -> may_train h H e c ls -> agree H h V V' ->
  agree H h (Nat.iter n (descent h e c ls) V) (Nat.iter n (descent h' e c ls) V').
Proof. intros Hs Hm Hv. induction n as [|n IH]; [done|]. cbn [Nat.iter]. by apply descent_same. Qed.

(** what a round keeps *)
Definition kept_leaf (h h' : heap) (x : nat) : Prop :=
  forall r, h_ten h !! x = Some r -> exists r', h_ten h' !! x = Some r' /\ same_data r r' /\ t_rg r' = t_rg r /\ ~ is_node h' x.
Lemma moving_kept h h' (H : list nat) e : (forall x, x ∈ H -> kept_leaf h h' x) -> (forall x, x ∈ H -> is_Some (h_ten h !! x)) -> (forall b, mentions e b -> b ∈ H) -> moving h' e <-> moving h e.
Proof.
  intros Hk Hs Hm. split; intros (a & Ha & r & Hr & Et); destruct (Hs a (Hm a Ha)) as [r0 Hr0]; destruct (Hk a (Hm a Ha) r0 Hr0) as (r' & Hr' & _ & E & _); exists a; (split; [done|]).
  - exists r0. split; [done|]. congruence.
  - exists r'. split; [done|]. congruence.
Qed.
Lemma may_write_kept h h' (H : list nat) e : (forall x, x ∈ H -> kept_leaf h h' x) -> (forall x, x ∈ H -> is_Some (h_ten h !! x)) -> same_shapes H h h' ->
  may_write h H e -> may_write h' H e.
Proof.
  intros Hk Hs Hsh. induction e as [a|o p IHp q IHq]; cbn [may_write]; intros Hm.
  - destruct Hm as (r & [Ha Hr] & _ & Hf). destruct (Hk a Ha r Hr) as (r' & Hr' & (D1 & _) & _ & Hn). exists r'. split; [done|]. split; [done|]. by rewrite <- D1.
  - pose proof Hm as (M1 & M2 & M3 & M4 & M5 & M6). pose proof (may_write_held h H p M1) as Hp. pose proof (may_write_held h H q M2) as Hq.
    rewrite (form_same h h' H p Hsh Hp), (form_same h h' H q Hsh Hq), (moving_kept h h' H p Hk Hs Hp), (moving_kept h h' H q Hk Hs Hq). auto 10.
Qed.
Lemma may_train_kept h h' (H : list nat) e c ls : (forall x, x ∈ H -> kept_leaf h h' x) -> (forall x, x ∈ H -> is_Some (h_ten h !! x)) -> same_shapes H h h' ->
  may_train h H e c ls -> may_train h' H e c ls.
Proof.
  intros Hk Hs Hsh [M1 M2 M3 M4 M5]. split; [|by eapply may_write_kept|done|done|].
  - intros a Ha. destruct (Hs a Ha) as [r Hr]. by destruct (Hk a Ha r Hr) as (r' & _ & _ & _ & ?).
  - intros a Ha. destruct (M5 a Ha) as (N1 & N2 & N3). split; [done|]. pose proof N2 as (ra & rc & [A1 A2] & _ & A3 & [A4 A5] & A6 & A7). split.
    + destruct (Hk a A1 ra A2) as (ra' & Ra & (D1 & D2 & _) & D3 & D4). destruct (Hk c A4 rc A5) as (rc' & Rc & (C1 & C2 & _) & C3 & _).
      exists ra', rc'. split; [done|]. split; [done|]. split; [congruence|]. split; [done|]. split; [congruence|]. unfold shape in *. by rewrite <- D1, <- D2, <- C1, <- C2.
    + intros b Hb Hne rx ry Hx Hy. destruct (Hs b Hb) as [rb Hrb]. destruct (Hk b Hb rb Hrb) as (rb' & Rb & (_ & _ & B3) & _).
      destruct (Hk a A1 ra A2) as (ra' & Ra & (_ & _ & D3) & _). pose proof (N3 b Hb Hne rb ra Hrb A2) as K. congruence.
Qed.

Definition zero_grads (h : heap) (ls : list nat) : Prop := forall a i, a ∈ ls -> in_range (shape_of h a) i -> grad_value h a i = 0%Qc.
Lemma round ops H h e c ls : program ops H none h -> may_train h H e c ls -> zero_grads h ls ->
  exists l x h1 t h2 h3 u h4, written h e l x h1 /\ exec (OSum (Some x)) h1 = (Ok (RHandle (Some t)), h2) /\
    exec (OBackward (Some t)) h2 = (Ok RUnit, h3) /\ updated c h3 ls u h4 /\
    program (ops ++ l ++ OSum (Some x) :: OBackward (Some t) :: u) H none h4 /\
    value h2 t [] = loss h e (value h) /\ agree H h (descent h e c ls (value h)) (value h4) /\ same_shapes H h h4 /\
    may_train h4 H e c ls /\ zero_grads h4 ls.
Proof.
  intros Hp Hm Hz. destruct (program_GI _ _ _ _ Hp) as (D & G & HD). pose proof Hm as [M1 M2 M3 M4 M5].
  assert (forall x, x ∈ H -> is_Some (h_ten h !! x)) as Hsome. { intros x Hx. destruct (g_rec _ _ _ G x (HD x Hx)) as (r & Hr & _). by exists r. }
  assert (forall a, a ∈ ls -> a ∈ H /\ tracked h a) as Hls.
  { intros a Ha. destruct (M5 a Ha) as (_ & (ra & rc & [A1 A2] & _ & A3 & _) & _). split; [done|by exists ra]. }
  assert (moving h e) as Hmv. { destruct ls as [|a ls']; [done|]. exists a. split; [apply M5|apply Hls]; mem. }
  destruct (formula_loss ops H none h e Hp M2 Hmv) as (l & x & h1 & t & h2 & H2 & W & Ex & Ev & P2 & S2 & E02 & Hmay & Hbel & Hder).
  assert (forall x, x ∈ H -> h_ten h2 !! x = h_ten h !! x) as ET. { intros y Hy. destruct (Hsome y Hy) as [r Hr]. rewrite Hr. by apply E02. }
  assert (same_shapes H h h2) as Sh2. { intros y Hy. unfold shape_of, lay_of. by rewrite ET. }
  assert (forall x, x ∈ H -> ~ is_node h2 x) as N2. { intros y Hy. unfold is_node, fn_of. rewrite ET by done. by apply M1. }
  assert (forall a, a ∈ ls -> c ∈ H /\ a <> c) as Hac.
  { intros a Ha. destruct (M5 a Ha) as (_ & (ra & rc & [A1 A2] & _ & A3 & [A4 A5] & A6 & _) & _). split; [done|]. intros ->. congruence. }
  assert (forall a b, a ∈ ls -> b ∈ H -> b <> a -> apart h2 b a) as Hap.
  { intros a b Ha Hb Hne rx ry Hx Hy. rewrite ET in Hx by done. rewrite ET in Hy by (by apply Hls). by apply (proj2 (proj2 (M5 a Ha)) b). }
  assert (forall a i, a ∈ H -> value h2 a i = value h a i) as Hval. { intros a i Ha. apply (old_value D none h h2 G E02). by apply HD. }
  destruct (descend _ H2 none h2 t c ls H P2 Hmay M4) as (h3 & u & h4 & E3 & U & P4 & V & O & R).
  { intros y Hy. auto. }
  { intros a Ha. destruct (M5 a Ha) as (N1 & (ra & rc & [A1 A2] & B & A3 & [A4 A5] & A6 & A7) & N3). split.
    - exists ra, rc. unfold at_hand. rewrite !ET by done. split; [done|]. split; [by apply N2|]. done.
    - split; [apply Hbel; [done|by apply Hls]|]. destruct (Hac a Ha) as [? ?]. split; [by apply Hap|]. intros b Hb Hne. apply Hap; [done| |done]. by apply Hls. }
  exists l, x, h1, t, h2, h3, u, h4. split; [done|]. split; [done|]. split; [done|]. split; [done|].
  assert (forall x, x ∈ H -> kept_leaf h h4 x) as Hk. { intros y Hy r Hr. apply R; [done|]. by rewrite ET. }
  assert (same_shapes H h h4) as Sh4. { intros y Hy. destruct (Hsome y Hy) as [r Hr]. destruct (Hk y Hy r Hr) as (r' & Hr' & (_ & D2 & _) & _). unfold shape_of, lay_of. by rewrite Hr, Hr', D2. }
  split; [rewrite <- !app_assoc in P4; exact P4|]. split; [exact Ev|].
  assert (forall a i, a ∈ ls -> in_range (shape_of h a) i -> value h4 a i = (value h a i + value h c (bidx (shape_of h c) i) * loss_rate h e (value h) a i)%Qc /\ grad_value h4 a i = 0%Qc) as K.
  { intros a i Ha Hi. destruct (Hls a Ha) as [HaH Ta]. destruct (V a i Ha) as (q & Hq & _ & Vq & Zq); [by rewrite Sh2|]. split; [|done]. rewrite Vq.
    rewrite (grad_ext D none h h2 a i G (HD a HaH) (M1 a HaH) Ta E02), (Hz a i Ha Hi). destruct (Hac a Ha) as [Hc _]. rewrite !Hval, (Sh2 c Hc) by done.
    rewrite (Hder a i q Ta Hq). unfold loss_rate. change (seen h (value h)) with (Spec.Formula.reads h). ring. }
  split; [|split; [done|split]].
  - intros a i Ha Hi. unfold descent. case_decide as Hl; [by apply K|]. rewrite O; [by apply Hval|done|]. intros b Hb. apply Hap; [done|done|]. by intros ->.
  - by eapply may_train_kept.
  - intros a i Ha Hi. apply K; [done|]. rewrite <- Sh4; [done|by apply Hls].
Qed.
Lemma train n : forall ops H h e c ls, program ops H none h -> may_train h H e c ls -> zero_grads h ls ->
  exists l h', trained e c ls h (map (fun k => loss h e (Nat.iter k (descent h e c ls) (value h))) (seq 0 n)) l h' /\
    program (ops ++ l) H none h' /\
    forall a i, a ∈ H -> in_range (shape_of h a) i -> value h' a i = Nat.iter n (descent h e c ls) (value h) a i.
Proof.
  induction n as [|n IH]; intros ops H h e c ls Hp Hm Hz.
  { exists [], h. rewrite app_nil_r. split; [constructor|done]. }
  destruct (round ops H h e c ls Hp Hm Hz) as (l & x & h1 & t & h2 & h3 & u & h4 & W & Ex & E3 & U & P4 & Ev & Ag & Sh & M4 & Z4).
  destruct (IH _ H h4 e c ls P4 M4 Z4) as (l' & h' & Tr & P' & V').
  assert (forall k, agree H h (Nat.iter (S k) (descent h e c ls) (value h)) (Nat.iter k (descent h4 e c ls) (value h4))) as Hit.
  { intros k. rewrite Nat.iter_succ_r. by apply iter_same. }
  exists ((l ++ OSum (Some x) :: OBackward (Some t) :: u) ++ l'), h'. split; [|split].
  - cbn [seq map]. change (Nat.iter 0 (descent h e c ls) (value h)) with (value h). rewrite <- Ev. apply (TRound e c ls h l x h1 t h2 h3 u h4); try done. rewrite <- seq_shift, map_map.
    erewrite map_ext; [exact Tr|]. intros k. symmetry. apply (loss_same h h4 H); [done|apply Hm|apply Hit].
  - by rewrite app_assoc.
  - intros a i Ha Hi. rewrite V' by (done || by rewrite Sh). by apply Hit.
Qed.
