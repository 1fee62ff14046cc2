(** Rounding in the two formats, exact results, valid floats in reachable states, and the error of sum(). *)
From Coq Require Import QArith Qcanon Qabs Qpower Lqa Floats.SpecFloat.
From Verif.Proofs Require Export Frame2 Alive Round.
From Verif.Model Require Import Ieee Exact Api.
Local Open Scope Z_scope.

Lemma fmt_p t : 1 < precision t. Proof. by destruct t. Qed.
Lemma fmt_x t : precision t < exp_limit t. Proof. by destruct t. Qed.
Lemma denotes_fval t f a : denotes t f a = true -> valid_binary (precision t) (exp_limit t) f = true /\ fval f a.
Proof.
  unfold denotes. rewrite andb_true_iff. intros [Hv H]. split; [done|]. destruct (sf_value f) as [v|] eqn:E; [|done]. exists v. split; [done|]. apply Qc_eq_bool_correct in H. by rewrite H.
Qed.
Lemma fval_denotes t f (a : Qc) : valid_binary (precision t) (exp_limit t) f = true -> fval f a -> denotes t f a = true.
Proof.
  intros Hv (v & E & H). unfold denotes. rewrite Hv, E, andb_true_l. apply Qc_is_canon in H as ->. unfold Qc_eq_bool. case (Qcanon.Qc_eq_dec a a); [intros _; reflexivity|intros N; by destruct N].
Qed.
Theorem ieee_rounds t x y (a b : Qc) : denotes t x a = true -> denotes t y b = true ->
  rounds t (a + b) (@f_add Ieee t x y) /\ rounds t (a - b) (@f_sub Ieee t x y) /\ rounds t (a * b) (@f_mul Ieee t x y) /\
  (~ b == 0 -> rounds t (a / b) (@f_div Ieee t x y))%Q.
Proof.
  intros [Va Ha]%denotes_fval [Vb Hb]%denotes_fval. pose proof (fmt_p t). pose proof (fmt_x t). split; [|split; [|split]].
  - by apply add_nearest.
  - by apply sub_nearest.
  - by apply mul_nearest.
  - by apply div_nearest.
Qed.
Theorem ieee_of_rounds t z : rounds t (inject_Z z) (@f_of_Z Ieee t z).
Proof.
  eapply nearest_eq; [|apply normalize_nearest; [apply fmt_p|apply fmt_x]]. unfold scale. change (Qpower 2 0) with 1%Q. lra.
Qed.
Theorem ieee_cvt_rounds t u x (a : Qc) : denotes u x a = true -> rounds t a (@f_cvt Ieee t x).
Proof.
  intros [Va Ha]%denotes_fval. pose proof (fmt_p t). pose proof (fmt_x t). destruct x as [s|s| |s m e]; try (by destruct Ha as (? & ? & ?)); cbn [f_cvt Ieee ieee_cvt].
  - apply (nearest_fval _ _ H H0 _ _ a); done.
  - apply fval_finite in Ha. eapply nearest_eq; [|by apply normalize_nearest]. by rewrite Ha, sq_scale.
Qed.
Theorem rounds_exact t q f : rounds t q f -> representable t q <-> fval f q.
Proof.
  pose proof (fmt_p t). pose proof (fmt_x t). intros [Hv Hf]. split.
  - intros (m & e & Hn & Hq). pose proof (number_small _ _ H m e Hn) as Hs. rewrite <- Hq in Hs.
    assert (forall v : Q, Qabs (v - q) <= Qabs (scale m e - q) -> v == q)%Q as Hz.
    { intros v. rewrite <- Hq. setoid_replace (q - q)%Q with 0%Q by lra. change (Qabs 0) with 0%Q. intros Hl. absq (v - q)%Q; lra. }
    destruct f as [s|s| |s m' e']; try done.
    + destruct Hf as [_ (v & E & Hb)]. exists v. split; [done|]. apply Hz. by apply Hb.
    + exfalso. absq q; destruct s; lra.
    + destruct Hf as [_ (v & E & Hb)]. exists v. split; [done|]. apply Hz. by apply Hb.
  - intros (v & E & H1). destruct (value_number _ _ H H0 f v Hv E) as (m & e & Hn & Hs). exists m, e. split; [done|]. by rewrite <- H1.
Qed.
Lemma keep_iff t q f (c : Qc) : (q == c)%Q -> rounds t q f -> (representable t q <-> (keep t f (Some c)).2 = Some c) /\ (~ representable t q -> (keep t f (Some c)).2 = None).
Proof.
  intros E H. pose proof (rounds_exact t q f H) as Hr. assert (fval f q <-> denotes t f c = true) as Hd.
  { split.
    - intros (v & Ev & H'). apply fval_denotes; [apply H|]. exists v. split; [done|]. by rewrite H'.
    - intros [_ (v & Ev & H')]%denotes_fval. exists v. split; [done|]. by rewrite H', E. }
  unfold keep. cbn. split.
  - rewrite Hr, Hd. destruct (denotes t f c); done.
  - intros Hn. destruct (denotes t f c) eqn:Ed; [|done]. exfalso. apply Hn, Hr, Hd. done.
Qed.
Lemma Qc_plus (a b : Qc) : (a + b == (a + b)%Qc)%Q. Proof. cbn. by rewrite Qred_correct. Qed.
Lemma Qc_minus (a b : Qc) : (a - b == (a - b)%Qc)%Q. Proof. cbn. rewrite !Qred_correct. done. Qed.
Lemma Qc_mult (a b : Qc) : (a * b == (a * b)%Qc)%Q. Proof. cbn. by rewrite Qred_correct. Qed.
Lemma Qc_div (a b : Qc) : (a / b == (a / b)%Qc)%Q. Proof. cbn. rewrite !Qred_correct. done. Qed.
Theorem watch_kept t x y (a b : Qc) : denotes t x a = true -> denotes t y b = true ->
  kept_iff t (a + b) (@f_add Watch t (x, Some a) (y, Some b)) /\ kept_iff t (a - b) (@f_sub Watch t (x, Some a) (y, Some b)) /\
  kept_iff t (a * b) (@f_mul Watch t (x, Some a) (y, Some b)) /\ (b <> 0%Qc -> kept_iff t (a / b) (@f_div Watch t (x, Some a) (y, Some b))).
Proof.
  intros H1 H2. destruct (ieee_rounds t x y a b H1 H2) as (Ha & Hs & Hm & Hd).
  assert (forall q f (c : Qc), (q == c)%Q -> rounds t q f -> kept_iff t c (keep t f (Some c))) as K.
  { intros q f c E H. destruct (keep_iff t q f c E H) as [K1 K2]. assert (representable t c <-> representable t q) as Hq. { unfold representable. split; intros (m & e & Hn & He); exists m, e; (split; [done|]); [by rewrite E|by rewrite <- E]. }
    split; rewrite Hq; [apply K1|apply K2]. }
  split; [|split; [|split]].
  - exact (K _ _ _ (Qc_plus a b) Ha).
  - exact (K _ _ _ (Qc_minus a b) Hs).
  - exact (K _ _ _ (Qc_mult a b) Hm).
  - intros Hb. refine (K _ _ _ (Qc_div a b) (Hd _)). intros E. apply Hb. apply Qc_is_canon. exact E.
Qed.
Theorem watch_kept_cvt t u x (a : Qc) z : denotes u x a = true -> kept_iff t a (@f_cvt Watch t (x, Some a)) /\ kept_iff t (qc_of_Z z) (@f_of_Z Watch t z).
Proof.
  assert (forall q f (c : Qc), (q == c)%Q -> rounds t q f -> kept_iff t c (keep t f (Some c))) as K.
  { intros q f c E H. destruct (keep_iff t q f c E H) as [K1 K2]. assert (representable t c <-> representable t q) as Hq. { unfold representable. split; intros (m & e & Hn & He); exists m, e; (split; [done|]); [by rewrite E|by rewrite <- E]. }
    split; rewrite Hq; [apply K1|apply K2]. }
  intros H1. split.
  - refine (K a _ _ _ (ieee_cvt_rounds t u x a H1)). done.
  - refine (K _ _ _ _ (ieee_of_rounds t z)). cbn. by rewrite Qred_correct.
Qed.

(** ** floats are numbers of their formats *)
Section valid.
Variables (p x : Z).
Hypothesis Hp : 1 < p.
Hypothesis Hx : p < x.
Notation ok := (fun f => valid_binary p x f = true).
Lemma fin_val s m e : fval (S754_finite s m e) (sq s m e).
Proof. eexists. split; [done|]. cbn [this Q2Qc]. by rewrite Qred_correct. Qed.
Lemma fin_nz s m e : ~ (sq s m e == 0)%Q.
Proof.
  rewrite sq_sgn. assert (0 < scale (Zpos m) e)%Q as H. { unfold scale. pose proof (pow2_pos e). assert (0 < inject_Z (Zpos m))%Q by (by apply (Round.inj_lt 0)). nra. }
  destruct s; unfold sgn; lra.
Qed.
Lemma add_valid f g : ok f -> ok g -> ok (SFadd p x f g).
Proof.
  intros Hf Hg. destruct f as [s|s| |s m e], g as [s'|s'| |s' m' e']; cbn [SFadd]; try done; try (by destruct (Bool.eqb _ _)). by apply normalize_nearest.
Qed.
Lemma sub_valid f g : ok f -> ok g -> ok (SFsub p x f g).
Proof.
  intros Hf Hg. destruct f as [s|s| |s m e], g as [s'|s'| |s' m' e']; cbn [SFsub]; try done; try (by destruct (Bool.eqb _ _)). by apply normalize_nearest.
Qed.
Lemma mul_valid f g : ok f -> ok g -> ok (SFmul p x f g).
Proof.
  intros Hf Hg. destruct f as [s|s| |s m e], g as [s'|s'| |s' m' e']; try done. apply (mul_nearest p x Hp Hx _ _ _ _ Hf Hg (fin_val _ _ _) (fin_val _ _ _)).
Qed.
Lemma div_valid f g : ok f -> ok g -> ok (SFdiv p x f g).
Proof.
  intros Hf Hg. destruct f as [s|s| |s m e], g as [s'|s'| |s' m' e']; try done. apply (div_nearest p x Hp Hx _ _ _ _ Hf Hg (fin_val _ _ _) (fin_val _ _ _) (fin_nz _ _ _)).
Qed.
End valid.
Definition Rv (t : fty) (x y : @F Ieee) : Prop := x = y /\ valid_binary (precision t) (exp_limit t) x = true.
Lemma ieee_valid : related Ieee Ieee Rv (fun _ => True).
Proof.
  split; try done.
  - intros t z. split; [done|]. apply ieee_of_rounds.
  - intros t u x y [<- _]. split; [done|]. cbn. destruct x as [s|s| |s m e]; try done. cbn [ieee_cvt]. apply normalize_nearest; [apply fmt_p|apply fmt_x].
  - intros t x y a b [<- Hx] [<- Ha]. split; [done|]. apply add_valid; [apply fmt_p|apply fmt_x|done|done].
  - intros t x y a b [<- Hx] [<- Ha]. split; [done|]. apply sub_valid; [apply fmt_p|apply fmt_x|done|done].
  - intros t x y a b [<- Hx] [<- Ha]. split; [done|]. apply mul_valid; [apply fmt_p|apply fmt_x|done|done].
  - intros t x y a b [<- Hx] [<- Ha]. split; [done|]. apply div_valid; [apply fmt_p|apply fmt_x|done|done].
  - intros t x y [<- Hx]. split; [done|]. by apply valid_opp.
  - by intros t x y a b [<- _] [<- _].
  - by intros t x y a b [<- _] [<- _].
  - by intros t x y a b [<- _] [<- _].
  - intros t x y [<- _]. by right.
Qed.
Notation V := (hrel (fa:=Ieee) (fb:=Ieee) (fun _ : nat => Rv) 0).
Lemma lit_valid (o : @op Ieee) : proper o -> lit_ok (R:=Rv) (fc:=Ieee) (fun x => x) (fun x => x) (lits o).
Proof. intros H t v Hv. specialize (H t v Hv). destruct v; cbn; [done|]. destruct H. by split. Qed.
Lemma reads_odometer {fo : FOps} {R} rg (body : list Z -> @E fo (option R)) : (forall v, reads (body v)) -> reads (odometer rg body).
Proof.
  intros Hb h. pose proof (odometer_pres (fun a b => a = h /\ b = h) rg body) as K. destruct K with (s1 := h) (s2 := h) as [_ [K1 _]]; [|done|done].
  intros v a b [-> ->]. split; [done|]. by rewrite (Hb v h).
Qed.
Lemma reads_op_all {fo : FOps} t : reads (op_all t).
Proof.
  unfold op_all. apply reads_bind; [apply reads_get_ten|]. intros r. cbv zeta. destruct (existsb _ _); [apply reads_ret|]. destruct (sizes (t_lay r)).
  - apply reads_bind; [apply reads_idx_exact|]. intros p. apply reads_load_bool.
  - apply reads_bind; [|intros; apply reads_ret]. apply reads_odometer. intros v. apply reads_bind; [apply reads_idx_exact|]. intros p. apply reads_bind; [apply reads_load_bool|]. intros; apply reads_ret.
Qed.
Lemma exec_valid (o : @op Ieee) h : proper o -> V h h -> (exec o h).1 = UB FloatRange \/ V (exec o h).2 (exec o h).2.
Proof.
  intros Hl H. destruct (match o with QAll _ => true | _ => false end) eqn:E.
  - right. destruct o; try done. assert ((exec (QAll a) h).2 = h) as ->; [|done]. cbn [exec].
    apply (reads_bind (deref a)); [apply reads_deref|]. intros x. apply reads_bind; [apply reads_op_all|]. intros; apply reads_ret.
  - unshelve epose proof (p_exec (fc:=Ieee) ieee_valid (fun x => x) (fun x => x) (fun _ _ => True) _ _ _ o h h (lit_valid o Hl) H _) as K; try done.
    + destruct o; try done; cbn; destruct a; try done; destruct b; try done. by right; right.
    + rewrite !map_op_id in K. destruct K as [K|[_ K]]; [by left|by right].
Qed.
Theorem run_valid ops : forall h rs g, (forall o, o ∈ ops -> proper o) -> V h h -> run h ops = (Ok rs, g) -> V g g.
Proof.
  induction ops as [|o ops IH]; intros h rs g HL H; cbn [run].
  - intros E. by injection E as _ <-.
  - destruct (exec_valid o h ltac:(apply HL; by left) H) as [E|E]; destruct (exec o h) as [a h1]; cbn [fst snd] in *; [by subst|].
    destruct a as [r|e|u|]; try done.
    + destruct (run h1 ops) as [[rs0|?|?|] g0] eqn:Er; try done. intros X. injection X as _ <-. apply (IH h1 rs0); [|done|done]. intros o' Ho. apply HL. by right.
    + destruct (run h1 ops) as [[rs0|?|?|] g0] eqn:Er; try done. intros X. injection X as _ <-. apply (IH h1 rs0); [|done|done]. intros o' Ho. apply HL. by right.
Qed.
Theorem valid_floats ops rs (h : @heap Ieee) : (forall o, o ∈ ops -> proper o) -> run empty_heap ops = (Ok rs, h) ->
  forall s x cs f, h_sto h !! s = Some x -> sto_blob x = Some cs -> Some (VF f) ∈ cs ->
    is_int (sto_ty x) = false /\ valid_binary (precision (fty_of (sto_ty x))) (exp_limit (fty_of (sto_ty x))) f = true.
Proof.
  intros HL Hr s x cs f Hs Hc Hf. pose proof (run_valid ops empty_heap rs h HL (start_rel _) Hr) as H.
  destruct (hr_sto _ _ _ _ H _ _ Hs) as (x' & _ & _ & _ & B). rewrite Hc in B. inversion B as [? cs' B'|]; subst.
  apply elem_of_list_lookup in Hf as [i Hi]. destruct (Forall2_lookup_l _ _ _ _ _ B' Hi) as (c' & _ & Hc'). inversion Hc' as [? v' Hv'|]; subst.
  destruct v' as [|f']; [done|]. destruct Hv' as [E [_ Hv]]. done.
Qed.
