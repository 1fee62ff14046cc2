(** Two instances of the floating-point operations: comparisons and histories. *)
From Verif.Proofs Require Export Basics Rel3.
From Verif.Model Require Import Api.

Section rel.
Context {fa fb : FOps} {R : fty -> @F fa -> @F fb -> Prop} {clean : @F fa -> Prop} (HR : related fa fb R clean).
Notation frel := (fty -> @F fa -> @F fb -> Prop).
Definition Rc : frel := fun t x x' => R t x x' /\ clean x.
Lemma vrel_mono (Q Q' : frel) t v v' : (forall u x y, Q u x y -> Q' u x y) -> vrel Q t v v' -> vrel Q' t v v'.
Proof. intros H. destruct v, v'; try done. intros [? ?]. split; [done|by apply H]. Qed.
Lemma strel_mono (Q Q' : frel) s s' : (forall u x y, Q u x y -> Q' u x y) -> strel Q s s' -> strel Q' s s'.
Proof.
  intros H (E1 & E2 & B). split; [done|]. split; [done|]. destruct B as [cs cs' B|]; constructor. eapply Forall2_impl; [exact B|].
  intros c c' Hc. destruct Hc; constructor. by eapply vrel_mono.
Qed.
Lemma hrel_mono (Qs Qs' : nat -> frel) n h h' : (forall s u x y, Qs s u x y -> Qs' s u x y) -> hrel Qs n h h' -> hrel Qs' 0 h h'.
Proof. intros H [H1 H2 H3 H4 H5]. split; try done; [lia|]. intros s x E. destruct (H3 _ _ E) as (x' & E' & K). exists x'. split; [done|]. eapply strel_mono; [apply H|done]. Qed.
Lemma c_zero u : Rc u f_zero f_zero. Proof. split; apply HR. Qed.
Lemma c_cvt_int T D z : is_int T = true -> -1 <= z <= 1 -> exists v v', cvt (fo:=fa) T D (VI z) = Ok v /\ cvt (fo:=fb) T D (VI z) = Ok v' /\ vrel Rc D v v'.
Proof.
  intros HT Hz. cbn [cvt]. destruct (is_int D) eqn:E; (eexists _, _; split; [done|]; split; [done|]); cbn; rewrite E; (split; [done|]); [done|].
  split; [apply HR|by apply (C_of HR)].
Qed.
Lemma c_cvt_same T v v' : vrel Rc T v v' -> ore (vrel Rc T) (cvt (fo:=fa) T T v) (cvt (fo:=fb) T T v').
Proof.
  destruct v as [z|x], v' as [z'|x']; try done; cbn [cvt vrel].
  - intros [E <-]. rewrite E. by apply ore_ok.
  - intros [E H]. rewrite E, bool_decide_true by done. by apply ore_ok.
Qed.
Lemma c_compare c t a a' b b' : vrel Rc t a a' -> vrel Rc t b b' -> ore eq (compare_vals (fo:=fa) c a b) (compare_vals (fo:=fb) c a' b').
Proof.
  destruct a as [x|x], a' as [x'|x']; try done; destruct b as [y|y], b' as [y'|y']; try done; cbn [vrel compare_vals]; intros [? H1] [? H2]; try congruence.
  - subst. apply ore_refl.
  - destruct H1 as [H1 H3], H2 as [H2 H4]. apply ore_ok.
    pose proof (R_lt HR _ _ _ _ _ H1 H2 H3 H4). pose proof (R_lt HR _ _ _ _ _ H2 H1 H4 H3). pose proof (R_le HR _ _ _ _ _ H1 H2 H3 H4).
    pose proof (R_le HR _ _ _ _ _ H2 H1 H4 H3). pose proof (R_eq HR _ _ _ _ _ H1 H2 H3 H4). destruct c; congruence.
Qed.
Lemma prom_same t : is_int t = false -> prom t t = t. Proof. by destruct t. Qed.
Lemma int_pair L T : is_int L = true -> is_int T = true -> is_int (prom L T) = true. Proof. by destruct L, T. Qed.
Lemma c_cvt_ints T D v v' : is_int T = true -> is_int D = true -> vrel Rc T v v' -> ore (vrel Rc D) (cvt (fo:=fa) T D v) (cvt (fo:=fb) T D v').
Proof.
  intros H1 H2. destruct v as [z|x], v' as [z'|x']; try done; cbn [cvt vrel]; intros [E H]; [|congruence]. subst. rewrite H2. by apply ore_ok.
Qed.
Lemma c_cvt_all T D v v' : (forall x, clean x) -> vrel Rc T v v' -> ore (vrel Rc D) (cvt (fo:=fa) T D v) (cvt (fo:=fb) T D v').
Proof.
  intros HC Hv. assert (vrel R T v v') as Hv'. { destruct v as [z|x], v' as [z'|x']; try done. cbn in *. by destruct Hv as [? []]. }
  eapply ore_mono; [by apply (v_cvt HR)|]. intros a b H. destruct a as [z|x], b as [z'|x']; try done. cbn in *. destruct H. by split.
Qed.
Lemma c_cmpop_same c L T a a' b b' : L = T \/ is_int L = true /\ is_int T = true -> vrel Rc L a a' -> vrel Rc T b b' ->
  ore eq (cmpop (fo:=fa) c L T a b) (cmpop (fo:=fb) c L T a' b').
Proof.
  intros HT Ha Hb. unfold cmpop. cbv zeta. destruct (is_int L) eqn:EL.
  - assert (is_int T = true) as ET by (destruct HT as [->|[]]; done). pose proof (int_pair _ _ EL ET).
    eapply ore_bind; [by apply c_cvt_ints|]. intros x x' Hx. eapply ore_bind; [by apply c_cvt_ints|]. intros y y' Hy. by eapply c_compare.
  - destruct HT as [<-|[? ?]]; [|congruence]. rewrite prom_same by done.
    eapply ore_bind; [by apply c_cvt_same|]. intros x x' Hx. eapply ore_bind; [by apply c_cvt_same|]. intros y y' Hy. by eapply c_compare.
Qed.
Lemma c_cmpop c L T a a' b b' : (L = T \/ is_int L = true /\ is_int T = true) \/ (forall x, clean x) -> vrel Rc L a a' -> vrel Rc T b b' ->
  ore eq (cmpop (fo:=fa) c L T a b) (cmpop (fo:=fb) c L T a' b').
Proof.
  intros [HT|HC] Ha Hb; [by apply c_cmpop_same|]. unfold cmpop. cbv zeta.
  eapply ore_bind; [by apply c_cvt_all|]. intros x x' Hx. eapply ore_bind; [by apply c_cvt_all|]. intros y y' Hy. by eapply c_compare.
Qed.
Lemma c_cmp0 c T a a' : vrel Rc T a a' -> ore eq (cmpop (fo:=fa) c T I32 a (VI 0)) (cmpop (fo:=fb) c T I32 a' (VI 0)).
Proof.
  intros Ha. unfold cmpop. cbv zeta. destruct (is_int T) eqn:ET.
  - assert (is_int (prom T I32) = true) by (by destruct T). eapply ore_bind; [by apply c_cvt_ints|]. intros x x' Hx.
    eapply ore_bind; [apply c_cvt_ints; [| |by apply (conj (eq_refl true) (eq_refl 0))]; done|]. intros y y' Hy. by eapply c_compare.
  - assert (prom T I32 = T) as -> by (by destruct T). eapply ore_bind; [by apply c_cvt_same|]. intros x x' Hx.
    destruct (c_cvt_int I32 T 0 eq_refl ltac:(lia)) as (y & y' & -> & -> & Hy). cbn [obind]. by eapply c_compare.
Qed.
Lemma c_neg T a a' : vrel Rc T a a' -> ore (vrel Rc (prom T I32)) (negop (fo:=fa) T a) (negop (fo:=fb) T a').
Proof.
  destruct a as [x|x], a' as [x'|x']; try done; cbn [negop vrel]; intros [E H].
  - subst. unfold int_chk. destruct (fits_int _ _); [|by right]. apply ore_ok. cbn. split; [by destruct T|done].
  - destruct H as [H1 H2]. apply ore_ok. cbn. assert (prom T I32 = T) as -> by (by destruct T). split; [done|]. split; [by apply (R_neg HR)|by apply (C_neg HR)].
Qed.
(** storing clean values back at the type they have *)
Lemma c_cvt_back T v v' : vrel Rc (prom T I32) v v' -> ore (vrel Rc T) (cvt (fo:=fa) (prom T I32) T v) (cvt (fo:=fb) (prom T I32) T v').
Proof.
  intros H. destruct (is_int T) eqn:E.
  - apply c_cvt_ints; [by destruct T|done|done].
  - assert (prom T I32 = T) as E' by (by destruct T). rewrite E' in *. by apply c_cvt_same.
Qed.

(** buffers that [C] picks hold clean values *)
Section clean.
Variables (C : nat -> bool) (n0 : nat).
Definition Qc_ (s : nat) : frel := if C s then Rc else R.
Notation I := (hrel Qc_ n0).
Lemma to_Q s t v v' : vrel Rc t v v' -> vrel (Qc_ s) t v v'.
Proof. apply vrel_mono. intros u x y [H1 H2]. unfold Qc_. by destruct (C s). Qed.
Lemma from_Q s t v v' : C s = true -> vrel (Qc_ s) t v v' -> vrel Rc t v v'.
Proof. unfold Qc_. by intros ->. Qed.
Lemma Qc0 s u : Qc_ s u f_zero f_zero.
Proof. unfold Qc_. destruct (C s); [apply c_zero|apply HR]. Qed.
Lemma c_store t s p v v' : vrel Rc t v v' -> pr I eq (@store fa t s p v) (@store fb t s p v').
Proof. intros H. apply p_store. by apply to_Q. Qed.
Lemma c_store_small T D s p z : is_int T = true -> -1 <= z <= 1 -> pr I eq (@store_cvt fa T D s p (VI z)) (@store_cvt fb T D s p (VI z)).
Proof.
  intros HT Hz. unfold store_cvt. destruct (c_cvt_int T D z HT Hz) as (v & v' & -> & -> & Hv). intros h h' H.
  exact (c_store D s p v v' Hv h h' H).
Qed.
Lemma p_cmp c L T d l r : (L = T \/ is_int L = true /\ is_int T = true) \/ (forall x, clean x) -> C (t_sto l) = true -> C (t_sto r) = true ->
  pr I eq (@tensor_cmp fa c L T d l r) (@tensor_cmp fb c L T d l r).
Proof.
  intros HT Cl Cr. apply pr_for_each. intros sv. eapply pr_bind; [apply p_load_aug|]. intros a a' Ha%(from_Q _ _ _ _ Cl).
  eapply pr_bind; [apply p_load_aug|]. intros b b' Hb%(from_Q _ _ _ _ Cr). apply pr_bind_eq; [apply pr_lift; by apply c_cmpop|]. intros v.
  apply pr_bind_eq; [apply p_aug|]. intros p. apply c_store_small; [done|]. by destruct v.
Qed.
Lemma p_abs T d s g : C (t_sto s) = true -> pr I eq (@tensor_abs fa T T d s g) (@tensor_abs fb T T d s g).
Proof.
  intros Cs. apply pr_for_each. intros sv. eapply pr_bind; [apply p_load_exact|]. intros a a' Ha%(from_Q _ _ _ _ Cs).
  apply pr_bind_eq; [apply pr_lift; by apply c_cmp0|]. intros ge. cbv zeta. destruct ge.
  - apply pr_bind_eq. { destruct g as [g|]; [|by apply pr_ret]. apply pr_bind_eq; [apply p_exact|]. intros p. by apply c_store_small. }
    intros _. apply pr_bind_eq; [apply p_exact|]. intros p. unfold store_cvt. eapply pr_bind; [apply pr_lift; by apply c_cvt_same|]. intros v v' Hv. by apply c_store.
  - apply pr_bind_eq. { destruct g as [g|]; [|by apply pr_ret]. apply pr_bind_eq; [apply p_exact|]. intros p. by apply c_store_small. }
    intros _. eapply pr_bind; [apply pr_lift; by apply c_neg|]. intros m m' Hm. apply pr_bind_eq; [apply p_exact|]. intros p.
    unfold store_cvt. eapply pr_bind; [apply pr_lift; by apply c_cvt_back|]. intros v v' Hv. by apply c_store.
Qed.
Definition I2 : @heap fa * list Z -> @heap fb * list Z -> Prop := fun p p' => I p.1 p'.1 /\ p.2 = p'.2.
Lemma p_on_heap {A B} (Q : A -> B -> Prop) (m : @E fa A) (m' : @E fb B) : pr I Q m m' -> pr I2 Q (on_heap (X:=list Z) m) (on_heap (X:=list Z) m').
Proof.
  intros Hm [h x] [h' x'] [H E]. cbn in H, E. subst x'. unfold on_heap. destruct (Hm h h' H) as [E|[E H']]; destruct (m h) as [o h1], (m' h') as [o' h1']; cbn in *; [by left|].
  right. split; [done|]. by split.
Qed.
Lemma p_ext_body c T d s sv : C (t_sto s) = true -> C (t_sto d) = true -> pr I2 eq (@extremum_body fa c T d s sv) (@extremum_body fb c T d s sv).
Proof.
  intros Cs Cd. unfold extremum_body. eapply pr_bind; [apply p_on_heap, p_load_exact|]. intros t t' Ht%(from_Q _ _ _ _ Cs).
  eapply pr_bind; [apply p_on_heap, p_load|]. intros m m' Hm%(from_Q _ _ _ _ Cd). apply pr_bind_eq; [apply pr_lift; apply c_cmpop; [by left; left|done|done]|]. intros k.
  destruct k; [by apply pr_ret|]. apply pr_bind_eq; [apply p_on_heap; by apply c_store|]. intros _ [h x] [h' x'] [H E]. right. split; [done|]. by split.
Qed.
Lemma p_extremum c T d s g : C (t_sto s) = true -> C (t_sto d) = true -> pr I eq (@tensor_extremum fa c T d s g) (@tensor_extremum fb c T d s g).
Proof.
  intros Cs Cd. unfold tensor_extremum. eapply pr_bind; [apply p_load|]. intros f f' Hf%(from_Q _ _ _ _ Cs). apply pr_bind_eq; [by apply c_store|]. intros _.
  apply (pr_bind_eq I (A:=list Z)).
  { intros h h' H. destruct (pr_for_each I2 (sizes (t_lay s)) _ _ (fun sv => p_ext_body c T d s sv Cs Cd) (h, []) (h', []) (conj H eq_refl)) as [E|[E [H' Ex]]];
      destruct (for_each_sizevec _ _ _) as [o [h1 x]]; destruct (for_each_sizevec _ _ _) as [o' [h1' x']]; cbn in *; [subst; by left|]. subst x'.
    right. destruct o, o'; try done; by subst. }
  intros best. destruct g as [g|]; [|by apply pr_ret]. apply pr_bind_eq; [apply p_exact|]. intros p. by apply c_store_small.
Qed.
(** zeros() returns a tensor with a new buffer *)
Lemma zeros_new {fo : FOps} ss dt (h h1 : heap) t : zeros ss dt h = (Ok t, h1) -> exists d, h_ten h1 !! t = Some d /\ t_sto d = length (h_sto h).
Proof.
  unfold zeros, create, bind, new_sto, create_view, new_ten, lift, mret. destruct (new_blob _ _) as [b|?|?|]; try done.
  unfold get_ten. cbn [h_ten h_sto]. rewrite lookup_app_r, Nat.sub_diag by done. cbn [lookup list_lookup].
  unfold sto_zero, bind, get_sto. cbn [h_sto t_sto]. rewrite lookup_app_r, Nat.sub_diag by done. cbn [lookup list_lookup sto_blob].
  unfold set_sto. cbn [h_sto h_ten]. intros E. injection E as <- <-. cbn [h_ten]. rewrite lookup_app_r, Nat.sub_diag by done. eexists. by split.
Qed.
Lemma p_zeros_get {A B} (Q : A -> B -> Prop) ss dt k k' : (forall t d, (n0 <= t_sto d)%nat -> pr I Q (k t d) (k' t d)) ->
  pr I Q (let! t := @zeros fa ss dt in let! d := @get_ten fa t in k t d) (let! t := @zeros fb ss dt in let! d := @get_ten fb t in k' t d).
Proof.
  intros Hk h h' H. set (f := fun t => let! d := @get_ten fa t in k t d). set (f' := fun t => let! d := @get_ten fb t in k' t d).
  unfold bind. destruct (p_zeros Qc_ n0 Qc0 ss dt h h' H) as [E|[E H1]];
    destruct (@zeros fa ss dt h) as [o h1] eqn:Z1, (@zeros fb ss dt h') as [o' h1'] eqn:Z2; cbn in E; [subst; by left|]. cbn in H1.
  destruct o as [t|?|?|], o' as [t'|?|?|]; try done; try (right; by split). cbn in E. subst t'.
  destruct (zeros_new _ _ _ _ _ Z1) as (d & Hd & Hs). pose proof Hd as Hd2. rewrite (hr_ten _ _ _ _ H1) in Hd2.
  assert (f t h1 = k t d h1) as -> by (unfold f, bind, get_ten; by rewrite Hd).
  assert (f' t h1' = k' t d h1') as -> by (unfold f', bind, get_ten; by rewrite Hd2). apply Hk; [|done].
  rewrite Hs. by apply (hr_new _ _ _ _ H).
Qed.
End clean.

Notation K := (fun _ : nat => R).
Notation I := (hrel K 0).
(** from the family to [K] *)
Lemma family C n0 {A B} (Q : A -> B -> Prop) (m : @E fa A) (m' : @E fb B) h h' : pr (hrel (Qc_ C) n0) Q m m' -> I h h' -> (n0 <= length (h_sto h))%nat ->
  (forall s x cs v, C s = true -> h_sto h !! s = Some x -> sto_blob x = Some cs -> Some (VF v) ∈ cs -> clean v) ->
  (m h).1 = UB FloatRange \/ orel Q (m h).1 (m' h').1 /\ I (m h).2 (m' h').2.
Proof.
  intros Hm H Hn HC. destruct (Hm h h') as [E|[E H']]; [|by left|].
  - destruct H as [H1 H2 H3 H4 H5]. split; try done. intros s x E. destruct (H3 _ _ E) as (x' & E' & S). exists x'. split; [done|].
    unfold Qc_. destruct (C s) eqn:Cs; [|done]. destruct S as (S1 & S2 & SB). split; [done|]. split; [done|]. specialize (HC s x). 
    destruct SB as [cs cs' FB|]; constructor. specialize (HC cs). apply Forall2_same_length_lookup. split; [by eapply Forall2_length|].
    intros i c c' Ec Ec'. pose proof (Forall2_lookup_lr _ _ _ _ _ _ FB Ec Ec') as Hc. destruct Hc as [v v' Hv|]; constructor.
    destruct v as [z|v], v' as [z'|v']; try done. destruct Hv as [Hv1 Hv2]. split; [done|]. split; [done|]. apply HC; [done|done|done|]. by eapply elem_of_list_lookup_2.
  - right. split; [done|]. eapply hrel_mono; [|done]. intros s u x y. unfold Qc_. destruct (C s); [by intros []|done].
Qed.

(** what a call may be given, in the terms of the first instance *)
Definition clean_buf (h : @heap fa) (x : nat) : Prop :=
  forall r s cs v, h_ten h !! x = Some r -> h_sto h !! t_sto r = Some s -> sto_blob s = Some cs -> Some (VF v) ∈ cs -> clean v.
Lemma q_abs t h h' : I h h' -> clean_buf h t ->
  (@op_abs fa t h).1 = UB FloatRange \/ orel eq (@op_abs fa t h).1 (@op_abs fb t h').1 /\ I (@op_abs fa t h).2 (@op_abs fb t h').2.
Proof.
  intros H HC. destruct (h_ten h !! t) as [r|] eqn:Er.
  - assert (forall fo (g : @heap fo), h_ten g !! t = Some r -> @op_abs fo t g = (let! ret := create (t_dt r) (t_lay r) true in let! d := get_ten ret in
      if negb (t_rg r) then tensor_abs (t_dt r) (t_dt r) d r None ;;; mret ret
      else let! g := create (t_dt r) (t_lay r) true in let! gr := get_ten g in tensor_abs (t_dt r) (t_dt r) d r (Some gr) ;;; track ret (KnownGradBack g) [t] ;;; mret ret) g) as U.
    { intros fo g Eg. unfold op_abs, bind at 1, get_ten at 1. by rewrite Eg. }
    rewrite (U fa h Er), (U fb h') by (by rewrite <- (hr_ten _ _ _ _ H)).
    apply (family (fun s => Nat.eqb s (t_sto r)) 0); [|done|lia|].
    + apply pr_bind_eq; [apply p_create|]. intros ret. apply pr_bind_eq; [apply p_get_ten|]. intros d.
      destruct (negb _).
      * apply pr_bind_eq; [apply p_abs; apply Nat.eqb_refl|]. intros _. by apply pr_ret.
      * apply pr_bind_eq; [apply p_create|]. intros g. apply pr_bind_eq; [apply p_get_ten|]. intros gr. apply pr_bind_eq; [apply p_abs; apply Nat.eqb_refl|]. intros _.
        apply pr_bind_eq; [apply p_track|]. intros _. by apply pr_ret.
    + intros s x cs v ->%Nat.eqb_eq. by apply HC.
  - right. unfold op_abs, bind, get_ten. rewrite <- (hr_ten _ _ _ _ H), Er. done.
Qed.
Lemma q_extremum c t h h' : I h h' -> clean_buf h t ->
  (@op_extremum fa c t h).1 = UB FloatRange \/ orel eq (@op_extremum fa c t h).1 (@op_extremum fb c t h').1 /\ I (@op_extremum fa c t h).2 (@op_extremum fb c t h').2.
Proof.
  intros H HC. destruct (h_ten h !! t) as [r|] eqn:Er.
  - assert (forall fo (g : @heap fo), h_ten g !! t = Some r -> @op_extremum fo c t g = (let! ret := zeros [] (t_dt r) in let! d := get_ten ret in
      if negb (t_rg r) then tensor_extremum c (t_dt r) d r None ;;; mret ret
      else let! g := zeros_like t in let! gr := get_ten g in tensor_extremum c (t_dt r) d r (Some gr) ;;; track ret (KnownGradBack g) [t] ;;; mret ret) g) as U.
    { intros fo g Eg. unfold op_extremum, bind at 1, get_ten at 1. by rewrite Eg. }
    rewrite (U fa h Er), (U fb h') by (by rewrite <- (hr_ten _ _ _ _ H)).
    set (n0 := length (h_sto h)). apply (family (fun s => Nat.eqb s (t_sto r) || Nat.leb n0 s) n0); [|done|done|].
    + apply p_zeros_get. intros ret d Hd.
      assert (Nat.eqb (t_sto r) (t_sto r) || Nat.leb n0 (t_sto r) = true) as C1 by (by rewrite Nat.eqb_refl).
      assert (Nat.eqb (t_sto d) (t_sto r) || Nat.leb n0 (t_sto d) = true) as C2 by (apply orb_true_iff; right; by apply Nat.leb_le).
      destruct (negb _).
      * apply pr_bind_eq; [by apply p_extremum|]. intros _. by apply pr_ret.
      * apply pr_bind_eq; [apply p_zeros_like, Qc0|]. intros g. apply pr_bind_eq; [apply p_get_ten|]. intros gr. apply pr_bind_eq; [by apply p_extremum|]. intros _.
        apply pr_bind_eq; [apply p_track|]. intros _. by apply pr_ret.
    + intros s x cs v [->%Nat.eqb_eq|Hs%Nat.leb_le]%orb_true_iff; [by apply HC|]. intros E%lookup_lt_Some. unfold n0 in Hs. lia.
  - right. unfold op_extremum, bind, get_ten. rewrite <- (hr_ten _ _ _ _ H), Er. done.
Qed.
Definition int_buf (h : @heap fa) (x : nat) : Prop :=
  forall r, h_ten h !! x = Some r -> is_int (t_dt r) = true /\ forall s, h_sto h !! t_sto r = Some s -> is_int (sto_ty s) = true.
Lemma int_cells h h' x r s cs v : I h h' -> int_buf h x -> h_ten h !! x = Some r -> h_sto h !! t_sto r = Some s -> sto_blob s = Some cs -> Some (VF v) ∈ cs -> clean v.
Proof.
  intros H Hi Hr Hs Hc Hv. destruct (Hi r Hr) as [_ K]. specialize (K s Hs). destruct (hr_sto _ _ _ _ H _ _ Hs) as (s' & _ & _ & _ & B). rewrite Hc in B.
  inversion B as [? cs' B'|]; subst. apply elem_of_list_lookup in Hv as [i Hi']. destruct (Forall2_lookup_l _ _ _ _ _ B' Hi') as (c' & _ & Hc').
  inversion Hc' as [? v' Hv'|]; subst. destruct v'; [done|]. destruct Hv' as [E _]. congruence.
Qed.
Lemma q_cmp c x y h h' : I h h' ->
  int_buf h x /\ int_buf h y \/ (forall r s, h_ten h !! x = Some r -> h_ten h !! y = Some s -> t_dt r = t_dt s) /\ clean_buf h x /\ clean_buf h y \/ (forall x, clean x) ->
  (@op_cmp fa c x y h).1 = UB FloatRange \/ orel eq (@op_cmp fa c x y h).1 (@op_cmp fb c x y h').1 /\ I (@op_cmp fa c x y h).2 (@op_cmp fb c x y h').2.
Proof.
  intros H HC. destruct (h_ten h !! x) as [l|] eqn:El; [destruct (h_ten h !! y) as [r|] eqn:Er|].
  - assert (forall fo (g : @heap fo), h_ten g !! x = Some l -> h_ten g !! y = Some r -> @op_cmp fo c x y g = (let! rg := lift (broadcast_range (sizes (t_lay l)) (sizes (t_lay r))) in
      let! ret := create I8 (contig rg) true in let! d := get_ten ret in tensor_cmp c (t_dt l) (t_dt r) d l r ;;; mret ret) g) as U.
    { intros fo g E1 E2. unfold op_cmp, bind at 1, get_ten at 1. rewrite E1. unfold bind at 1, get_ten at 1. by rewrite E2. }
    rewrite (U fa h El Er), (U fb h') by (by rewrite <- (hr_ten _ _ _ _ H)).
    apply (family (fun s => Nat.eqb s (t_sto l) || Nat.eqb s (t_sto r)) 0); [|done|lia|].
    + apply pr_bind_eq; [apply pr_same|]. intros rg. apply pr_bind_eq; [apply p_create|]. intros ret. apply pr_bind_eq; [apply p_get_ten|]. intros d.
      apply pr_bind_eq; [|intros _; by apply pr_ret]. apply p_cmp; [|by rewrite Nat.eqb_refl|by rewrite Nat.eqb_refl, orb_true_r].
      destruct HC as [[H1 H2]|[[H1 _]|HC]]; [left; right; split; [by apply (H1 l)|by apply (H2 r)]|left; left; by apply H1|by right].
    + intros s z cs v Hs Hz Hcs Hv. apply orb_true_iff in Hs as [->%Nat.eqb_eq| ->%Nat.eqb_eq]; destruct HC as [[H1 H2]|[(H1 & H2 & H3)|HC]]; try done.
      * exact (int_cells h h' x l z cs v H H1 El Hz Hcs Hv).
      * by eapply H2.
      * exact (int_cells h h' y r z cs v H H2 Er Hz Hcs Hv).
      * by eapply H3.
  - right. unfold op_cmp, bind, get_ten. rewrite <- (hr_ten _ _ _ _ H), El. cbv beta iota. rewrite <- (hr_ten _ _ _ _ H), Er. done.
  - right. unfold op_cmp, bind, get_ten. rewrite <- (hr_ten _ _ _ _ H), El. done.
Qed.
Lemma p_bool_byte s p h h' : I h h' -> (forall x, h_sto h !! s = Some x -> is_int (sto_ty x) = true) ->
  orel eq (@load_bool_byte fa s p h).1 (@load_bool_byte fb s p h').1 /\ (@load_bool_byte fa s p h).2 = h /\ (@load_bool_byte fb s p h').2 = h'.
Proof.
  intros H Hi. unfold load_bool_byte, bind, get_sto. destruct (h_sto h !! s) as [x|] eqn:E.
  - destruct (hr_sto _ _ _ _ H _ _ E) as (x' & -> & E1 & E2 & B). specialize (Hi x eq_refl). destruct B as [cs cs' B|]; [|done].
    rewrite <- E1, <- (Forall2_length _ _ _ B). destruct (_ && _); [|done]. destruct (cs !! _) as [c|] eqn:Ec.
    + destruct (Forall2_lookup_l _ _ _ _ _ B Ec) as (c' & -> & Hc). destruct Hc as [v v' Hv|]; [|done].
      destruct v as [z|v], v' as [z'|v']; try done; [|destruct Hv; congruence]. destruct Hv as [_ <-]. cbn [val_bytes]. destruct (_ =? 0); [done|]. by destruct (_ =? 1).
    + apply lookup_ge_None in Ec. rewrite (Forall2_length _ _ _ B) in Ec. apply lookup_ge_None in Ec as ->. done.
  - apply lookup_ge_None in E. rewrite (hr_len _ _ _ _ H) in E. apply lookup_ge_None in E as ->. done.
Qed.
Lemma q_all t h h' : I h h' -> int_buf h t ->
  (@op_all fa t h).1 = UB FloatRange \/ orel eq (@op_all fa t h).1 (@op_all fb t h').1 /\ I (@op_all fa t h).2 (@op_all fb t h').2.
Proof.
  intros H HC. destruct (h_ten h !! t) as [r|] eqn:Er.
  - set (J := fun (g : @heap fa) (g' : @heap fb) => g = h /\ g' = h').
    assert (forall p, pr J eq (@load_bool_byte fa (t_sto r) p) (@load_bool_byte fb (t_sto r) p)) as L.
    { intros p g g' [-> ->]. right. destruct (p_bool_byte (t_sto r) p h h' H) as (E1 & E2 & E3); [by apply HC|]. split; [done|by split]. }
    assert (pr J eq (if existsb (Z.eqb 0) (sizes (t_lay r)) then mret true else match sizes (t_lay r) with
       | [] => let! p := idx_exact r [] in load_bool_byte (t_sto r) p
       | _ => let! o := odometer (sizes (t_lay r)) (fun sv => let! p := idx_exact r sv in let! b := load_bool_byte (t_sto r) p in mret (if b : bool then None else Some false)) in
           mret (match o with Some b => b | None => true end) end)
      (if existsb (Z.eqb 0) (sizes (t_lay r)) then mret true else match sizes (t_lay r) with
       | [] => let! p := idx_exact r [] in load_bool_byte (t_sto r) p
       | _ => let! o := odometer (sizes (t_lay r)) (fun sv => let! p := idx_exact r sv in let! b := load_bool_byte (t_sto r) p in mret (if b : bool then None else Some false)) in
           mret (match o with Some b => b | None => true end) end)) as P.
    { destruct (existsb _ _); [by apply pr_ret|]. destruct (sizes (t_lay r)).
      - apply pr_bind_eq; [apply pr_same|]. intros p. apply L.
      - apply pr_bind_eq; [|intros o; by apply pr_ret]. apply pr_odometer. intros sv. apply pr_bind_eq; [apply pr_same|]. intros p. apply pr_bind_eq; [apply L|]. intros b. by apply pr_ret. }
    match type of P with pr _ _ ?m ?m' => assert (@op_all fa t h = m h /\ @op_all fb t h' = m' h') as [-> ->] end.
    { pose proof Er as Er2. rewrite (hr_ten _ _ _ _ H) in Er2. unfold op_all.
      rewrite (bind_ok _ _ h r h), (bind_ok _ _ h' r h'); [done| |]; unfold get_ten; [by rewrite Er2|by rewrite Er]. }
    destruct (P h h' (conj eq_refl eq_refl)) as [E|[E [E1 E2]]]; [by left|]. right. split; [exact E|]. rewrite E1, E2. done.
  - right. unfold op_all, bind, get_ten. rewrite <- (hr_ten _ _ _ _ H), Er. done.
Qed.
End rel.
