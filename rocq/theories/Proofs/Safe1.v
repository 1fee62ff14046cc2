(** Memory safety: what is kept by every step, and a logic of calls that meet no memory error. *)
From Verif.Proofs Require Export Chain2.
From Verif.Spec Require Export Cat.
From Verif.Model Require Export Api.

Section with_fops.
Context {fo : FOps}.

(** the buffer [s] has a cell [k], and it is initialised *)
Definition filled (h : heap) (s k : nat) : Prop :=
  exists x cs v, h_sto h !! s = Some x /\ sto_blob x = Some cs /\ cs !! k = Some (Some v).
Definition allocd (h : heap) (s : nat) : Prop :=
  exists x cs, h_sto h !! s = Some x /\ sto_blob x = Some cs.
(** all cells of the buffer are initialised *)
Definition fullsto (h : heap) (s : nat) : Prop :=
  exists x, h_sto h !! s = Some x /\ forall k, (Z.of_nat k < cap x) -> filled h s k.
Definition full (h : heap) (r : tensor) : Prop := fullsto h (t_sto r).
Definition full_at (h : heap) (t : nat) : Prop := exists r, h_ten h !! t = Some r /\ full h r.

Definition tstep (r r' : tensor) : Prop :=
  same_data r r' /\ (t_rg r = true -> t_rg r' = true) /\
  forall f, t_fn r = Some f -> exists f', t_fn r' = Some f' /\ gf_kind f' = gf_kind f /\ gf_in f' = gf_in f.
Record grow (h h' : heap) : Prop := Grow {
  gw_ten : forall t r, h_ten h !! t = Some r -> exists r', h_ten h' !! t = Some r' /\ tstep r r';
  gw_rs : rs (h_sto h) (h_sto h');
  gw_fill : forall s k, filled h s k -> filled h' s k;
  gw_alloc : forall s, allocd h s -> allocd h' s;
  gw_new : forall s x, h_sto h !! s = Some x -> allocd h' s -> allocd h s \/ fullsto h' s
}.
Lemma tstep_refl r : tstep r r.
Proof. split; [done|]. split; [done|]. intros f Hf. by exists f. Qed.
Lemma tstep_trans a b c : tstep a b -> tstep b c -> tstep a c.
Proof.
  intros ((A1 & A2 & A3) & A4 & A5) ((B1 & B2 & B3) & B4 & B5). split; [split; [congruence|split; congruence]|]. split; [auto|].
  intros f Hf. destruct (A5 f Hf) as (f1 & H1 & K1 & I1). destruct (B5 f1 H1) as (f2 & H2 & K2 & I2). exists f2. split; [done|]. split; congruence.
Qed.
Lemma grow_refl h : grow h h.
Proof.
  split; [|apply rs_refl|done|done|].
  - intros t r Hr. exists r. split; [done|apply tstep_refl].
  - intros. by left.
Qed.
Lemma fullsto_grow h h' s : grow h h' -> fullsto h s -> fullsto h' s.
Proof.
  intros [_ [R _] F _ _] (x & Hx & Hf). destruct (R _ _ Hx) as (x' & Hx' & S1 & S2 & _).
  exists x'. split; [done|]. intros k Hk. apply F, Hf. unfold cap in *. by rewrite <- S1, <- S2.
Qed.
Lemma grow_trans a b c : grow a b -> grow b c -> grow a c.
Proof.
  intros G1 G2. pose proof G1 as [T1 R1 F1 A1 N1]. pose proof G2 as [T2 R2 F2 A2 N2]. split.
  - intros t r Hr. destruct (T1 _ _ Hr) as (r1 & H1 & S1). destruct (T2 _ _ H1) as (r2 & H2 & S2). exists r2. split; [done|by eapply tstep_trans].
  - by eapply rs_trans.
  - auto.
  - auto.
  - intros s x Hx Hc. destruct R1 as [R1 _]. destruct (R1 _ _ Hx) as (x1 & Hx1 & _). destruct (N2 _ _ Hx1 Hc) as [Hb|Hf]; [|by right].
    destruct (N1 _ _ Hx Hb) as [Ha|Hf]; [by left|]. right. by eapply fullsto_grow.
Qed.
Lemma grow_mono h h' : grow h h' -> mono h h'.
Proof. intros G t r Hr. destruct (gw_ten _ _ G _ _ Hr) as (r' & Hr' & S & _). by exists r'. Qed.

(** geometry *)
Definition strides_fit (l : layout) : Prop :=
  (length (sizes l) <= length (strides l))%nat /\ (sizes l <> [] -> length (strides l) = length (sizes l)).
Definition geom (h : heap) (r : tensor) : Prop :=
  sane h r /\ Forall (fun n => 0 <= n) (shape r) /\ strides_fit (t_lay r).
Lemma full_grow h h' r r' : grow h h' -> same_data r r' -> full h r -> full h' r'.
Proof. intros G (_ & _ & D) H. unfold full. rewrite <- D. by eapply fullsto_grow. Qed.
Lemma full_at_grow h h' t : grow h h' -> full_at h t -> full_at h' t.
Proof.
  intros G (r & Hr & Hf). destruct (gw_ten _ _ G _ _ Hr) as (r' & Hr' & D & _). exists r'. split; [done|]. by eapply full_grow.
Qed.
Lemma geom_grow h h' r r' : grow h h' -> same_data r r' -> geom h r -> geom h' r'.
Proof.
  intros G D (S & N & F). split; [eapply sane_mono; [apply G|done|done]|]. destruct D as (_ & D & _). unfold shape. by rewrite <- D.
Qed.

(** the sizes of concatenated tensors do not wrap around *)
Definition cat_room (h : heap) (dim : Z) (ins : list nat) : Prop :=
  exists rs, Forall2 (fun i x => h_ten h !! i = Some x) ins rs /\ total_len (sizes_along (Z.to_nat dim) rs) < two64.
Lemma cat_room_grow h h' dim ins : grow h h' -> cat_room h dim ins -> cat_room h' dim ins.
Proof.
  intros G (rs & Hf & Ht).
  assert (exists rs', Forall2 (fun i x => h_ten h' !! i = Some x) ins rs' /\ sizes_along (Z.to_nat dim) rs' = sizes_along (Z.to_nat dim) rs) as (rs' & Hf' & E).
  { clear Ht. induction Hf as [|i r ins rs Hi _ (rs' & IH & E)]; [by exists []|]. destruct (gw_ten _ _ G _ _ Hi) as (r' & Hr' & (_ & D & _) & _).
    exists (r' :: rs'). split; [by constructor|]. unfold sizes_along in *. cbn [map]. rewrite E. unfold shape. by rewrite D. }
  exists rs'. split; [done|]. by rewrite E.
Qed.
(** a node of the graph *)
Record node_ok (h : heap) (r : tensor) (f : gradfn) : Prop := NodeOk {
  no_rg : t_rg r = true;
  no_full : full h r;
  no_in : Forall (full_at h) (gf_in f);
  no_kg : forall kg, gf_kind f = KnownGradBack kg -> full_at h kg;
  no_div : gf_kind f = DivBack -> exists a b ra rb, gf_in f = [a; b] /\ h_ten h !! a = Some ra /\ h_ten h !! b = Some rb /\
    t_rg ra = true /\ t_rg rb = true /\ shape rb = shape r;
  no_cat : forall dim, gf_kind f = CatBack dim -> cat_room h dim (gf_in f)
}.
(** the gradient of [r] has room for the elements of [r]; its buffer is not allocated or initialised *)
Record gok (h : heap) (r : tensor) (g : nat) : Prop := GradOk {
  go_rec : exists gr x, h_ten h !! g = Some gr /\ t_dt gr = t_dt r /\ shape gr = shape r /\
    h_sto h !! t_sto gr = Some x /\ lay_sane (t_lay r) (cap x) /\ (allocd h (t_sto gr) -> fullsto h (t_sto gr))
}.
Record ten_si (h : heap) (r : tensor) : Prop := TenSi {
  ts_geom : geom h r;
  ts_rg : t_rg r = true -> is_float (t_dt r) = true;
  ts_grad : forall g, t_grad r = Some g -> gok h r g;
  ts_node : forall f, t_fn r = Some f -> node_ok h r f
}.
Record SI (h : heap) : Prop := MkSI {
  si_sok : Forall sok (h_sto h);
  si_ten : forall t r, h_ten h !! t = Some r -> ten_si h r
}.
Lemma gok_grow h h' r r' g : grow h h' -> same_data r r' -> gok h r g -> gok h' r' g.
Proof.
  intros G (D1 & D2 & D3) [(gr & x & Hg & E1 & E2 & Hx & Hl & Ha)]. pose proof G as [T [R _] F _ N].
  destruct (T _ _ Hg) as (gr' & Hg' & (G1 & G2 & G3) & _). destruct (R _ _ Hx) as (x' & Hx' & S1 & S2 & _).
  split. exists gr', x'. unfold shape in *. rewrite <- G1, <- G2, <- G3, <- D1, <- D2. unfold cap in *. rewrite S1, S2.
  split; [done|]. split; [done|]. split; [done|]. split; [done|]. split; [done|].
  intros Hc. destruct (N _ _ Hx Hc) as [Hb|Hb]; [|done]. eapply fullsto_grow; [done|by apply Ha].
Qed.
Lemma node_ok_grow h h' r r' f f' : grow h h' -> tstep r r' -> gf_kind f' = gf_kind f -> gf_in f' = gf_in f -> node_ok h r f -> node_ok h' r' f'.
Proof.
  intros G (D & S1 & _) E1 E2 [N1 N2 N3 N4 N5 N6]. split.
  - auto.
  - by eapply full_grow.
  - rewrite E2. eapply Forall_impl; [exact N3|]. intros i. by apply full_at_grow.
  - intros kg. rewrite E1. intros Hk. eapply full_at_grow; [done|auto].
  - rewrite E1, E2. intros Hk. destruct (N5 Hk) as (a & b & ra & rb & I & Ha & Hb & Ra & Rb & Hs).
    destruct (gw_ten _ _ G _ _ Ha) as (ra' & Ha' & _ & Qa & _). destruct (gw_ten _ _ G _ _ Hb) as (rb' & Hb' & (_ & Db & _) & Qb & _).
    exists a, b, ra', rb'. destruct D as (_ & D & _). unfold shape in *. rewrite <- Db, <- D. auto 8.
  - intros dim. rewrite E1, E2. intros Hk. eapply cat_room_grow; [done|auto].
Qed.
(** a record that differs at most in its counters and flags *)
Definition told (h : heap) (r' : tensor) : Prop :=
  exists t r, h_ten h !! t = Some r /\ tstep r r' /\ t_grad r' = t_grad r /\ (t_rg r' = true -> t_rg r = true) /\
    forall f', t_fn r' = Some f' -> exists f, t_fn r = Some f /\ gf_kind f' = gf_kind f /\ gf_in f' = gf_in f.
Lemma told_refl h t r : h_ten h !! t = Some r -> told h r.
Proof. intros H. exists t, r. split; [done|]. split; [apply tstep_refl|]. split; [done|]. split; [done|]. intros f Hf. by exists f. Qed.
Lemma told_si h h' r' : SI h -> grow h h' -> told h r' -> ten_si h' r'.
Proof.
  intros [_ S] G (t & r & Hr & St & Eg & Er & Ef). destruct (S _ _ Hr) as [S1 S2 S3 S4]. split.
  - eapply geom_grow; [done|apply St|done].
  - intros Hrg. destruct St as ((D & _) & _). rewrite <- D. auto.
  - intros g. rewrite Eg. intros Hg. eapply gok_grow; [done|apply St|auto].
  - intros f' Hf'. destruct (Ef f' Hf') as (f & Hf & K & I). eapply node_ok_grow; [done|done|done|done|auto].
Qed.
Lemma SI_step h h' : SI h -> grow h h' -> (forall t r', h_ten h' !! t = Some r' -> told h r' \/ ten_si h' r') -> SI h'.
Proof.
  intros HS G Ht. split.
  - apply G, HS.
  - intros t r' Hr'. destruct (Ht _ _ Hr') as [Ho|Hn]; [|done]. by eapply told_si.
Qed.
(** a step that changes no tensor record *)
Lemma SI_cells h h' : SI h -> grow h h' -> h_ten h' = h_ten h -> SI h'.
Proof. intros S G E. eapply SI_step; [done|done|]. intros t r'. rewrite E. intros Hr. left. by eapply told_refl. Qed.
Lemma tens_eq h h' : h_ten h' = h_ten h -> forall t r, h_ten h !! t = Some r -> exists r', h_ten h' !! t = Some r' /\ tstep r r'.
Proof. intros -> t r Hr. exists r. split; [done|apply tstep_refl]. Qed.

(** ** the logic *)
Definition soft (u : ub) : Prop := match u with SignedOverflow | DivByZero | FloatRange | BadBool => True | _ => False end.
Definition sf {A} (m : E A) (Q : A -> heap -> Prop) (h : heap) : Prop :=
  match m h with
  | (Ok a, h') => grow h h' /\ SI h' /\ Q a h'
  | (Throw _, h') => grow h h' /\ SI h'
  | (UB u, _) => soft u
  | (Diverge, _) => True
  end.
Lemma sf_ret {A} (a : A) (Q : A -> heap -> Prop) h : SI h -> Q a h -> sf (mret a) Q h.
Proof. intros. split; [apply grow_refl|done]. Qed.
Lemma sf_throw {A} e (Q : A -> heap -> Prop) h : SI h -> sf (mthrow e) Q h.
Proof. intros. split; [apply grow_refl|done]. Qed.
Lemma sf_bind {A B} (m : E A) (k : A -> E B) (P : A -> heap -> Prop) (Q : B -> heap -> Prop) h : sf m P h ->
  (forall a h', grow h h' -> SI h' -> P a h' -> sf (k a) Q h') -> sf (bind m k) Q h.
Proof.
  unfold sf, bind. destruct (m h) as [[a|e|u|] h1]; try done. intros (G & S & HP) Hk. specialize (Hk a h1 G S HP).
  destruct (k a h1) as [[b|e|u|] h2]; try done.
  - destruct Hk as (G2 & S2 & HQ). split; [by eapply grow_trans|done].
  - destruct Hk as (G2 & S2). split; [by eapply grow_trans|done].
Qed.
Lemma sf_mono {A} (m : E A) (P Q : A -> heap -> Prop) h : sf m P h ->
  (forall a h', grow h h' -> SI h' -> P a h' -> Q a h') -> sf m Q h.
Proof. unfold sf. destruct (m h) as [[a|e|u|] h1]; try done. intros (G & S & HP) HQ. auto. Qed.
Lemma sf_lift {A} (o : outcome A) (Q : A -> heap -> Prop) h : SI h -> (forall a, o = Ok a -> Q a h) ->
  (forall u, o = UB u -> soft u) -> sf (lift o) Q h.
Proof. unfold sf, lift. intros S HQ Hu. destruct o; auto using grow_refl. Qed.
Lemma sf_expect b (Q : unit -> heap -> Prop) h : SI h -> (b = true -> Q tt h) -> sf (run_expect b) Q h.
Proof. intros S HQ. destruct b; [apply sf_ret; auto|by apply sf_throw]. Qed.
Lemma sf_get_ten t r (Q : tensor -> heap -> Prop) h : SI h -> h_ten h !! t = Some r -> Q r h -> sf (get_ten t) Q h.
Proof. intros S Hr HQ. unfold sf, get_ten. rewrite Hr. split; [apply grow_refl|done]. Qed.
Lemma sf_get_bind {B} t r (k : tensor -> E B) (Q : B -> heap -> Prop) h : h_ten h !! t = Some r -> sf (k r) Q h -> sf (bind (get_ten t) k) Q h.
Proof. intros Hr HQ. unfold sf, get_ten, bind. by rewrite Hr. Qed.
Lemma sf_lift_bind {A B} (o : outcome A) (k : A -> E B) (Q : B -> heap -> Prop) h : SI h -> (forall u, o = UB u -> soft u) ->
  (forall a, o = Ok a -> sf (k a) Q h) -> sf (bind (lift o) k) Q h.
Proof.
  intros S Hu Hk. unfold sf, bind, lift in *. destruct o as [a|e|u|]; [by apply Hk|split; [apply grow_refl|done]|by apply Hu|done].
Qed.
Lemma sf_expect_bind {B} b (k : unit -> E B) (Q : B -> heap -> Prop) h : SI h -> (b = true -> sf (k tt) Q h) -> sf (bind (run_expect b) k) Q h.
Proof. intros S Hk. destruct b; [by apply Hk|]. split; [apply grow_refl|done]. Qed.
Lemma sf_eq {A} (m m' : E A) Q h : m h = m' h -> sf m Q h -> sf m' Q h.
Proof. unfold sf. by intros ->. Qed.
Lemma sf_mapM {A} (f : A -> E unit) l (P : A -> heap -> Prop) h : SI h ->
  (forall x h', x ∈ l -> grow h h' -> SI h' -> sf (f x) (fun _ => P x) h') ->
  (forall x h1 h2, P x h1 -> grow h1 h2 -> P x h2) ->
  sf (mapM_ f l) (fun _ h' => forall x, x ∈ l -> P x h') h.
Proof.
  intros HS Hf HP. revert h HS Hf. induction l as [|x l IH]; intros h HS Hf.
  - apply sf_ret; [done|]. by intros ? ?%elem_of_nil.
  - cbn [mapM_]. eapply sf_bind; [apply Hf; [left|apply grow_refl|done]|]. intros ? h1 G1 S1 P1. cbn beta in P1.
    eapply sf_mono.
    + apply IH; [done|]. intros y h2 Hy G2 S2. apply Hf; [by right|by eapply grow_trans|done].
    + intros ? h2 G2 S2 H y [->|Hy]%elem_of_cons; [by eapply HP|by apply H].
Qed.
Lemma sf_for_each range op (P : list Z -> heap -> Prop) h : Forall (fun n => 0 <= n) range -> SI h ->
  (forall sv h', in_range range sv -> grow h h' -> SI h' -> sf (op sv) (fun _ => P sv) h') ->
  (forall sv h1 h2, P sv h1 -> grow h1 h2 -> P sv h2) ->
  sf (for_each_sizevec range op) (fun _ h' => forall sv, in_range range sv -> P sv h') h.
Proof.
  intros Hr HS Hop HP. eapply sf_mono; [eapply sf_eq; [symmetry; by apply for_each_run|apply (sf_mapM _ _ P)]|].
  - done.
  - intros sv h' Hsv. apply Hop. by apply elem_of_indices.
  - done.
  - intros ? h' ? ? H sv Hsv. by apply H, elem_of_indices.
Qed.

(** ** cells *)
Lemma sf_load T s p x (Q : val -> heap -> Prop) h : SI h -> h_sto h !! s = Some x -> sto_ty x = T -> 0 <= p -> filled h s (Z.to_nat p) ->
  (forall v, Q v h) -> sf (load T s p) Q h.
Proof.
  intros S Hx HT Hp (y & cs & v & Hy & Hb & Hv) HQ. assert (y = x) as -> by congruence.
  unfold sf, load, bind, get_sto. rewrite Hx, Hb, bool_decide_true by done.
  assert (Z.to_nat p < length cs)%nat by (by eapply lookup_lt_Some).
  replace ((0 <=? p) && (p <? Z.of_nat (length cs))) with true by lia. rewrite Hv. split; [apply grow_refl|]. done.
Qed.
Lemma put_grow h s x cs cs' : h_sto h !! s = Some x -> sto_blob x = Some cs -> length cs' = length cs ->
  (forall k v, cs !! k = Some (Some v) -> exists v', cs' !! k = Some (Some v')) ->
  grow h (Hp (<[s := Sto (sto_ty x) (sto_bytes x) (Some cs')]> (h_sto h)) (h_ten h) (h_ver h)).
Proof.
  intros Hx Hb Hl Hc. assert (s < length (h_sto h))%nat as Hs by (by eapply lookup_lt_Some). split.
  - by apply tens_eq.
  - eapply rs_upd; [done|by eapply same_sto_blob|]. intros [H1 H2]. split; [done|]. rewrite Hb in H2. simpl. by rewrite Hl.
  - intros s' k (y & c & v & Hy & Hc' & Hv). destruct (decide (s' = s)) as [->|Hne].
    + assert (y = x) as -> by congruence. assert (c = cs) as -> by congruence. destruct (Hc _ _ Hv) as [v' Hv'].
      eexists _, cs', v'. cbn [h_sto]. rewrite list_lookup_insert by done. done.
    + exists y, c, v. cbn [h_sto]. by rewrite list_lookup_insert_ne.
  - intros s' (y & c & Hy & Hc'). destruct (decide (s' = s)) as [->|Hne].
    + eexists _, cs'. cbn [h_sto]. rewrite list_lookup_insert by done. done.
    + exists y, c. cbn [h_sto]. by rewrite list_lookup_insert_ne.
  - intros s' y Hy (y' & c & Hy' & Hc'). left. destruct (decide (s' = s)) as [->|Hne]; [by exists x, cs|].
    cbn [h_sto] in Hy'. rewrite list_lookup_insert_ne in Hy' by done. by exists y', c.
Qed.
Lemma sf_store T s p v x (Q : unit -> heap -> Prop) h : SI h -> h_sto h !! s = Some x -> sto_ty x = T -> allocd h s -> 0 <= p < cap x ->
  (forall h', filled h' s (Z.to_nat p) -> Q tt h') -> sf (store T s p v) Q h.
Proof.
  intros S Hx HT (y & cs & Hy & Hb) Hp HQ. assert (y = x) as -> by congruence.
  assert (sok x) as [_ Hk] by (eapply Forall_lookup_1; [apply S|done]). rewrite Hb in Hk.
  unfold sf, store, bind, get_sto, set_sto. rewrite Hx, Hb, bool_decide_true by done. unfold cap in Hp.
  replace ((0 <=? p) && (p <? Z.of_nat (length cs))) with true by lia.
  match goal with |- grow h ?h' /\ _ => assert (grow h h') as G end.
  { eapply put_grow; [done|done|by rewrite insert_length|]. intros k w Hw. destruct (decide (k = Z.to_nat p)) as [->|Hne].
    - exists v. apply list_lookup_insert. lia.
    - exists w. by rewrite list_lookup_insert_ne. }
  split; [done|]. split; [by eapply SI_cells|]. apply HQ. eexists _, _, v. cbn [h_sto].
  rewrite list_lookup_insert by (by eapply lookup_lt_Some). split; [done|]. split; [done|]. apply list_lookup_insert. lia.
Qed.

(** ** arithmetic *)
Lemma cvt_soft f t v u : cvt f t v = UB u -> soft u.
Proof. unfold cvt. repeat case_match; intros [= <-]; done. Qed.
Lemma cvt_kind f t v w : cvt f t v = Ok w -> match w with VI _ => is_int t = true | VF _ => is_int t = false end.
Proof. unfold cvt. repeat case_match; intros [= <-]; done. Qed.
Lemma binop_soft o L R a b u : binop o L R a b = UB u -> soft u.
Proof.
  unfold binop. destruct (cvt L (prom L R) a) as [a'|?|u'|] eqn:Ea; cbn [obind]; [|done|intros [= <-]; by eapply cvt_soft|done].
  destruct (cvt R (prom L R) b) as [b'|?|u'|] eqn:Eb; cbn [obind]; [|done|intros [= <-]; by eapply cvt_soft|done].
  pose proof (cvt_kind _ _ _ _ Ea) as Ka. pose proof (cvt_kind _ _ _ _ Eb) as Kb.
  destruct a' as [x|x], b' as [y|y]; try congruence; cbn.
  - destruct o; unfold int_chk; repeat case_match; intros [= <-]; done.
  - done.
Qed.
Lemma cmpop_soft o L R a b u : cmpop o L R a b = UB u -> soft u.
Proof.
  unfold cmpop. destruct (cvt L (prom L R) a) as [a'|?|u'|] eqn:Ea; cbn [obind]; [|done|intros [= <-]; by eapply cvt_soft|done].
  destruct (cvt R (prom L R) b) as [b'|?|u'|] eqn:Eb; cbn [obind]; [|done|intros [= <-]; by eapply cvt_soft|done].
  pose proof (cvt_kind _ _ _ _ Ea) as Ka. pose proof (cvt_kind _ _ _ _ Eb) as Kb.
  destruct a' as [x|x], b' as [y|y]; try congruence; done.
Qed.
Lemma negop_soft T a u : negop T a = UB u -> soft u.
Proof. unfold negop, int_chk. repeat case_match; intros [= <-]; done. Qed.
Lemma sf_store_cvt F T s p v x (Q : unit -> heap -> Prop) h : SI h -> h_sto h !! s = Some x -> sto_ty x = T -> allocd h s -> 0 <= p < cap x ->
  (forall h', filled h' s (Z.to_nat p) -> Q tt h') -> sf (store_cvt F T s p v) Q h.
Proof.
  intros. unfold store_cvt. apply sf_lift_bind; [done|intros u; apply cvt_soft|]. intros w _. by eapply sf_store.
Qed.

(** ** positions *)
Lemma geom_pos h r idx : geom h r -> in_range (shape r) idx -> 
  exists x, h_sto h !! t_sto r = Some x /\ sto_ty x = t_dt r /\ lay_ok (t_lay r) /\ lay_in (t_lay r) (cap x) /\ cap x <= two64 /\ 0 <= pos (t_lay r) idx < cap x.
Proof.
  intros ((x & Hx & HT & Hb & Hl) & _) Hi. exists x. split; [done|]. split; [done|].
  assert (cap x <= two64) as Hc.
  { unfold cap. pose proof (size_of_pos (sto_ty x)). destruct (Z_lt_le_dec (sto_bytes x) 0) as [Hn|Hn].
    - assert (sto_bytes x / size_of (sto_ty x) < 0) by (apply Z.div_lt_upper_bound; lia). unfold two64. lia.
    - assert (sto_bytes x / size_of (sto_ty x) <= sto_bytes x) by (apply Z.div_le_upper_bound; nia). pose proof alloc_max_lt. unfold two63, two64 in *. lia. }
  destruct Hl as [H0|(L1 & L2 & _)].
  - apply in_range_pos in Hi. rewrite Forall_forall in Hi. specialize (Hi _ H0). lia.
  - split; [done|]. split; [done|]. split; [done|]. by apply L2.
Qed.
(** Reading and addressing, by exact and by broadcast index. The index of an operand that
    is too small for the range throws. *)
Lemma exact_ok h r idx : geom h r -> in_range (shape r) idx -> cnt_from_index (t_lay r) idx = Ok (pos (t_lay r) idx).
Proof. intros Hg Hi. destruct (geom_pos _ _ _ Hg Hi) as (x & _ & _ & L1 & L2 & Hc & _). by eapply cnt_from_index_ok. Qed.
Lemma aug_cases rs ri : (length rs <= length ri)%nat -> Forall (fun n => 0 <= n) rs -> Forall (fun i => 0 <= i) ri ->
  aug_rev rs ri = Throw RuntimeError \/ exists r, aug_rev rs ri = Ok r /\ in_range rs r.
Proof.
  revert ri. induction rs as [|n rs IH]; intros ri Hl Hn Hi; [right; exists []; split; [done|constructor]|].
  destruct ri as [|i ri]; [cbn in Hl; lia|]. apply Forall_cons in Hn as [Hn Hns]. apply Forall_cons in Hi as [Hi His]. cbn in Hl.
  cbn [aug_rev tail]. destruct (IH ri ltac:(lia) Hns His) as [E|(r & E & Hr)]; rewrite E.
  - destruct (n =? 1); cbn; [by left|]. destruct (i <? n); by left.
  - destruct (n =? 1) eqn:E1; cbn.
    + right. eexists. split; [done|]. apply in_range_cons. split; [lia|done].
    + destruct (i <? n) eqn:E2; cbn; [|by left]. right. eexists. split; [done|]. apply in_range_cons. split; [lia|done].
Qed.
Lemma aug_ok h r idx : geom h r -> (length (shape r) <= length idx)%nat -> Forall (fun i => 0 <= i) idx ->
  cnt_from_aug_index (t_lay r) idx = Throw RuntimeError \/
  exists idx', in_range (shape r) idx' /\ cnt_from_aug_index (t_lay r) idx = Ok (pos (t_lay r) idx').
Proof.
  intros Hg Hl Hi. unfold cnt_from_aug_index. destruct (aug_cases (rev (sizes (t_lay r))) (rev idx)) as [->|(y & -> & Hy)].
  - rewrite !rev_length. done.
  - apply Forall_rev. apply Hg.
  - by apply Forall_rev.
  - by left.
  - right. exists (rev y). assert (in_range (shape r) (rev y)) as Hr by (apply in_range_rev; by rewrite rev_involutive).
    split; [done|]. by eapply exact_ok.
Qed.
Lemma aug_self h r idx : geom h r -> in_range (shape r) idx -> cnt_from_aug_index (t_lay r) idx = Ok (pos (t_lay r) idx).
Proof.
  intros Hg Hi. unfold cnt_from_aug_index. assert (aug_rev (rev (sizes (t_lay r))) (rev idx) = Ok (rev idx)) as ->.
  - apply in_range_rev in Hi. unfold shape in Hi. clear Hg; induction Hi as [|n i ss' idx' Hi Hs IH]; [done|]. cbn [aug_rev tail]. rewrite IH.
    destruct (n =? 1) eqn:E; cbn; [|by replace (i <? n) with true by lia]. by replace i with 0 by lia.
  - cbn [obind]. rewrite rev_involutive. by eapply exact_ok.
Qed.
End with_fops.
