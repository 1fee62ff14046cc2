(** Calls use and change only what their handles keep alive. *)
From Verif.Spec Require Export Alive.
From Verif.Model Require Export Api.

Section with_fops.
Context {fo : FOps}.

Section live.
Variables L Ls : nat -> Prop.

Definition all_in (P : nat -> Prop) (l : list nat) : Prop := forall x, x ∈ l -> P x.
Record rl (r : tensor) : Prop := Rl {
  rl_sto : Ls (t_sto r);
  rl_grad : forall g, t_grad r = Some g -> L g;
  rl_in : forall f, t_fn r = Some f -> all_in L (gf_in f);
  rl_kind : forall f g, t_fn r = Some f -> gf_kind f = KnownGradBack g -> L g
}.
Record sim (h1 h2 : heap) : Prop := Sim {
  sm_lt : length (h_ten h2) = length (h_ten h1);
  sm_ls : length (h_sto h2) = length (h_sto h1);
  sm_v : h_ver h2 = h_ver h1;
  sm_t : forall x, L x -> h_ten h2 !! x = h_ten h1 !! x;
  sm_s : forall s, Ls s -> h_sto h2 !! s = h_sto h1 !! s;
  sm_r : forall x r, L x -> h_ten h1 !! x = Some r -> rl r;
  sm_nt : forall x, (length (h_ten h1) <= x)%nat -> L x;
  sm_ns : forall s, (length (h_sto h1) <= s)%nat -> Ls s
}.
Record still (h g : heap) : Prop := Still {
  sl_t : forall x, ~ L x -> h_ten g !! x = h_ten h !! x;
  sl_s : forall s, ~ Ls s -> h_sto g !! s = h_sto h !! s
}.
Lemma still_refl h : still h h. Proof. done. Qed.
Lemma still_trans a b c : still a b -> still b c -> still a c.
Proof. intros [T1 S1] [T2 S2]. split; intros; [rewrite T2, T1|rewrite S2, S1]; done. Qed.

Definition lc {A} (m : E A) (Q : A -> Prop) : Prop := forall h1 h2, sim h1 h2 ->
  (m h2).1 = (m h1).1 /\ sim (m h1).2 (m h2).2 /\ still h1 (m h1).2 /\ still h2 (m h2).2 /\
  forall a, (m h1).1 = Ok a -> Q a.
Notation any := (fun _ => True).

Lemma lc_lift {A} (o : outcome A) (Q : A -> Prop) : (forall a, o = Ok a -> Q a) -> lc (lift o) Q.
Proof. intros H h1 h2 S. split_and!; try done. Qed.
Lemma lc_any {A} (o : outcome A) : lc (lift o) any.
Proof. by apply lc_lift. Qed.
Lemma lc_ret {A} (a : A) (Q : A -> Prop) : Q a -> lc (mret a) Q.
Proof. intros H h1 h2 S. split_and!; try done. intros b E. simpl in E. by simplify_eq. Qed.
Lemma lc_ub {A} u (Q : A -> Prop) : lc (mub u) Q. Proof. intros h1 h2 S. split_and!; done. Qed.
Lemma lc_throw {A} u (Q : A -> Prop) : lc (mthrow u) Q. Proof. intros h1 h2 S. split_and!; done. Qed.
Lemma lc_expect b : lc (run_expect b) any. Proof. destruct b; [by apply lc_ret|apply lc_throw]. Qed.
Lemma lc_bind {A B} (m : E A) (k : A -> E B) Q R : lc m Q -> (forall a, Q a -> lc (k a) R) -> lc (bind m k) R.
Proof.
  intros Hm Hk h1 h2 S. unfold bind. destruct (Hm h1 h2 S) as (E & S' & T1 & T2 & HQ).
  destruct (m h1) as [o1 g1], (m h2) as [o2 g2]. simpl in *. subst o2. destruct o1 as [a|e|u|]; try (split_and!; done).
  destruct (Hk a (HQ a eq_refl) g1 g2 S') as (E' & S'' & U1 & U2 & HR). split_and!; try done; by eapply still_trans.
Qed.
Lemma lc_then {A B} (m : E A) (k : E B) R : lc m any -> lc k R -> lc (m ;;; k) R.
Proof. intros. eapply lc_bind; [done|auto]. Qed.
Lemma lc_mono {A} (m : E A) (Q R : A -> Prop) : lc m Q -> (forall a, Q a -> R a) -> lc m R.
Proof. intros Hm H h1 h2 S. destruct (Hm h1 h2 S) as (? & ? & ? & ? & ?). split_and!; auto. Qed.
Lemma lc_get t : L t -> lc (get_ten t) rl.
Proof.
  intros Ht h1 h2 S. unfold get_ten. rewrite (sm_t _ _ S t Ht). destruct (h_ten h1 !! t) as [r|] eqn:E; split_and!; try done.
  intros a Ea. simpl in Ea. simplify_eq. by apply (sm_r _ _ S t).
Qed.
Lemma lc_gets s : Ls s -> lc (get_sto s) any.
Proof. intros Hs h1 h2 S. unfold get_sto. rewrite (sm_s _ _ S s Hs). destruct (h_sto h1 !! s); split_and!; done. Qed.
Lemma lc_set t r : L t -> rl r -> lc (set_ten t r) any.
Proof.
  intros Ht Hr h1 h2 S. unfold set_ten. cbn [fst snd]. split_and!; try done.
  - split; cbn [h_ten h_sto h_ver]; rewrite ?insert_length; try apply S.
    + intros x Hx. destruct (decide (x = t)) as [->|Hne]; [|rewrite !list_lookup_insert_ne by done; by apply S].
      destruct (decide (t < length (h_ten h1))%nat) as [Hl|Hl].
      * rewrite !list_lookup_insert by (rewrite ?(sm_lt _ _ S); done). done.
      * rewrite !list_insert_ge by (rewrite ?(sm_lt _ _ S); lia). by apply S.
    + intros x r' Hx Hg. destruct (decide (x = t)) as [->|Hne].
      * apply list_lookup_insert_Some in Hg as [(_ & <- & _)|[? _]]; done.
      * rewrite list_lookup_insert_ne in Hg by done. by eapply (sm_r _ _ S).
  - split; cbn [h_ten h_sto]; [|done]. intros x Hx. rewrite list_lookup_insert_ne by congruence. done.
  - split; cbn [h_ten h_sto]; [|done]. intros x Hx. rewrite list_lookup_insert_ne by congruence. done.
Qed.
Lemma lc_sets s r : Ls s -> lc (set_sto s r) any.
Proof.
  intros Hs h1 h2 S. unfold set_sto. cbn [fst snd]. split_and!; try done.
  - split; cbn [h_ten h_sto h_ver]; rewrite ?insert_length; try apply S.
    intros x Hx. destruct (decide (x = s)) as [->|Hne]; [|rewrite !list_lookup_insert_ne by done; by apply S].
    destruct (decide (s < length (h_sto h1))%nat) as [Hl|Hl].
    + rewrite !list_lookup_insert by (rewrite ?(sm_ls _ _ S); done). done.
    + rewrite !list_insert_ge by (rewrite ?(sm_ls _ _ S); lia). by apply S.
  - split; cbn [h_ten h_sto]; [done|]. intros x Hx. rewrite list_lookup_insert_ne by congruence. done.
  - split; cbn [h_ten h_sto]; [done|]. intros x Hx. rewrite list_lookup_insert_ne by congruence. done.
Qed.
Lemma new_look {A} (P : nat -> Prop) (l1 l2 : list A) r : length l2 = length l1 -> (forall x, P x -> l2 !! x = l1 !! x) -> forall x, P x -> (l2 ++ [r]) !! x = (l1 ++ [r]) !! x.
Proof.
  intros El H x Hx. destruct (decide (x < length l1)%nat) as [Hl|Hl].
  - rewrite !lookup_app_l by lia. by apply H.
  - rewrite !lookup_app_r by lia. by rewrite El.
Qed.
Lemma old_look {A} (P : nat -> Prop) (l : list A) r : (forall x, (length l <= x)%nat -> P x) -> forall x, ~ P x -> (l ++ [r]) !! x = l !! x.
Proof.
  intros H x Hx. destruct (decide (x < length l)%nat) as [Hl|Hl]; [by rewrite lookup_app_l by lia|]. destruct Hx. apply H. lia.
Qed.
Lemma lc_new r : rl r -> lc (new_ten r) L.
Proof.
  intros Hr h1 h2 S. unfold new_ten. cbn [fst snd]. split_and!.
  - by rewrite (sm_lt _ _ S).
  - split; cbn [h_ten h_sto h_ver]; rewrite ?app_length, ?(sm_lt _ _ S); try apply S; try done.
    + apply new_look; apply S.
    + intros x r' Hx [Hg|[_ Hg]]%lookup_app_Some; [by eapply (sm_r _ _ S)|]. apply list_lookup_singleton_Some in Hg as [_ <-]. done.
    + intros x Hx. apply (sm_nt _ _ S). lia.
  - split; cbn [h_ten h_sto]; [|done]. apply old_look, S.
  - split; cbn [h_ten h_sto]; [|done]. apply old_look. rewrite (sm_lt _ _ S). apply S.
  - intros a [= <-]. by apply (sm_nt _ _ S).
Qed.
Lemma lc_news r : lc (new_sto r) Ls.
Proof.
  intros h1 h2 S. unfold new_sto. cbn [fst snd]. split_and!.
  - by rewrite (sm_ls _ _ S).
  - split; cbn [h_ten h_sto h_ver]; rewrite ?app_length, ?(sm_ls _ _ S); try apply S; try done.
    + apply new_look; apply S.
    + intros x Hx. apply (sm_ns _ _ S). lia.
  - split; cbn [h_ten h_sto]; [done|]. apply old_look, S.
  - split; cbn [h_ten h_sto]; [done|]. apply old_look. rewrite (sm_ls _ _ S). apply S.
  - intros a [= <-]. by apply (sm_ns _ _ S).
Qed.
Lemma lc_size : lc heap_size any.
Proof. intros h1 h2 S. unfold heap_size. simpl. rewrite (sm_lt _ _ S). split_and!; done. Qed.
Lemma lc_ver : lc global_version any.
Proof. intros h1 h2 S. unfold global_version. simpl. rewrite (sm_v _ _ S). split_and!; done. Qed.
Lemma lc_bump : lc bump any.
Proof.
  intros h1 h2 S. unfold bump. simpl. rewrite (sm_v _ _ S). split_and!; try done. split; try apply S. done.
Qed.

(** ** loops *)
Definition pres {S A} (J : S -> S -> Prop) (m : M S A) : Prop := forall s1 s2, J s1 s2 -> (m s2).1 = (m s1).1 /\ J (m s1).2 (m s2).2.
Definition step_rel {S R} (J : S -> S -> Prop) (a b : (list Z * S) + (outcome (option R) * S)) : Prop :=
  match a, b with
  | inl (v, s), inl (v', s') => v' = v /\ J s s'
  | inr (o, s), inr (o', s') => o' = o /\ J s s'
  | _, _ => False
  end.
Lemma iter_rel {S R} (J : S -> S -> Prop) (f : list Z * S -> (list Z * S) + (outcome (option R) * S)) :
  (forall v s s', J s s' -> step_rel J (f (v, s)) (f (v, s'))) ->
  forall p v s s', J s s' -> step_rel J (iter_until p f (v, s)) (iter_until p f (v, s')).
Proof.
  intros Hf p. induction p as [p IH|p IH|]; intros v s s' HJ; cbn [iter_until]; [| |by apply Hf].
  - pose proof (Hf v s s' HJ) as H. destruct (f (v, s)) as [[v1 s1]|[o1 s1]], (f (v, s')) as [[v2 s2]|[o2 s2]]; try done.
    destruct H as [-> HJ1]. pose proof (IH v1 _ _ HJ1) as H.
    destruct (iter_until p f (v1, s1)) as [[v3 s3]|[o3 s3]], (iter_until p f (v1, s2)) as [[v4 s4]|[o4 s4]]; try done. destruct H as [-> HJ2]. by apply IH.
  - pose proof (IH v _ _ HJ) as H.
    destruct (iter_until p f (v, s)) as [[v3 s3]|[o3 s3]], (iter_until p f (v, s')) as [[v4 s4]|[o4 s4]]; try done. destruct H as [-> HJ2]. by apply IH.
Qed.
Lemma odometer_pres {S R} (J : S -> S -> Prop) rg (body : list Z -> M S (option R)) : (forall v, pres J (body v)) -> pres J (odometer rg body).
Proof.
  intros Hb s1 s2 HJ. unfold odometer.
  assert (forall v s s', J s s' -> step_rel J (odo_step rg body (v, s)) (odo_step rg body (v, s'))) as K.
  { intros v s s' HJ'. unfold odo_step. destruct (carry rg (Nat.pred (length rg)) v) as [v'|]; [|done].
    destruct (Hb v' s s' HJ') as [E1 E2]. destruct (body v' s) as [o g], (body v' s') as [o' g']. simpl in *. subst o'. by destruct o as [[?|]|?|?|]. }
  pose proof (iter_rel J _ K (Z.to_pos (extent rg + 1)) (repeat 0 (length rg)) s1 s2 HJ) as H.
  destruct (iter_until _ _ (_, s1)) as [[v3 s3]|[o3 s3]], (iter_until _ _ (_, s2)) as [[v4 s4]|[o4 s4]]; try done; by destruct H as [-> H].
Qed.
Lemma pres_bind {S A B} (J : S -> S -> Prop) (m : M S A) (k : A -> M S B) : pres J m -> (forall a, pres J (k a)) -> pres J (bind m k).
Proof.
  intros Hm Hk s1 s2 HJ. unfold bind. destruct (Hm s1 s2 HJ) as [E HJ']. destruct (m s1) as [o1 g1], (m s2) as [o2 g2]. simpl in *. subst o2.
  destruct o1 as [a|e|u|]; try done. by apply Hk.
Qed.
Lemma pres_ret {S A} (J : S -> S -> Prop) (a : A) : pres J (mret a). Proof. by intros s1 s2. Qed.
Lemma pres_lift {S A} (J : S -> S -> Prop) (o : outcome A) : pres J (lift o). Proof. by intros s1 s2. Qed.
Lemma for_each_pres {S} (J : S -> S -> Prop) rg (body : list Z -> M S unit) : (forall v, pres J (body v)) -> pres J (for_each_sizevec rg body).
Proof.
  intros Hb. unfold for_each_sizevec. destruct (existsb _ rg); [apply pres_ret|]. destruct rg as [|n rg]; [apply Hb|].
  apply pres_bind; [|intros; apply pres_ret]. apply odometer_pres. intros v. apply pres_bind; [apply Hb|intros; apply pres_ret].
Qed.
Definition from (b1 b2 s1 s2 : heap) : Prop := sim s1 s2 /\ still b1 s1 /\ still b2 s2.
Lemma lc_pres {A} (m : E A) b1 b2 Q : lc m Q -> pres (from b1 b2) m.
Proof.
  intros Hm s1 s2 (HS & T1 & T2). destruct (Hm s1 s2 HS) as (E & S' & U1 & U2 & _). split; [done|]. split; [done|]. split; by eapply still_trans.
Qed.
Lemma pres_lc {A} (m : E A) : (forall b1 b2, pres (from b1 b2) m) -> lc m any.
Proof.
  intros Hm h1 h2 HS. destruct (Hm h1 h2 h1 h2) as [E (S' & T1 & T2)]; [split; [done|]; split; apply still_refl|]. split_and!; done.
Qed.
Lemma lc_odometer {R} rg (body : list Z -> E (option R)) : (forall v, lc (body v) any) -> lc (odometer rg body) any.
Proof. intros Hb. apply pres_lc. intros. apply odometer_pres. intros v. by eapply lc_pres. Qed.
Lemma lc_for_each rg (body : list Z -> E unit) : (forall v, lc (body v) any) -> lc (for_each_sizevec rg body) any.
Proof. intros Hb. apply pres_lc. intros. apply for_each_pres. intros v. by eapply lc_pres. Qed.
Lemma lc_mapM {A} (f : A -> E unit) l : (forall a, lc (f a) any) -> lc (mapM_ f l) any.
Proof. intros Hf. induction l as [|a l IH]; [by apply lc_ret|]. by apply lc_then. Qed.
Lemma lc_plain {A} (body : A -> E unit) v : lc (body v) any -> lc (plain body v) any.
Proof. intros H. eapply lc_bind; [exact H|]. intros. by apply lc_ret. Qed.
Lemma lc_deref {A} (o : option A) (Q : A -> Prop) : (forall a, o = Some a -> Q a) -> lc (deref o) Q.
Proof. intros H. destruct o as [a|]; [apply lc_ret; auto|apply lc_ub]. Qed.

(** ** storage *)
Lemma lc_load t s p : Ls s -> lc (load t s p) any.
Proof.
  intros Hs. unfold load. eapply lc_bind; [by apply lc_gets|]. intros r _. destruct (sto_blob r) as [cs|]; [|apply lc_ub].
  destruct (bool_decide _); [|apply lc_ub]. destruct (_ && _); [|apply lc_ub]. destruct (cs !! Z.to_nat p) as [[v|]|]; [by apply lc_ret|apply lc_ub|apply lc_ub].
Qed.
Lemma lc_store t s p v : Ls s -> lc (store t s p v) any.
Proof.
  intros Hs. unfold store. eapply lc_bind; [by apply lc_gets|]. intros r _. destruct (sto_blob r) as [cs|]; [|apply lc_ub].
  destruct (bool_decide _); [|apply lc_ub]. destruct (_ && _); [|apply lc_ub]. by apply lc_sets.
Qed.
Lemma lc_store_cvt f t s p v : Ls s -> lc (store_cvt f t s p v) any.
Proof. intros Hs. eapply lc_bind; [apply lc_any|]. intros. by apply lc_store. Qed.
Lemma lc_alloc s : Ls s -> lc (sto_alloc s) any.
Proof. intros Hs. eapply lc_bind; [by apply lc_gets|]. intros. eapply lc_bind; [apply lc_any|]. intros. by apply lc_sets. Qed.
Lemma lc_zero s : Ls s -> lc (sto_zero s) any.
Proof. intros Hs. eapply lc_bind; [by apply lc_gets|]. intros r _. destruct (sto_blob r); [by apply lc_sets|by apply lc_ret]. Qed.
Lemma lc_release s : Ls s -> lc (sto_release s) any.
Proof. intros Hs. eapply lc_bind; [by apply lc_gets|]. intros. by apply lc_sets. Qed.
Lemma lc_is_alloc s : Ls s -> lc (sto_is_alloc s) any.
Proof. intros Hs. eapply lc_bind; [by apply lc_gets|]. intros. by apply lc_ret. Qed.
Lemma lc_bool_byte s p : Ls s -> lc (load_bool_byte s p) any.
Proof.
  intros Hs. unfold load_bool_byte. eapply lc_bind; [by apply lc_gets|]. intros r _. destruct (sto_blob r) as [cs|]; [|apply lc_ub]. cbv zeta.
  destruct (_ && _); [|apply lc_ub]. destruct (cs !! _) as [[v|]|]; [|apply lc_ub..]. destruct (_ =? 0); [by apply lc_ret|]. destruct (_ =? 1); [by apply lc_ret|apply lc_ub].
Qed.
Lemma lc_randn_write dt s i x : Ls s -> lc (randn_write dt s i x) any.
Proof.
  intros Hs. unfold randn_write. destruct (bool_decide _); [by apply lc_store|]. eapply lc_bind; [by apply lc_gets|]. intros r _.
  destruct (sto_blob r); [|apply lc_ub]. destruct (_ <=? _); [by apply lc_sets|apply lc_ub].
Qed.

(** a syntax-directed search for what remains *)
Ltac go :=
  repeat first
  [ progress cbv beta iota zeta
  | assumption
  | match goal with H : rl ?r |- Ls (t_sto ?r) => exact (rl_sto _ H) end
  | match goal with
    | |- lc (lift _) _ => apply lc_any
    | |- lc (idx_aug _ _) _ => apply lc_any
    | |- lc (idx_exact _ _) _ => apply lc_any
    | |- lc (run_expect _) _ => apply lc_expect
    | |- lc (mub _) _ => apply lc_ub
    | |- lc (mthrow _) _ => apply lc_throw
    | |- lc (load _ _ _) _ => apply lc_load
    | |- lc (store _ _ _ _) _ => apply lc_store
    | |- lc (store_cvt _ _ _ _ _) _ => apply lc_store_cvt
    | |- lc (sto_zero _) _ => apply lc_zero
    | |- lc (sto_alloc _) _ => apply lc_alloc
    | |- lc (sto_release _) _ => apply lc_release
    | |- lc (sto_is_alloc _) _ => apply lc_is_alloc
    | |- lc (load_bool_byte _ _) _ => apply lc_bool_byte
    | |- lc (randn_write _ _ _ _) _ => apply lc_randn_write
    | |- lc (get_sto _) _ => apply lc_gets
    | |- lc (set_sto _ _) _ => apply lc_sets
    | |- lc (get_ten _) _ => apply lc_get
    | |- lc (for_each_sizevec _ _) _ => apply lc_for_each; intros
    | |- lc (odometer _ _) _ => apply lc_odometer; intros
    | |- lc (plain _ _) _ => apply lc_plain
    | |- lc (mapM_ _ _) _ => apply lc_mapM; intros
    | |- lc (bind _ _) _ => eapply lc_bind; [|intros ? ?]
    | |- lc (mret tt) _ => exact (lc_ret tt (fun _ => True) I)
    | |- lc (mret _) _ => apply lc_ret
    | |- lc (if ?b then _ else _) _ => destruct b
    | |- lc (match ?x with _ => _ end) _ => destruct x eqn:?
    | |- True => exact I
    end ].
Lemma lc_load_aug T t sv : rl t -> lc (load_aug T t sv) any. Proof. intros. unfold load_aug. go. Qed.
Lemma lc_load_exact T t sv : rl t -> lc (load_exact T t sv) any. Proof. intros. unfold load_exact. go. Qed.
Lemma lc_binary_body o D A B d l r sv : rl d -> rl l -> rl r -> lc (binary_body o D A B d l r sv) any.
Proof. intros. unfold binary_body, load_aug. go. Qed.
Lemma lc_add A B d l r : rl d -> rl l -> rl r -> lc (tensor_add A B d l r) any.
Proof. intros. unfold tensor_add. go. by apply lc_binary_body. Qed.
Lemma lc_sub A B d l r : rl d -> rl l -> rl r -> lc (tensor_sub A B d l r) any.
Proof. intros. unfold tensor_sub. go. by apply lc_binary_body. Qed.
Lemma lc_mul A B d l r : rl d -> rl l -> rl r -> lc (tensor_mul A B d l r) any.
Proof. intros. unfold tensor_mul. go. by apply lc_binary_body. Qed.
Lemma lc_div A B d l r : rl d -> rl l -> rl r -> lc (tensor_div A B d l r) any.
Proof. intros. unfold tensor_div. go. by apply lc_binary_body. Qed.
Lemma lc_cmp c A B d l r : rl d -> rl l -> rl r -> lc (tensor_cmp c A B d l r) any.
Proof. intros. unfold tensor_cmp, load_aug. go. Qed.
Lemma lc_fill T N d n : rl d -> rl n -> lc (tensor_fill T N d n) any.
Proof. intros. unfold tensor_fill. go. Qed.
Lemma lc_eye T d : rl d -> lc (tensor_eye T d) any.
Proof. intros. unfold tensor_eye. go. Qed.
Lemma lc_to_type A B d s : rl d -> rl s -> lc (tensor_to_type A B d s) any.
Proof. intros. unfold tensor_to_type, copy_body, load_exact. go. Qed.
Lemma lc_kclone A B d s : rl d -> rl s -> lc (tensor_clone A B d s) any.
Proof. intros. unfold tensor_clone, copy_body, load_exact. go. Qed.
Lemma lc_ksum A B d s : rl d -> rl s -> lc (tensor_sum A B d s) any.
Proof. intros. unfold tensor_sum, sum_body, load_exact. go. Qed.
Lemma lc_kmean A B d s : rl d -> rl s -> lc (tensor_mean A B d s) any.
Proof. intros. unfold tensor_mean, mean_div, sum_body, load_exact. go. Qed.
Lemma lc_mul_acc D A B d l r : rl d -> rl l -> rl r -> lc (tensor_mul_acc_f D A B d l r) any.
Proof. intros. unfold tensor_mul_acc_f, mul_acc_body, load_aug. go. Qed.
Lemma lc_num D A B d l r : rl d -> rl l -> rl r -> lc (tensor_div_back_numerator D A B d l r) any.
Proof. intros. unfold tensor_div_back_numerator, load_aug. go. Qed.
Lemma lc_den A B d l r q : rl d -> rl l -> rl r -> rl q -> lc (tensor_div_back_denominator A B d l r q) any.
Proof. intros. unfold tensor_div_back_denominator, load_aug. go. Qed.
Lemma lc_kcat A B d s o : rl d -> rl s -> lc (tensor_cat A B d s o) any.
Proof. intros. unfold tensor_cat, load_exact. go. Qed.
Lemma lc_kabs A B d s g : rl d -> rl s -> (forall x, g = Some x -> rl x) -> lc (tensor_abs A B d s g) any.
Proof.
  intros Hd Hs Hg. unfold tensor_abs, load_exact. destruct g as [g|]; [pose proof (Hg g eq_refl)|]; go.
Qed.
Definition pairs {X} (J : heap -> heap -> Prop) (a b : heap * X) : Prop := J a.1 b.1 /\ b.2 = a.2.
Lemma pres_on_heap {X A} (J : heap -> heap -> Prop) (m : E A) : pres J m -> pres (pairs (X := X) J) (on_heap m).
Proof.
  intros Hm [h1 x1] [h2 x2] [HJ Hx]. simpl in HJ, Hx. subst x2. unfold on_heap. destruct (Hm h1 h2 HJ) as [E HJ'].
  destruct (m h1) as [o1 g1], (m h2) as [o2 g2]. simpl in *. subst o2. done.
Qed.
Lemma lc_kextremum c T d s g : rl d -> rl s -> (forall x, g = Some x -> rl x) -> lc (tensor_extremum c T d s g) any.
Proof.
  intros Hd Hs Hg. unfold tensor_extremum. eapply lc_bind; [go|]. intros v _. eapply lc_bind; [go|]. intros _ _.
  eapply (lc_bind _ _ any).
  - apply pres_lc. intros b1 b2 h1 h2 HJ.
    assert (pres (pairs (from b1 b2)) (for_each_sizevec (sizes (t_lay s)) (extremum_body c T d s))) as K.
    { apply for_each_pres. intros sv. unfold extremum_body.
      apply pres_bind; [apply pres_on_heap; eapply lc_pres; by apply lc_load_exact|]. intros w.
      apply pres_bind; [apply pres_on_heap; eapply lc_pres; apply lc_load, Hd|]. intros m.
      apply pres_bind; [apply pres_lift|]. intros [|]; [apply pres_ret|].
      apply pres_bind; [apply pres_on_heap; eapply lc_pres; apply lc_store, Hd|]. intros _ [g1 y1] [g2 y2] [HJ' Hy]. done. }
    destruct (K (h1, []) (h2, [])) as [E [HJ' Hx]]; [done|].
    destruct (for_each_sizevec _ _ (h1, [])) as [o1 [g1 x1]], (for_each_sizevec _ _ (h2, [])) as [o2 [g2 x2]]. simpl in *. subst o2 x2. by destruct o1.
  - intros best _. destruct g as [g|]; [pose proof (Hg g eq_refl)|]; go.
Qed.

(** ** calls *)
Lemma rl_blank dt lay s : Ls s -> rl (Ten dt lay s None false false None).
Proof. intros. by split. Qed.
Lemma lc_create_view dt lay s : Ls s -> lc (create_view dt lay s) L.
Proof. intros. by apply lc_new, rl_blank. Qed.
Lemma lc_create dt lay b : lc (create dt lay b) L.
Proof.
  unfold create. cbv zeta. eapply (lc_bind _ _ any); [destruct b; go|]. intros blob _. eapply lc_bind; [apply lc_news|]. intros s Hs. by apply lc_create_view.
Qed.
Lemma rl_grad' r g : rl r -> (forall x, g = Some x -> L x) -> rl (with_grad r g).
Proof. intros [H1 H2 H3 H4] Hg. by split. Qed.
Lemma rl_rg r b : rl r -> rl (with_rg r b). Proof. intros [H1 H2 H3 H4]. by split. Qed.
Lemma rl_ret r b : rl r -> rl (with_ret r b). Proof. intros [H1 H2 H3 H4]. by split. Qed.
Definition fl (f : gradfn) : Prop := all_in L (gf_in f) /\ forall g, gf_kind f = KnownGradBack g -> L g.
Lemma rl_fn r f : rl r -> fl f -> rl (with_fn r (Some f)).
Proof. intros [H1 H2 H3 H4] [F1 F2]. split; try done; cbn [with_fn t_fn]; intros; simplify_eq; eauto. Qed.
Lemma rl_fl r f : rl r -> t_fn r = Some f -> fl f.
Proof. intros [H1 H2 H3 H4] E. split; eauto. Qed.
Definition kl (k : bkind) : Prop := forall g, k = KnownGradBack g -> L g.
Lemma lc_track t k ins : L t -> kl k -> all_in L ins -> lc (track t k ins) any.
Proof.
  intros Ht Hk Hi. unfold track. eapply lc_bind; [by apply lc_get|]. intros r Hr. apply lc_set; [done|]. apply rl_fn; [by apply rl_rg|]. by split.
Qed.
Lemma all1 x : L x -> all_in L [x]. Proof. intros H y ->%elem_of_list_singleton. done. Qed.
Lemma all2 x y : L x -> L y -> all_in L [x; y].
Proof. intros Hx Hy z [->|Hz]%elem_of_cons; [done|]. by apply elem_of_list_singleton in Hz as ->. Qed.

Ltac go2 :=
  repeat first
  [ progress go
  | match goal with
    | |- lc (create _ _ _) _ => apply lc_create
    | |- lc (create_view _ _ _) _ => apply lc_create_view
    | |- lc (track _ _ _) _ => apply lc_track
    | |- lc (set_ten _ _) _ => apply lc_set
    | |- kl _ => intros ? ?; discriminate
    | |- all_in L [_] => apply all1
    | |- all_in L [_; _] => apply all2
    | |- rl (with_rg _ _) => apply rl_rg
    | |- rl (with_ret _ _) => apply rl_ret
    | |- lc (tensor_add _ _ _ _ _) _ => apply lc_add
    | |- lc (tensor_cmp _ _ _ _ _ _) _ => apply lc_cmp
    | |- lc (tensor_fill _ _ _ _) _ => apply lc_fill
    | |- lc (tensor_eye _ _) _ => apply lc_eye
    | |- lc (tensor_to_type _ _ _ _) _ => apply lc_to_type
    | |- lc (tensor_clone _ _ _ _) _ => apply lc_kclone
    | |- lc (tensor_sum _ _ _ _) _ => apply lc_ksum
    | |- lc (tensor_mean _ _ _ _) _ => apply lc_kmean
    | |- lc (tensor_cat _ _ _ _ _) _ => apply lc_kcat
    | |- lc (tensor_mul_acc_f _ _ _ _ _ _) _ => apply lc_mul_acc
    | |- lc (tensor_div_back_numerator _ _ _ _ _ _) _ => apply lc_num
    | |- lc (tensor_div_back_denominator _ _ _ _ _ _) _ => apply lc_den
    end ].
Lemma lc_create_scalar dt v : lc (create_scalar dt v) L. Proof. unfold create_scalar. go2. Qed.
Lemma lc_no_grad kernel l r o : (forall A B d x y, rl d -> rl x -> rl y -> lc (kernel A B d x y) any) -> L l -> L r -> lc (apply_no_grad_binary_op kernel l r o) L.
Proof.
  intros Hk Hl Hr. unfold apply_no_grad_binary_op. eapply lc_bind; [by apply lc_get|]. intros x Hx. eapply lc_bind; [by apply lc_get|]. intros y Hy. cbv zeta.
  eapply lc_bind; [go|]. intros rg _. eapply lc_bind; [apply lc_create|]. intros t Ht. eapply lc_bind; [by apply lc_get|]. intros d Hd.
  apply (lc_bind _ _ any); [|intros; by apply lc_ret]. destruct o; [by apply Hk|]. destruct (bool_decide _); by apply Hk.
Qed.
Lemma lc_binary kernel k l r o : (forall A B d x y, rl d -> rl x -> rl y -> lc (kernel A B d x y) any) -> kl k -> L l -> L r -> lc (apply_binary_operator kernel k l r o) L.
Proof.
  intros Hk Hkl Hl Hr. unfold apply_binary_operator. eapply lc_bind; [by apply lc_no_grad|]. intros t Ht. go2.
Qed.
Lemma lc_op_add l r : L l -> L r -> lc (op_add l r) L. Proof. intros. apply lc_binary; [apply lc_add|done..]. Qed.
Lemma lc_op_sub l r : L l -> L r -> lc (op_sub l r) L. Proof. intros. apply lc_binary; [apply lc_sub|done..]. Qed.
Lemma lc_op_mul l r : L l -> L r -> lc (op_mul l r) L. Proof. intros. apply lc_binary; [apply lc_mul|done..]. Qed.
Lemma lc_op_div l r : L l -> L r -> lc (op_div l r) L. Proof. intros. apply lc_binary; [apply lc_div|done..]. Qed.
Lemma lc_op_neg t : L t -> lc (op_neg t) L.
Proof. intros. eapply lc_bind; [apply lc_create_scalar|]. intros. by apply lc_op_sub. Qed.
Lemma lc_op_cmp c l r : L l -> L r -> lc (op_cmp c l r) L. Proof. intros. unfold op_cmp. go2. Qed.
Lemma lc_op_addeq l r : L l -> L r -> lc (op_addeq l r) any. Proof. intros. unfold op_addeq. go2. Qed.
Lemma lc_fill_new ss dt t nt : L t -> lc (fill_new ss dt t nt) L. Proof. intros. unfold fill_new. go2. Qed.
Lemma lc_ones ss dt : lc (ones ss dt) L. Proof. eapply lc_bind; [apply lc_create_scalar|]. intros. by apply lc_fill_new. Qed.
Lemma lc_full_int ss n dt : lc (full_int ss n dt) L. Proof. eapply lc_bind; [apply lc_create_scalar|]. intros. by apply lc_fill_new. Qed.
Lemma lc_full_double ss n dt : lc (full_double ss n dt) L. Proof. eapply lc_bind; [apply lc_create_scalar|]. intros. by apply lc_fill_new. Qed.
Lemma lc_zeros ss dt : lc (zeros ss dt) L. Proof. unfold zeros. go2. Qed.
Lemma lc_zeros_like t : L t -> lc (zeros_like t) L. Proof. intros. eapply lc_bind; [by apply lc_get|]. intros. apply lc_zeros. Qed.
Lemma lc_ones_like t : L t -> lc (ones_like t) L. Proof. intros. eapply lc_bind; [by apply lc_get|]. intros. apply lc_ones. Qed.
Lemma lc_op_eye n m dt : lc (eye n m dt) L. Proof. unfold eye. go2. Qed.
Lemma lc_from_blob d ss dt : lc (from_blob d ss dt) L.
Proof. unfold from_blob. go2. Qed.
Lemma lc_to_dtype t dt : L t -> lc (to_dtype t dt) L. Proof. intros. unfold to_dtype. go2. Qed.
Lemma lc_op_sum t : L t -> lc (op_sum t) L.
Proof. intros. unfold op_sum. eapply lc_bind; [by apply lc_get|]. intros r Hr. eapply lc_bind; [apply lc_zeros|]. intros z Hz. go2. Qed.
Lemma lc_op_mean t : L t -> lc (op_mean t) L.
Proof. intros. unfold op_mean. eapply lc_bind; [by apply lc_get|]. intros r Hr. eapply lc_bind; [apply lc_zeros|]. intros z Hz. go2. Qed.
Lemma lc_op_abs t : L t -> lc (op_abs t) L.
Proof.
  intros. unfold op_abs. eapply lc_bind; [by apply lc_get|]. intros r Hr. eapply lc_bind; [apply lc_create|]. intros z Hz. eapply lc_bind; [by apply lc_get|]. intros d Hd.
  destruct (negb _).
  - eapply lc_bind; [by apply lc_kabs|]. intros _ _. go2.
  - eapply lc_bind; [apply lc_create|]. intros g Hg. eapply lc_bind; [by apply lc_get|]. intros gr Hgr. eapply lc_bind; [apply lc_kabs; [done..|]; by intros x [= <-]|].
    intros _ _. go2. by intros x [= <-].
Qed.
Lemma lc_op_extremum c t : L t -> lc (op_extremum c t) L.
Proof.
  intros. unfold op_extremum. eapply lc_bind; [by apply lc_get|]. intros r Hr. eapply lc_bind; [apply lc_zeros|]. intros z Hz. eapply lc_bind; [by apply lc_get|]. intros d Hd.
  destruct (negb _).
  - eapply lc_bind; [by apply lc_kextremum|]. intros _ _. go2.
  - eapply lc_bind; [by apply lc_zeros_like|]. intros g Hg. eapply lc_bind; [by apply lc_get|]. intros gr Hgr. eapply lc_bind; [apply lc_kextremum; [done..|]; by intros x [= <-]|].
    intros _ _. go2. by intros x [= <-].
Qed.
Lemma lc_op_max t : L t -> lc (op_max t) L. Proof. apply lc_op_extremum. Qed.
Lemma lc_op_min t : L t -> lc (op_min t) L. Proof. apply lc_op_extremum. Qed.
Lemma lc_zero_grad t : L t -> lc (zero_grad t) any.
Proof.
  intros. unfold zero_grad. eapply lc_bind; [by apply lc_get|]. intros r Hr. destruct (t_grad r) as [g|] eqn:E; [|by apply lc_ret].
  pose proof (rl_grad _ Hr _ E). go2.
Qed.
Lemma lc_share to from : L to -> L from -> lc (share_grad_storage to from) any.
Proof.
  intros Ht Hf. unfold share_grad_storage. eapply lc_bind; [by apply lc_get|]. intros r Hr. eapply (lc_bind _ _ any).
  - destruct (t_grad r); [by apply lc_ret|]. eapply lc_bind; [apply lc_create|]. intros g Hg. apply lc_set; [done|]. apply rl_grad'; [done|]. by intros x [= <-].
  - intros _ _. eapply lc_bind; [by apply lc_get|]. intros f Hf'. destruct (t_grad f) as [g|] eqn:E; [|apply lc_ub]. pose proof (rl_grad _ Hf' _ E).
    eapply lc_bind; [by apply lc_get|]. intros gr Hgr. eapply lc_bind; [by apply lc_get|]. intros tr Htr. eapply lc_bind; [apply lc_create_view, Hgr|]. intros v Hv.
    eapply lc_bind; [by apply lc_get|]. intros tr' Htr'. apply lc_set; [done|]. apply rl_grad'; [done|]. by intros x [= <-].
Qed.
Lemma lc_finish ret input : L ret -> L input -> lc (finish_view ret input) L.
Proof.
  intros. unfold finish_view. eapply lc_bind; [by apply lc_get|]. intros r Hr. destruct (negb _); [by apply lc_ret|]. apply lc_then; [go2|].
  apply lc_then; [by apply lc_share|]. by apply lc_ret.
Qed.
Lemma lc_op_slice t s : L t -> lc (op_slice t s) L.
Proof. intros. unfold op_slice. eapply lc_bind; [by apply lc_get|]. intros r Hr. eapply lc_bind; [go|]. intros lay _. eapply lc_bind; [apply lc_create_view, Hr|]. intros. by apply lc_finish. Qed.
Lemma lc_op_transpose t i j : L t -> lc (op_transpose t i j) L.
Proof.
  intros. unfold op_transpose. eapply lc_bind; [by apply lc_get|]. intros r Hr. cbv zeta. apply lc_then; [go|]. apply lc_then; [go|].
  eapply lc_bind; [apply lc_create_view, Hr|]. intros. by apply lc_finish.
Qed.
Lemma lc_op_clone t : L t -> lc (op_clone t) L. Proof. intros. unfold op_clone. go2. Qed.
Lemma lc_op_contiguous t : L t -> lc (op_contiguous t) L. Proof. apply lc_op_clone. Qed.
Lemma lc_reshape_sv t ss : L t -> lc (op_reshape_sv t ss) L.
Proof.
  intros Ht. unfold op_reshape_sv. eapply lc_bind; [by apply lc_get|]. intros r Hr. cbv zeta. apply lc_then; [go|].
  apply (lc_bind _ _ (fun e => forall x, e = Some x -> L x)).
  { destruct (_ =? 1); [|by apply lc_ret]. eapply lc_bind; [apply lc_create_view, Hr|]. intros v Hv. destruct (negb _); [apply lc_ret; by intros x [= <-]|].
    apply lc_then; [go2|]. apply lc_then; [by apply lc_share|]. by apply lc_ret. }
  intros [e|] He; [apply lc_ret; by apply He|]. apply lc_then; [go|]. eapply lc_bind; [go|]. intros iso _.
  apply (lc_bind _ _ (fun p => L p.1 /\ L p.2)).
  { destruct iso.
    - apply (lc_bind _ _ any); [go|]. intros sts _. eapply lc_bind; [apply lc_create_view, Hr|]. intros v Hv. by apply lc_ret.
    - eapply lc_bind; [by apply lc_op_clone|]. intros m Hm. eapply lc_bind; [by apply lc_get|]. intros mr Hmr. eapply lc_bind; [apply lc_create_view, Hmr|]. intros v Hv. by apply lc_ret. }
  intros [tf ln] [H1 H2]. simpl in H1, H2. eapply lc_bind; [by apply lc_get|]. intros i _. destruct (negb _); [by apply lc_ret|]. apply lc_then; [go2|].
  apply lc_then; [by apply lc_share|]. by apply lc_ret.
Qed.
Lemma lc_op_reshape t ss : L t -> lc (op_reshape t ss) L.
Proof. intros. unfold op_reshape. eapply lc_bind; [by apply lc_get|]. intros. eapply lc_bind; [go|]. intros. by apply lc_reshape_sv. Qed.
Lemma lc_op_reshape_as t o : L t -> L o -> lc (op_reshape_as t o) L.
Proof. intros. unfold op_reshape_as. eapply lc_bind; [by apply lc_get|]. intros. by apply lc_reshape_sv. Qed.
Lemma lc_op_detach t : L t -> lc (op_detach t) L.
Proof. intros. unfold op_detach. eapply lc_bind; [by apply lc_get|]. intros r Hr. apply lc_create_view, Hr. Qed.
Lemma lc_op_all t : L t -> lc (op_all t) any.
Proof. intros. unfold op_all. go2. Qed.
Lemma lc_op_randn ss dt xs : lc (op_randn ss dt xs) L.
Proof. unfold op_randn. go2. Qed.
Lemma lc_op_stride t : L t -> lc (op_stride t) any. Proof. intros. unfold op_stride. go2. Qed.
Lemma lc_get_all ts : all_in L ts -> lc (get_all ts) (Forall rl).
Proof.
  induction ts as [|t ts IH]; intros H; cbn [get_all]; [by apply lc_ret|]. eapply lc_bind; [apply lc_get, H; left|]. intros r Hr.
  eapply lc_bind; [apply IH; intros x Hx; apply H; by right|]. intros rs Hrs. apply lc_ret. by constructor.
Qed.
Lemma lc_cat_copy dt dim d ts o : rl d -> Forall rl ts -> lc (cat_copy dt dim d ts o) any.
Proof. intros Hd Ht. revert o. induction Ht as [|t ts Hr Ht IH]; intros o; cbn [cat_copy]; [by apply lc_ret|]. apply lc_then; [by apply lc_kcat|apply IH]. Qed.
Lemma lc_op_cat ts dim : all_in L ts -> lc (op_cat ts dim) L.
Proof.
  intros H. unfold op_cat. eapply lc_bind; [by apply lc_get_all|]. intros [|r0 rest] Hrs; [apply lc_ub|]. cbv zeta. apply lc_then; [go|]. apply lc_then; [go|].
  eapply lc_bind; [apply lc_create|]. intros t Ht. eapply lc_bind; [by apply lc_get|]. intros d Hd. apply lc_then; [by apply lc_cat_copy|]. go2.
Qed.
Lemma lc_create_impl s : lc (create_impl s) (fun o => forall x, o = Some x -> L x).
Proof.
  unfold create_impl. destruct (sp_shape s); [by apply lc_ret|]. eapply lc_bind; [go|]. intros dt _. eapply lc_bind; [apply lc_create|]. intros t Ht.
  eapply lc_bind; [by apply lc_get|]. intros r Hr. eapply lc_bind; [go|]. intros st _. apply lc_then; [go|]. apply lc_ret. by intros x [= <-].
Qed.
Lemma lc_collect {A} l (f : Z -> E A) : (forall i, lc (f i) any) -> lc (collect l f) any.
Proof. intros Hf. induction l as [|i l IH]; cbn [collect]; [by apply lc_ret|]. eapply lc_bind; [apply Hf|]. intros. eapply lc_bind; [apply IH|]. intros. by apply lc_ret. Qed.
Lemma lc_string dt s ss sts off : Ls s -> lc (to_string_helper dt s ss sts off) any.
Proof.
  intros Hs. revert sts off. induction ss as [|n ss IH]; intros sts off; cbn [to_string_helper].
  - unfold load_byte_off. go.
  - destruct sts as [|st sts]; [go|]. eapply lc_bind; [apply lc_collect; intros; apply IH|]. intros ? _. go.
Qed.
Lemma lc_to_string t : L t -> lc (impl_to_string t) any.
Proof. intros. eapply lc_bind; [by apply lc_get|]. intros r Hr. apply lc_string, Hr. Qed.

(** ** backward *)
Lemma lc_upd_fn t f : L t -> (forall g, fl g -> fl (f g)) -> lc (upd_fn t f) any.
Proof.
  intros Ht Hf. unfold upd_fn. eapply lc_bind; [by apply lc_get|]. intros r Hr. destruct (t_fn r) as [g|] eqn:E; [|apply lc_ub].
  apply lc_set; [done|]. apply rl_fn; [done|]. apply Hf. by eapply rl_fl.
Qed.
Lemma lc_out_grad t : L t -> lc (out_grad t) L.
Proof. intros. unfold out_grad. eapply lc_bind; [by apply lc_get|]. intros r Hr. apply lc_deref. apply Hr. Qed.
Lemma lc_acc_update p : L p -> lc (try_accumulate_update p) any.
Proof.
  intros Hp. unfold try_accumulate_update. eapply lc_bind; [by apply lc_get|]. intros r Hr. destruct (negb _); [by apply lc_ret|]. apply lc_then.
  - destruct (t_fn r); [by apply lc_upd_fn|by apply lc_ret].
  - destruct (t_grad r) as [g|] eqn:E.
    + pose proof (rl_grad _ Hr _ E). go2.
    + eapply lc_bind; [apply lc_create|]. intros g Hg. eapply lc_bind; [by apply lc_get|]. intros r' Hr'. apply lc_then; [apply lc_set; [done|]; apply rl_grad'; [done|]; by intros x [= <-]|]. go2.
Qed.
Lemma lc_mul_add d l r : L d -> L l -> L r -> lc (tensor_mul_add_f d l r) any.
Proof. intros. unfold tensor_mul_add_f, dispatch_ffi. go2. Qed.
Definition ol (o : option nat) : Prop := forall x, o = Some x -> L x.
Lemma ol_some x : L x -> ol (Some x). Proof. by intros ? y [= <-]. Qed.
Lemma ol_none : ol None. Proof. done. Qed.
Lemma lc_acc p w o : L p -> ol w -> ol o -> lc (try_accumulate_grad p w o) any.
Proof.
  intros Hp Hw Ho. unfold try_accumulate_grad. eapply lc_bind; [by apply lc_get|]. intros r Hr. destruct (negb _); [by apply lc_ret|].
  apply lc_then; [by apply lc_acc_update|]. destruct o as [o|].
  - eapply lc_bind; [apply lc_deref, Hw|]. intros w' Hw'. eapply lc_bind; [by apply lc_get|]. intros wr Hwr. eapply lc_bind; [by apply lc_get|]. intros pr Hpr.
    eapply lc_bind; [apply lc_deref, Hpr|]. intros g Hg. pose proof (Ho o eq_refl). destruct (is_float _); by apply lc_mul_add.
  - destruct w as [w|]; [|by apply lc_ret]. eapply lc_bind; [by apply lc_get|]. intros pr Hpr. eapply lc_bind; [apply lc_deref, Hpr|]. intros g Hg.
    apply lc_op_addeq; [done|]. by apply Hw.
Qed.
Lemma lc_input ins i : all_in L ins -> lc (input ins i) L.
Proof. intros H. apply lc_deref. intros a Ha. apply H. by eapply elem_of_list_lookup_2. Qed.
Lemma lc_cat_back t dim ins s : L t -> all_in L ins -> lc (cat_back t dim ins s) any.
Proof.
  intros Ht. revert s. induction ins as [|i ins IH]; intros s Hi; cbn [cat_back]; [by apply lc_ret|].
  eapply lc_bind; [by apply lc_get|]. intros me Hme. eapply lc_bind; [apply lc_get, Hi; left|]. intros x Hx. cbv zeta. eapply lc_bind; [apply lc_deref, Hme|]. intros g Hg.
  eapply lc_bind; [by apply lc_get|]. intros gr Hgr. eapply lc_bind; [apply lc_create_view, Hgr|]. intros v Hv.
  apply lc_then; [apply lc_acc; [apply Hi; left|by apply ol_some|apply ol_none]|]. apply IH. intros y Hy. apply Hi. by right.
Qed.
Lemma lc_step t k ins : L t -> kl k -> all_in L ins -> lc (step_back t k ins) any.
Proof.
  intros Ht Hk Hi. destruct k; cbn [step_back].
  - eapply lc_bind; [by apply lc_input|]. intros a Ha. eapply lc_bind; [by apply lc_input|]. intros b Hb. eapply lc_bind; [by apply lc_out_grad|]. intros g Hg.
    apply lc_then; [apply lc_acc; [done|by apply ol_some|apply ol_none]|]. eapply lc_bind; [by apply lc_out_grad|]. intros g' Hg'. apply lc_acc; [done|by apply ol_some|apply ol_none].
  - eapply lc_bind; [by apply lc_input|]. intros a Ha. eapply lc_bind; [by apply lc_input|]. intros b Hb. eapply lc_bind; [by apply lc_out_grad|]. intros g Hg.
    apply lc_then; [apply lc_acc; [done|by apply ol_some|apply ol_none]|]. eapply lc_bind; [by apply lc_out_grad|]. intros g' Hg'.
    eapply lc_bind; [apply lc_create_scalar|]. intros m Hm. apply lc_acc; [done|by apply ol_some|by apply ol_some].
  - eapply lc_bind; [by apply lc_input|]. intros a Ha. eapply lc_bind; [by apply lc_input|]. intros b Hb. eapply lc_bind; [by apply lc_out_grad|]. intros g Hg.
    apply lc_then; [apply lc_acc; [done|by apply ol_some|by apply ol_some]|]. eapply lc_bind; [by apply lc_out_grad|]. intros g' Hg'. apply lc_acc; [done|by apply ol_some|by apply ol_some].
  - eapply lc_bind; [by apply lc_input|]. intros a Ha. eapply lc_bind; [by apply lc_input|]. intros b Hb. apply lc_then; [by apply lc_acc_update|].
    eapply lc_bind; [by apply lc_get|]. intros ar Har. eapply lc_bind; [apply lc_deref, Har|]. intros ga Hga. eapply lc_bind; [by apply lc_out_grad|]. intros g Hg.
    apply lc_then; [unfold tensor_div_back_numerator_f, dispatch_ffi; go2|]. apply lc_then; [by apply lc_acc_update|].
    eapply lc_bind; [by apply lc_get|]. intros br Hbr. eapply lc_bind; [by apply lc_get|]. intros me Hme. apply lc_then; [unfold dispatch_ff; go|].
    eapply lc_bind; [apply lc_deref, Hbr|]. intros gb Hgb. eapply lc_bind; [by apply lc_out_grad|]. intros g' Hg'. go2.
  - eapply lc_bind; [by apply lc_input|]. intros a Ha. eapply lc_bind; [by apply lc_ones_like|]. intros o Ho. eapply lc_bind; [by apply lc_out_grad|]. intros g Hg.
    apply lc_acc; [done|by apply ol_some|by apply ol_some].
  - eapply lc_bind; [by apply lc_input|]. intros a Ha. eapply lc_bind; [by apply lc_get|]. intros ar Har. eapply lc_bind; [apply lc_full_double|]. intros f Hf.
    apply lc_acc; [done|by apply ol_some|apply ol_none].
  - eapply lc_bind; [by apply lc_input|]. intros a Ha. apply lc_acc; [done|apply ol_none|apply ol_none].
  - eapply lc_bind; [by apply lc_input|]. intros a Ha. eapply lc_bind; [by apply lc_out_grad|]. intros g Hg. apply lc_acc; [done|by apply ol_some|apply ol_none].
  - by apply lc_cat_back.
  - eapply lc_bind; [by apply lc_input|]. intros a Ha. eapply lc_bind; [by apply lc_out_grad|]. intros g Hg. apply lc_acc; [done|apply ol_some; by apply Hk|by apply ol_some].
Qed.
Lemma lc_get_fn t : L t -> lc (get_fn t) fl.
Proof. intros. unfold get_fn. eapply lc_bind; [by apply lc_get|]. intros r Hr. apply lc_deref. intros f E. by eapply rl_fl. Qed.
Ltac visit IH Hi :=
  eapply lc_bind; [apply lc_get, Hi; left|]; intros r Hr; eapply lc_bind; [apply lc_ver|]; intros v _;
  destruct (t_fn r) as [g|] eqn:Eg; [|apply IH; intros y Hy; apply Hi; by right]; pose proof (rl_fl _ _ Hr Eg) as Hg; cbv zeta.
Lemma all_in_cons i l : L i -> all_in L l -> all_in L (i :: l).
Proof. intros H1 H2 x [->|Hx]%elem_of_cons; auto. Qed.
Lemma lc_visit_reset ins : all_in L ins -> lc (visit_reset ins) (all_in L).
Proof.
  induction ins as [|i ins IH]; intros Hi; cbn [visit_reset]; [apply lc_ret; by intros x ?%elem_of_nil|]. visit IH Hi.
  assert (all_in L ins) as Hi' by (intros y Hy; apply Hi; by right). assert (L i) as Li by (apply Hi; left).
  destruct (_ <? _); [|by apply IH]. apply lc_then; [apply lc_set; [done|by apply rl_fn]|]. eapply lc_bind; [by apply IH|]. intros q Hq. apply lc_ret. by apply all_in_cons.
Qed.
Lemma lc_visit_count ins : all_in L ins -> lc (visit_count ins) (all_in L).
Proof.
  induction ins as [|i ins IH]; intros Hi; cbn [visit_count]; [apply lc_ret; by intros x ?%elem_of_nil|]. visit IH Hi.
  assert (all_in L ins) as Hi' by (intros y Hy; apply Hi; by right). assert (L i) as Li by (apply Hi; left).
  destruct (_ <? _).
  - apply lc_then; [apply lc_set; [done|by apply rl_fn]|]. eapply lc_bind; [by apply IH|]. intros q Hq. apply lc_ret. by apply all_in_cons.
  - apply lc_then; [apply lc_set; [done|by apply rl_fn]|]. by apply IH.
Qed.
Lemma lc_visit_ready ins : all_in L ins -> lc (visit_ready ins) (all_in L).
Proof.
  induction ins as [|i ins IH]; intros Hi; cbn [visit_ready]; [apply lc_ret; by intros x ?%elem_of_nil|]. visit IH Hi.
  assert (all_in L ins) as Hi' by (intros y Hy; apply Hi; by right). assert (L i) as Li by (apply Hi; left).
  destruct (_ && _); [|by apply IH]. apply lc_then; [apply lc_set; [done|by apply rl_fn]|]. eapply lc_bind; [by apply IH|]. intros q Hq. apply lc_ret. by apply all_in_cons.
Qed.
Lemma lc_diverge : lc (fun h => (Diverge, h) : outcome unit * heap) any.
Proof. intros h1 h2 S. split_and!; done. Qed.
Lemma lc_bfs n body q : (forall t, L t -> lc (body t) (all_in L)) -> all_in L q -> lc (bfs n body q) any.
Proof.
  intros Hb. revert q. induction n as [|n IH]; intros [|t q] Hq; cbn [bfs]; try (by apply lc_ret); [apply lc_diverge|].
  eapply lc_bind; [apply Hb, Hq; left|]. intros l Hl. apply IH. intros x [Hx|Hx]%elem_of_app; [apply Hq; by right|by apply Hl].
Qed.
Lemma lc_refresh t : L t -> lc (refresh_n_outway t) any.
Proof.
  intros Ht. unfold refresh_n_outway. eapply lc_bind; [apply lc_size|]. intros n _. eapply lc_bind; [apply lc_bump|]. intros v _. apply lc_then; [by apply lc_upd_fn|].
  apply lc_then. { apply lc_bfs; [|by apply all1]. intros x Hx. eapply lc_bind; [by apply lc_get_fn|]. intros g [Hg _]. by apply lc_visit_reset. }
  eapply lc_bind; [apply lc_bump|]. intros v' _. apply lc_then; [by apply lc_upd_fn|].
  apply lc_bfs; [|by apply all1]. intros x Hx. eapply lc_bind; [by apply lc_get_fn|]. intros g [Hg _]. by apply lc_visit_count.
Qed.
Lemma lc_process t : L t -> lc (process t) (all_in L).
Proof.
  intros Ht. unfold process. eapply lc_bind; [by apply lc_get_fn|]. intros g [H1 H2]. apply lc_then; [by apply lc_step|]. eapply lc_bind; [by apply lc_get|]. intros r Hr.
  apply lc_then. { destruct (t_ret r); [by apply lc_ret|]. apply lc_set; [done|]. by apply rl_grad'. }
  eapply lc_bind; [by apply lc_get_fn|]. intros g' [H1' H2']. by apply lc_visit_ready.
Qed.
Lemma lc_backward t : L t -> lc (backward t) any.
Proof.
  intros Ht. unfold backward. eapply lc_bind; [by apply lc_get|]. intros r Hr. do 3 (apply lc_then; [apply lc_expect|]). eapply lc_bind; [apply lc_size|]. intros n _.
  apply lc_then; [by apply lc_refresh|]. eapply lc_bind; [by apply lc_ones_like|]. intros o Ho. eapply lc_bind; [by apply lc_get|]. intros r' Hr'.
  apply lc_then; [apply lc_set; [done|]; apply rl_grad'; [done|]; by intros x [= <-]|]. eapply lc_bind; [apply lc_bump|]. intros v _. apply lc_then; [by apply lc_upd_fn|].
  apply lc_bfs; [apply lc_process|by apply all1].
Qed.

(** ** the API *)
Definition rok (x : ret) : Prop := forall t, x = RHandle (Some t) -> L t.
Lemma lc_handle m : lc m L -> lc (new_handle m) rok.
Proof. intros Hm. eapply lc_bind; [exact Hm|]. intros t Ht. apply lc_ret. by intros x [= <-]. Qed.
Lemma lc_no_result m : lc m any -> lc (no_result m) rok.
Proof. intros Hm. eapply lc_bind; [exact Hm|]. intros. by apply lc_ret. Qed.
Lemma lc_un a f : ol a -> (forall x, L x -> lc (f x) L) -> lc (un a f) rok.
Proof. intros Ha Hf. eapply lc_bind; [by apply lc_deref|]. intros x Hx. by apply lc_handle, Hf. Qed.
Lemma lc_bin a b f : ol a -> ol b -> (forall x y, L x -> L y -> lc (f x y) L) -> lc (bin a b f) rok.
Proof. intros Ha Hb Hf. eapply lc_bind; [by apply lc_deref|]. intros x Hx. eapply lc_bind; [by apply lc_deref|]. intros y Hy. by apply lc_handle, Hf. Qed.
Lemma lc_before_null xs dim : all_in L xs -> lc (before_null xs dim) any.
Proof.
  intros H. unfold before_null. eapply lc_bind; [by apply lc_get_all|]. intros [|r0 rest] Hrs; [by apply lc_ret|]. cbv zeta. apply lc_then; go.
Qed.
Lemma lc_deref_all xs ts dim : all_in L xs -> (forall a, a ∈ ts -> ol a) -> lc (deref_all xs ts dim) (all_in L).
Proof.
  revert xs. induction ts as [|[t|] ts IH]; intros xs Hx H; cbn [deref_all]; [by apply lc_ret| |].
  - apply IH; [|intros y Hy; apply H; by right]. intros x [Hi|Hi]%elem_of_app; [by apply Hx|]. apply elem_of_list_singleton in Hi as ->. apply (H (Some t)); [left|done].
  - eapply lc_bind; [by apply lc_before_null|]. intros. apply lc_ub.
Qed.
Lemma lc_query a f : ol a -> (forall r, rl r -> rok (f r)) -> lc (query a f) rok.
Proof. intros Ha Hf. eapply lc_bind; [by apply lc_deref|]. intros x Hx. eapply lc_bind; [by apply lc_get|]. intros r Hr. apply lc_ret. by apply Hf. Qed.
Lemma lc_exec o : (forall x, Some x ∈ passed o -> L x) -> lc (exec o) rok.
Proof.
  intros H. assert (forall a, a ∈ passed o -> ol a) as Ho by (intros a Ha x ->; by apply H). clear H.
  destruct o; cbn [exec passed] in *;
    try (assert (ol a) by (apply Ho; left)); try (assert (ol b) by (apply Ho; right; left));
    try (apply lc_query; [done|by intros ? ? ? ?]);
    try (apply lc_un; [done|]); try (apply lc_bin; [done..|]); try (apply lc_handle); cbv beta.
  all: try (by auto using lc_create_scalar, lc_create, lc_zeros, lc_ones, lc_full_int, lc_full_double, lc_op_eye, lc_from_blob, lc_op_randn,
    lc_zeros_like, lc_ones_like, lc_op_add, lc_op_sub, lc_op_mul, lc_op_div, lc_op_neg, lc_op_cmp, lc_to_dtype, lc_op_slice, lc_op_transpose, lc_op_reshape, lc_op_reshape_as,
    lc_op_sum, lc_op_mean, lc_op_abs, lc_op_max, lc_op_min, lc_op_contiguous, lc_op_clone, lc_op_detach).
  - eapply lc_bind; [go|]. intros s _. eapply lc_bind; [apply lc_create_impl|]. intros x Hx. apply lc_ret. intros y [= ->]. by apply Hx.
  - intros x Hx. eapply lc_bind; [by apply lc_get|]. intros. apply lc_op_randn.
  - intros x Hx. by apply lc_ret.
  - eapply lc_bind; [by apply lc_deref|]. intros x Hx. eapply lc_bind; [by apply lc_deref|]. intros y Hy. by apply lc_no_result, lc_op_addeq.
  - eapply lc_bind; [apply lc_deref_all; [by intros x ?%elem_of_nil|done]|]. intros xs Hxs. by apply lc_handle, lc_op_cat.
  - apply lc_query; [done|]. intros r Hr x [= E]. by apply (rl_grad _ Hr).
  - eapply lc_bind; [by apply lc_deref|]. intros x Hx. by apply lc_no_result, lc_backward.
  - eapply lc_bind; [by apply lc_deref|]. intros x Hx. by apply lc_no_result, lc_zero_grad.
  - eapply lc_bind; [by apply lc_deref|]. intros x Hx. apply lc_no_result. unfold set_requires_grad. go2.
  - eapply lc_bind; [by apply lc_deref|]. intros x Hx. eapply lc_bind; [by apply lc_get|]. intros r Hr. apply lc_no_result. go2.
  - eapply lc_bind; [by apply lc_deref|]. intros x Hx. eapply lc_bind; [by apply lc_get|]. intros r Hr. apply lc_no_result. go2.
  - eapply lc_bind; [by apply lc_deref|]. intros x Hx. eapply lc_bind; [by apply lc_op_all|]. intros. by apply lc_ret.
  - destruct a as [x|]; [|by apply lc_ret]. eapply lc_bind; [apply lc_to_string; auto|]. intros. by apply lc_ret.
  - eapply lc_bind; [by apply lc_deref|]. intros x Hx. eapply lc_bind; [by apply lc_op_stride|]. intros. by apply lc_ret.
Qed.
Definition ops_in (ops : list op) : Prop := forall o x, o ∈ ops -> Some x ∈ passed o -> L x.
Lemma run_sim ops h1 h2 : ops_in ops -> sim h1 h2 ->
  (run h2 ops).1 = (run h1 ops).1 /\ sim (run h1 ops).2 (run h2 ops).2 /\ still h1 (run h1 ops).2 /\ still h2 (run h2 ops).2 /\
  forall rs x, (run h1 ops).1 = Ok rs -> Ok (RHandle (Some x)) ∈ rs -> L x.
Proof.
  revert h1 h2. induction ops as [|o ops IH]; intros h1 h2 Hop HS; cbn [run].
  - split_and!; try done. intros rs x [= <-] ?%elem_of_nil. done.
  - destruct (lc_exec o) with h1 h2 as (E & S' & T1 & T2 & HR); [intros x Hx; apply (Hop o); [left|done]|done|].
    destruct (exec o h1) as [o1 g1], (exec o h2) as [o2 g2]. cbn [fst snd] in *. subst o2.
    assert (ops_in ops) as Hop' by (intros o' x Ho'; apply Hop; by right). specialize (IH g1 g2 Hop' S') as (E' & S'' & U1 & U2 & HQ).
    destruct o1 as [a|e|u|]; cbn [fst snd]; try (split_and!; done);
      destruct (run g1 ops) as [p1 k1], (run g2 ops) as [p2 k2]; cbn [fst snd] in *; subst p2; destruct p1 as [rs|e'|u'|];
      cbn [fst snd]; split_and!; try done; try (by eapply still_trans).
    + intros rs' x [= <-] [Hx|Hx]%elem_of_cons; [injection Hx as <-; by apply (HR _ eq_refl)|by eapply HQ].
    + intros rs' x [= <-] [Hx|Hx]%elem_of_cons; [done|by eapply HQ].
Qed.
End live.

(** ** reachability *)
Lemma rl_owns L Ls h x r y : h_ten h !! x = Some r -> rl L Ls r -> owns h x y -> L y.
Proof.
  intros Hr [H1 H2 H3 H4] (r' & Hr' & Ho). assert (r' = r) as -> by congruence. destruct Ho as [Hg|(f & Hf & [Hi|Hk])]; [by apply H2|by apply (H3 f)|by apply (H4 f)].
Qed.
Definition used (h : heap) (H : list nat) (s : nat) : Prop := in_use h H s \/ (length (h_sto h) <= s)%nat.
Lemma alive_step h H x y : alive h H x -> owns h x y -> alive h H y.
Proof. intros (z & Hz & R) Ho. exists z. split; [done|]. eapply rtc_r; eauto. Qed.
Lemma agree_sim h H h' : agree h H h' -> sim (usable h H) (used h H) h h'.
Proof.
  intros (El & Es & Ev & Ht & Hs). split; try done.
  - intros x [Hx|Hx]; [by apply Ht|]. rewrite !lookup_ge_None_2 by lia. done.
  - intros s [Hx|Hx]; [by apply Hs|]. rewrite !lookup_ge_None_2 by lia. done.
  - intros x r [Hx|Hx] Hr; [|rewrite lookup_ge_None_2 in Hr by lia; done]. split.
    + left. by exists x, r.
    + intros g Hg. left. eapply alive_step; [exact Hx|]. exists r. auto.
    + intros f Hf y Hy. left. eapply alive_step; [exact Hx|]. exists r. split; [done|]. right. exists f. auto.
    + intros f g Hf Hg. left. eapply alive_step; [exact Hx|]. exists r. split; [done|]. right. exists f. auto.
  - intros x Hx. by right.
  - intros x Hx. by right.
Qed.
Lemma sim_alive L Ls g g' H : sim L Ls g g' -> (forall y, y ∈ H -> L y) -> forall x, alive g H x -> L x.
Proof.
  intros HS HH x (y & Hy & R). apply HH in Hy. induction R as [x|x y z Ho R IH]; [done|]. apply IH.
  destruct Ho as (r & Hr & Ho). eapply (rl_owns _ _ g x r); [done|by eapply (sm_r _ _ _ _ HS)|]. by exists r.
Qed.
Lemma sim_lost h H g g' : sim (usable h H) (used h H) g g' -> still_lost h H g.
Proof.
  intros HS. split.
  - intros H' x HH. by apply (sim_alive _ _ g g' H' HS).
  - intros H' s HH (x & r & Hx & Hr & <-). apply (sim_alive _ _ g g' H' HS HH) in Hx. by apply (sm_r _ _ _ _ HS x r Hx Hr).
Qed.
Lemma sim_agree h H g g' H' : sim (usable h H) (used h H) g g' -> (forall y, y ∈ H' -> usable h H y) -> agree g H' g'.
Proof.
  intros HS HH. split_and!; try apply HS.
  - intros x Hx. apply (sm_t _ _ _ _ HS). by apply (sim_alive _ _ g g' H' HS).
  - intros s (x & r & Hx & Hr & <-). apply (sm_s _ _ _ _ HS). apply (sim_alive _ _ g g' H' HS HH) in Hx. by apply (sm_r _ _ _ _ HS x r Hx Hr).
Qed.
Lemma call_local h H h' o : agree h H h' -> (forall x, Some x ∈ passed o -> usable h H x) ->
  exists res g g', exec o h = (res, g) /\ exec o h' = (res, g') /\
    (forall x, res = Ok (RHandle (Some x)) -> usable h H x) /\
    (forall H', (forall y, y ∈ H' -> usable h H y) -> agree g H' g') /\
    untouched h H h g /\ untouched h H h' g' /\ still_lost h H g.
Proof.
  intros Ha Ho. apply agree_sim in Ha as HS. destruct (lc_exec (usable h H) (used h H) o Ho h h' HS) as (E & S' & [T1 T2] & [U1 U2] & HR).
  exists (exec o h).1, (exec o h).2, (exec o h').2. split_and!; try done.
  - by destruct (exec o h).
  - rewrite <- E. by destruct (exec o h').
  - intros x Hx. by apply (HR _ Hx).
  - intros H' HH. by eapply sim_agree.
  - by eapply sim_lost.
Qed.
Lemma run_local h H h' ops : agree h H h' -> (forall o x, o ∈ ops -> Some x ∈ passed o -> usable h H x) ->
  exists res g g', run h ops = (res, g) /\ run h' ops = (res, g') /\
    (forall rs x, res = Ok rs -> Ok (RHandle (Some x)) ∈ rs -> usable h H x) /\
    (forall H', (forall y, y ∈ H' -> usable h H y) -> agree g H' g') /\
    untouched h H h g /\ untouched h H h' g' /\ still_lost h H g.
Proof.
  intros Ha Ho. apply agree_sim in Ha as HS. destruct (run_sim (usable h H) (used h H) ops h h' Ho HS) as (E & S' & [T1 T2] & [U1 U2] & HR).
  exists (run h ops).1, (run h ops).2, (run h' ops).2. split_and!; try done.
  - by destruct (run h ops).
  - rewrite <- E. by destruct (run h' ops).
  - intros H' HH. by eapply sim_agree.
  - by eapply sim_lost.
Qed.

(** ** freeing *)
Lemma agree_owns h H h' x y : agree h H h' -> alive h H x -> owns h' x y <-> owns h x y.
Proof. intros (_ & _ & _ & Ht & _) Hx. unfold owns. by rewrite (Ht x Hx). Qed.
Lemma agree_alive h H h' x : agree h H h' -> alive h' H x <-> alive h H x.
Proof.
  intros Ha. split.
  - intros (y & Hy & R). assert (alive h H y) as K by (exists y; split; [done|constructor]). clear Hy. induction R as [x|x y z Ho R IH]; [done|].
    apply IH. eapply alive_step; [exact K|]. by apply (agree_owns h H h').
  - intros (y & Hy & R). assert (alive h' H y) as K by (exists y; split; [done|constructor]). assert (alive h H y) as K0 by (exists y; split; [done|constructor]). clear Hy.
    induction R as [x|x y z Ho R IH]; [done|]. apply IH; [|by eapply alive_step]. eapply alive_step; [exact K|]. by apply (agree_owns h H h').
Qed.
Lemma agree_in_use h H h' s : agree h H h' -> in_use h H s -> in_use h' H s.
Proof.
  intros Ha (x & r & Hx & Hr & E). exists x, r. split_and!; [by apply (agree_alive h H h')| |done]. destruct Ha as (_ & _ & _ & Ht & _). by rewrite Ht.
Qed.
Lemma agree_trans h H h' h'' : agree h H h' -> agree h' H h'' -> agree h H h''.
Proof.
  intros Ha Hb. pose proof (fun x => agree_alive h H h' x Ha) as Ka. pose proof (fun s => agree_in_use h H h' s Ha) as Ku.
  destruct Ha as (El & Es & Ev & Ht & Hs), Hb as (El' & Es' & Ev' & Ht' & Hs'). split_and!; try congruence.
  - intros x Hx. rewrite Ht', Ht; [done|done|by apply Ka].
  - intros s Hx. rewrite Hs', Hs; [done|done|by apply Ku].
Qed.
Lemma alive_mono h H H' x : (forall y, y ∈ H' -> y ∈ H) -> alive h H' x -> alive h H x.
Proof. intros HH (y & Hy & R). exists y. auto. Qed.
Lemma agree_mono h H H' h' : (forall y, y ∈ H' -> y ∈ H) -> agree h H h' -> agree h H' h'.
Proof.
  intros HH (El & Es & Ev & Ht & Hs). split_and!; try done.
  - intros x Hx. apply Ht. by eapply alive_mono.
  - intros s (x & r & Hx & Hr & E). apply Hs. exists x, r. split_and!; [|done..]. by eapply alive_mono.
Qed.
Lemma agree_refl h H : agree h H h. Proof. done. Qed.
Lemma run_snoc h ops o rs h1 r h2 : run h ops = (Ok rs, h1) -> exec o h1 = (r, h2) -> (forall u, r <> UB u) -> r <> Diverge -> run h (ops ++ [o]) = (Ok (rs ++ [r]), h2).
Proof.
  revert h rs. induction ops as [|a ops IH]; intros h rs E1 E2 Hu Hd; cbn [run app] in *.
  - injection E1 as <- <-. rewrite E2. destruct r; try done. by destruct (Hu u).
  - destruct (exec a h) as [[x|e|u|] g]; try done; destruct (run g ops) as [[rs'|e'|u'|] g'] eqn:E; try done; injection E1 as <- <-; rewrite (IH g rs' E E2 Hu Hd); done.
Qed.
Lemma alive_here h H x : x ∈ H -> alive h H x.
Proof. intros Hx. exists x. split; [done|constructor]. Qed.
Lemma freeing_run ops rs H h' : freeing ops rs H h' -> exists h, run empty_heap ops = (Ok rs, h) /\ agree h H h'.
Proof.
  induction 1 as [|ops rs H h' o r g' _ (h & R & Ha) Ho E Hu Hd|ops rs H h' H' _ (h & R & Ha) HH|ops rs H h1 h2 _ (h & R & Ha) Hb].
  - by exists empty_heap.
  - destruct (call_local h H h' o Ha) as (res & g & g1 & E1 & E2 & HR & Hg & _); [intros x Hx; left; by apply alive_here, Ho|].
    assert (r = res /\ g' = g1) as [-> ->] by (split; congruence). exists g. split; [by eapply run_snoc|]. apply Hg. intros y Hy.
    unfold holds in Hy. destruct res as [[[x|]| | | | | |]|e|u|]; try (left; by apply alive_here). apply elem_of_cons in Hy as [->|Hy]; [by apply HR|left; by apply alive_here].
  - exists h. split; [done|]. by eapply agree_mono.
  - exists h. split; [done|]. by eapply agree_trans.
Qed.
(** the next call does the same with or without freeing, undefined behaviour included *)
Lemma freeing_call ops rs H h' o : freeing ops rs H h' -> (forall x, Some x ∈ passed o -> x ∈ H) ->
  exists h, run empty_heap ops = (Ok rs, h) /\ (exec o h').1 = (exec o h).1.
Proof.
  intros Hf Ho. destruct (freeing_run _ _ _ _ Hf) as (h & R & Ha). exists h. split; [done|].
  destruct (call_local h H h' o Ha) as (res & g & g1 & E1 & E2 & _); [intros x Hx; left; by apply alive_here, Ho|]. by rewrite E1, E2.
Qed.
Lemma freeing_same ops rs H h' : freeing ops rs H h' ->
  (exists h, run empty_heap ops = (Ok rs, h) /\ agree h H h') /\
  forall o, (forall x, Some x ∈ passed o -> x ∈ H) ->
    exists h, run empty_heap ops = (Ok rs, h) /\ (exec o h').1 = (exec o h).1.
Proof. intros Hf. split; [by apply freeing_run|]. intros o. by eapply freeing_call. Qed.
End with_fops.
