(** How the parts of backward change the graph: the counters, and which tensors get a
    gradient. *)
From Verif.Proofs Require Export Terminate2.
From Verif.Model Require Export Api.

(** occurrences of [t] in [l] *)
Definition cnt (l : list nat) (t : nat) : Z := Z.of_nat (count_occ Nat.eq_dec l t).
Lemma cnt_app l l' t : cnt (l ++ l') t = cnt l t + cnt l' t.
Proof. unfold cnt. rewrite count_occ_app. lia. Qed.
Lemma cnt_nonneg l t : 0 <= cnt l t. Proof. unfold cnt. lia. Qed.
Lemma cnt_pos l t : 0 < cnt l t <-> t ∈ l.
Proof. unfold cnt. rewrite elem_of_list_In, (count_occ_In Nat.eq_dec). lia. Qed.
Lemma cnt_zero l t : t ∉ l -> cnt l t = 0.
Proof. intros H. pose proof (cnt_nonneg l t). pose proof (cnt_pos l t). destruct (decide (0 < cnt l t)); [tauto|lia]. Qed.

Section with_fops.
Context {fo : FOps}.
Notation any := (fun _ _ => True).

(** [r'] is [r] after [n] accumulations; its gradient may have been created if [g] *)
Definition stepped (n : Z) (g : Prop) (r r' : tensor) : Prop :=
  same_data r r' /\ t_rg r' = t_rg r /\ t_ret r' = t_ret r /\
  t_fn r' = match t_fn r with
            | Some f => Some (gf_with_acc f (gf_acc f + (if t_rg r then n else 0)))
            | None => None end /\
  (t_grad r' = t_grad r \/ t_grad r = None /\ is_Some (t_grad r') /\ t_rg r = true /\ g) /\
  (g -> t_rg r = true -> is_Some (t_grad r')).
Definition sb (l m : list nat) (h h' : heap) : Prop :=
  h_ver h' = h_ver h /\
  (forall t r, h_ten h !! t = Some r -> exists r', h_ten h' !! t = Some r' /\ stepped (cnt l t) (t ∈ m) r r') /\
  (forall t r', h_ten h' !! t = Some r' -> h_ten h !! t = None ->
     t_fn r' = None /\ t_rg r' = false /\ t_ret r' = false /\ t_grad r' = None).

Lemma acc_id f : gf_with_acc f (gf_acc f + 0) = f.
Proof. destruct f. unfold gf_with_acc. simpl. f_equal. lia. Qed.
Lemma stepped_refl n (g : Prop) r : n = 0 \/ t_rg r = false \/ t_fn r = None -> ~ g \/ t_rg r = false -> stepped n g r r.
Proof.
  intros H Hg. split; [done|]. split; [done|]. split; [done|]. split; [|split; [by left|intuition congruence]].
  destruct (t_fn r) as [f|]; [|done]. f_equal. destruct H as [-> | [-> | ?]]; [| |done]; [|by rewrite acc_id].
  destruct (t_rg r); by rewrite acc_id.
Qed.
Lemma stepped_trans n n' (g g' : Prop) a b c : stepped n g a b -> stepped n' g' b c -> stepped (n + n') (g \/ g') a c.
Proof.
  intros (D1 & R1 & T1 & F1 & G1 & M1) (D2 & R2 & T2 & F2 & G2 & M2).
  split; [by eapply same_data_trans|]. split; [congruence|]. split; [congruence|]. split; [|split].
  - rewrite F2, F1, R1. destruct (t_fn a) as [f|]; [|done]. f_equal. unfold gf_with_acc. simpl. f_equal.
    destruct (t_rg a); lia.
  - destruct G2 as [E2|(N2 & S2 & Rb & G2)].
    + rewrite E2. destruct G1 as [E1|(N1 & S1 & Ra & G1)]; [by left|]. right. auto.
    + destruct G1 as [E1|(N1 & S1 & Ra & G1)]; [|rewrite N2 in S1; by destruct S1]. right.
      split; [congruence|]. split; [done|]. split; [congruence|]. by right.
  - intros [H|H] Hr; [|apply M2; [done|congruence]]. specialize (M1 H Hr).
    destruct G2 as [->|(_ & ? & _)]; done.
Qed.
Lemma stepped_weak n (g g' : Prop) a b : stepped n g a b -> (g <-> g') -> stepped n g' a b.
Proof.
  intros (D1 & R1 & T1 & F1 & G1 & M1) H. repeat (split; [done|]). split; [|tauto].
  destruct G1 as [E1|(N1 & S1 & Ra & G1)]; [by left|]. right. tauto.
Qed.
Lemma sb_refl h : sb [] [] h h.
Proof.
  split; [done|]. split; [|congruence]. intros t r Hr. exists r. split; [done|]. apply stepped_refl; left; [done|apply not_elem_of_nil].
Qed.
Lemma sb_same h h' : h_ten h' = h_ten h -> h_ver h' = h_ver h -> sb [] [] h h'.
Proof. intros E1 E2. destruct (sb_refl h) as (_ & H1 & H2). split; [done|]. by rewrite E1. Qed.
Lemma sb_trans l l' m m' h1 h2 h3 : sb l m h1 h2 -> sb l' m' h2 h3 -> sb (l ++ l') (m ++ m') h1 h3.
Proof.
  intros (V1 & K1 & N1) (V2 & K2 & N2). split; [congruence|]. split.
  - intros t r Hr. destruct (K1 t r Hr) as (r1 & Hr1 & S1). destruct (K2 t r1 Hr1) as (r2 & Hr2 & S2).
    exists r2. split; [done|]. rewrite cnt_app. eapply stepped_weak; [by eapply stepped_trans|].
    rewrite elem_of_app. done.
  - intros t r Hr Hn. destruct (h_ten h2 !! t) as [r2|] eqn:E2; [|exact (N2 t r Hr E2)].
    destruct (N1 t r2 E2 Hn) as (A1 & A2 & A3 & A4). destruct (K2 t r2 E2) as (r' & Hr' & S).
    assert (r' = r) as -> by congruence. destruct S as (D & R & T & Fn & G & _). rewrite Fn, R, T, A1, A2, A3.
    split; [done|]. split; [done|]. split; [done|]. destruct G as [->|(_ & _ & ? & _)]; [done|congruence].
Qed.
Lemma sb_new h h' r : h_ten h' = h_ten h ++ [r] -> h_ver h' = h_ver h ->
  t_fn r = None -> t_rg r = false -> t_ret r = false -> t_grad r = None -> sb [] [] h h'.
Proof.
  intros E V Hf Hr Ht Hg. split; [done|]. split.
  - intros t x Hx. exists x. rewrite E. split; [by apply lookup_app_l_Some|]. apply stepped_refl; left; [done|apply not_elem_of_nil].
  - intros t x. rewrite E. intros [Hx|[Hl Hx]]%lookup_app_Some Hn; [congruence|].
    destruct (t - length (h_ten h))%nat; [|done]. simpl in Hx. by injection Hx as <-.
Qed.
Lemma sb_set l m h t r r' : h_ten h !! t = Some r -> stepped (cnt l t) (t ∈ m) r r' -> l = [] \/ l = [t] -> m = [] \/ m = [t] ->
  sb l m h (Hp (h_sto h) (<[t := r']> (h_ten h)) (h_ver h)).
Proof.
  intros Ht Hs Hl Hm. split; [done|]. simpl. split.
  - intros u x Hx. destruct (decide (u = t)) as [->|Hne].
    + exists r'. rewrite list_lookup_insert by (by eapply lookup_lt_Some). split; [done|congruence].
    + exists x. rewrite list_lookup_insert_ne by done. split; [done|]. apply stepped_refl; left.
      * apply cnt_zero. destruct Hl as [-> | ->]; [apply not_elem_of_nil|by rewrite elem_of_list_singleton].
      * destruct Hm as [-> | ->]; [apply not_elem_of_nil|by rewrite elem_of_list_singleton].
  - intros u x Hx Hn. destruct (decide (u = t)) as [->|Hne]; [congruence|].
    rewrite list_lookup_insert_ne in Hx by done. congruence.
Qed.
Definition nb {A} (m : E A) (l g : list nat) (P : A -> heap -> Prop) (h : heap) : Prop :=
  nd m (fun a h' => sb l g h h' /\ P a h') h.
Lemma nb_bind {A B} (m : E A) (k : A -> E B) l l' g g' P P' h :
  nb m l g P h -> (forall a h', sized h' -> sb l g h h' -> P a h' -> nb (k a) l' g' P' h') -> nb (bind m k) (l ++ l') (g ++ g') P' h.
Proof.
  intros Hm Hk. eapply nd_bind; [exact Hm|]. intros a h' Hs [Hsb HP]. eapply nd_mono; [by apply Hk|].
  intros b h'' Hs' [Hsb' HP']. split; [by eapply sb_trans|done].
Qed.
Lemma nb_bind0 {A B} (m : E A) (k : A -> E B) l g P P' h :
  nb m [] [] P h -> (forall a h', sized h' -> sb [] [] h h' -> P a h' -> nb (k a) l g P' h') -> nb (bind m k) l g P' h.
Proof. apply (nb_bind m k [] l [] g). Qed.
Lemma nb_mono {A} (m : E A) l g (P P' : A -> heap -> Prop) h : nb m l g P h -> (forall a h', P a h' -> P' a h') -> nb m l g P' h.
Proof. intros H HP. eapply nd_mono; [done|]. intros a h' _ [? ?]. auto. Qed.
Lemma nb_any {A} (m : E A) l g P h : nb m l g P h -> nb m l g any h.
Proof. intros H. by eapply nb_mono. Qed.
Lemma nb_ret {A} (a : A) (P : A -> heap -> Prop) h : sized h -> P a h -> nb (mret a) [] [] P h.
Proof. intros. apply nd_ret; [done|]. split; [apply sb_refl|done]. Qed.
Lemma nb_st {A} (m : E A) h : st m -> nv m -> sized h -> nb m [] [] any h.
Proof. intros. eapply nd_mono; [by apply nd_st|]. intros a h' _ [E V]. split; [by apply sb_same|done]. Qed.
Lemma nb_ub {A} u l g (P : A -> heap -> Prop) h : sized h -> nb (mub u) l g P h. Proof. done. Qed.
Lemma nb_read {A B} (m : E A) (k : A -> E B) l g P h : reads m -> nv m -> sized h ->
  (forall a, m h = (Ok a, h) -> nb (k a) l g P h) -> nb (bind m k) l g P h.
Proof. apply nd_read. Qed.
Lemma nb_get {B} t (k : tensor -> E B) l g P h : sized h ->
  (forall r, h_ten h !! t = Some r -> nonneg (shape r) -> nb (k r) l g P h) -> nb (bind (get_ten t) k) l g P h.
Proof. apply nd_get. Qed.
Lemma nb_deref {A B} (o : option A) (k : A -> E B) l g P h : sized h ->
  (forall a, o = Some a -> nb (k a) l g P h) -> nb (bind (deref o) k) l g P h.
Proof. apply nd_deref. Qed.

Lemma nb_create dt lay b h : sized h -> nonneg (sizes lay) -> nb (create dt lay b) [] [] (fun t h' => is_Some (h_ten h' !! t)) h.
Proof.
  intros. eapply nd_mono; [by apply nd_create|]. intros t h' _ (s & Ht & E & V). split; [by eapply sb_new|].
  rewrite E, Ht. eexists. apply lookup_snoc.
Qed.
Lemma nb_create_view dt lay s h : sized h -> nonneg (sizes lay) -> nb (create_view dt lay s) [] [] any h.
Proof.
  intros. eapply nd_mono; [by apply nd_create_view|]. intros t h' _ (s' & Ht & E & V). split; [by eapply sb_new|done].
Qed.
Lemma nb_create_scalar dt v h : sized h -> nb (create_scalar dt v) [] [] any h.
Proof.
  intros Hs. eapply nb_bind0; [apply nb_create; [done|constructor]|]. intros t h1 Hs1 _ _. apply nb_get; [done|]. intros r _ _.
  eapply nb_bind0; [apply nb_st; [apply st_store|unfold store; nv_tac|done]|]. intros. by apply nb_ret.
Qed.
Lemma nb_fill_new ss dt tmp nt h : sized h -> nonneg ss -> nb (fill_new ss dt tmp nt) [] [] any h.
Proof.
  intros Hs Hss. eapply nb_bind0; [by apply nb_create|]. intros t h1 Hs1 _ _. apply nb_get; [done|]. intros d _ Hd.
  apply nb_get; [done|]. intros n _ _.
  eapply nb_bind0; [apply nb_st; [apply st_tensor_fill|by apply nv_tensor_fill|done]|]. intros. by apply nb_ret.
Qed.
Lemma nb_ones_like t h : sized h -> nb (ones_like t) [] [] any h.
Proof.
  intros Hs. apply nb_get; [done|]. intros r _ Hr. eapply nb_bind0; [by apply nb_create_scalar|]. intros. by apply nb_fill_new.
Qed.
Lemma nb_full_double ss x dt h : sized h -> nonneg ss -> nb (full_double ss x dt) [] [] any h.
Proof. intros. eapply nb_bind0; [by apply nb_create_scalar|]. intros. by apply nb_fill_new. Qed.

Lemma cnt_self t : cnt [t] t = 1.
Proof. unfold cnt. simpl. by destruct (Nat.eq_dec t t). Qed.
Lemma nb_set l g t r r' h : sized h -> h_ten h !! t = Some r -> stepped (cnt l t) (t ∈ g) r r' -> l = [] \/ l = [t] -> g = [] \/ g = [t] ->
  nb (set_ten t r') l g any h.
Proof.
  intros Hs Ht Hst Hl Hg. split; [apply sized_set; [done|]|split; [by eapply sb_set|done]].
  destruct Hst as ((_ & E & _) & _). unfold shape. rewrite <- E. by eapply Hs.
Qed.
Lemma nb_had {A} (m : E A) P p h : (exists r, h_ten h !! p = Some r /\ is_Some (t_grad r)) -> nb m [] [] P h -> nb m [] [p] P h.
Proof.
  intros (r & Hr & Hg) H. eapply nd_mono; [exact H|]. intros a h' _ [(V & K & N) HP]. split; [|done]. split; [done|]. split; [|done].
  intros t x Hx. destruct (K t x Hx) as (x' & Hx' & D & R & T & Fn & G & M). exists x'. split; [done|].
  assert (t_grad x' = t_grad x) as EG by (destruct G as [?|(_ & _ & _ & []%not_elem_of_nil)]; done).
  repeat (split; [done|]). split; [by left|]. intros ->%elem_of_list_singleton _. rewrite EG. congruence.
Qed.
Lemma nb_update p h : sized h -> nb (try_accumulate_update p) [p] [p] any h.
Proof.
  intros Hs. apply nb_get; [done|]. intros r Hr Hn. destruct (t_rg r) eqn:Erg; simpl.
  - change (nb (bind (match t_fn r with
      | Some _ => upd_fn p (fun g : gradfn => gf_with_acc g (gf_acc g + 1))
      | None => mret tt
      end) (fun _ => match t_grad r with
      | Some g =>
          let! gr := get_ten g in
          let! a := sto_is_alloc (t_sto gr) in
          if a then mret tt else sto_alloc (t_sto gr);;; sto_zero (t_sto gr)
      | None =>
          let! g := create (t_dt r) (t_lay r) true in
          let! p' := get_ten p in
          set_ten p (with_grad p' (Some g));;; let! gr := get_ten g in sto_zero (t_sto gr)
      end)) ([p] ++ []) ([] ++ [p]) any h).
    apply (nb_bind _ _ [p] [] [] [p] (fun _ h' => exists r', h_ten h' !! p = Some r' /\ stepped 1 False r r')).
    { destruct (t_fn r) as [f|] eqn:Ef.
      - apply nb_get; [done|]. intros r' Hr' _. assert (r' = r) as -> by congruence. rewrite Ef.
        assert (stepped 1 False r (with_fn r (Some (gf_with_acc f (gf_acc f + 1))))) as Hst.
        { split; [done|]. split; [done|]. split; [done|]. split; [|split; [by left|done]]. simpl. by rewrite Ef, Erg. }
        split; [by apply sized_set|]. split.
        + eapply sb_set; [done| |by right|by left]. rewrite cnt_self. eapply stepped_weak; [done|]. by rewrite elem_of_nil.
        + exists (with_fn r (Some (gf_with_acc f (gf_acc f + 1)))). simpl.
          rewrite list_lookup_insert by (by eapply lookup_lt_Some). done.
      - apply nd_ret; [done|]. split; [|exists r; split; [done|apply stepped_refl; auto]].
        split; [done|]. split; [|congruence]. intros t x Hx. exists x. split; [done|].
        apply stepped_refl; [|left; apply not_elem_of_nil]. destruct (decide (t = p)) as [->|Hne]; [right; right; congruence|left]. apply cnt_zero.
        by rewrite elem_of_list_singleton. }
    intros _ h1 Hs1 Hsb (r1 & Hr1 & S1). destruct (t_grad r) as [g|] eqn:Eg.
    + apply nb_had. { exists r1. split; [done|]. destruct S1 as (_ & _ & _ & _ & [->|(? & _)] & _); [by rewrite Eg|congruence]. }
      apply nb_get; [done|]. intros gr _ _.
      apply nb_read; [unfold sto_is_alloc; reads_tac|unfold sto_is_alloc; nv_tac|done|]. intros [|] _; [by apply nb_ret|].
      apply nb_st; [|apply nv_bind; [apply nv_sto_alloc|intros; apply nv_sto_zero]|done].
      apply st_bind; [apply st_sto_alloc|intros; apply st_sto_zero].
    + eapply nb_bind0; [by apply nb_create|]. intros g h2 Hs2 Hsb2 (gr & Hgr). apply nb_get; [done|]. intros p' Hp' _.
      apply (nb_bind _ _ [] [] [p] [] any).
      * eapply nb_set; [done|done| |by left|by right]. split; [done|]. split; [done|]. split; [done|]. split; [|split; [|done]].
        { simpl. destruct (t_fn p') as [f|]; [|done]. f_equal. by destruct (t_rg p'); rewrite acc_id. }
        destruct Hsb2 as (_ & K & _). destruct (K p r1 Hr1) as (r2 & Hr2 & S2). assert (r2 = p') as -> by congruence.
        destruct S2 as (_ & R2 & _ & _ & G2 & _). destruct S1 as (_ & R1 & _ & _ & G1 & _).
        right. simpl. destruct G1 as [G1|(_ & _ & _ & [])].
        destruct G2 as [G2|(_ & _ & _ & []%not_elem_of_nil)].
        split; [congruence|]. split; [done|]. split; [congruence|]. by apply elem_of_list_singleton.
      * intros _ h3 Hs3 _ _. apply nb_get; [done|]. intros gr' _ _. apply nb_st; [apply st_sto_zero|apply nv_sto_zero|done].
  - apply nd_ret; [done|]. split; [|done]. split; [done|]. split; [|congruence]. intros t x Hx. exists x. split; [done|].
    destruct (decide (t = p)) as [->|Hne]; (apply stepped_refl; [right; left; congruence|right; congruence]) || idtac.
    apply stepped_refl; left; [apply cnt_zero|]; by rewrite elem_of_list_singleton.
Qed.
Lemma nv_dispatch_ffi a b : nv (dispatch_ffi a b). Proof. unfold dispatch_ffi. nv_tac. Qed.
Lemma nv_dispatch_ff a b : nv (dispatch_ff a b). Proof. unfold dispatch_ff. nv_tac. Qed.
Lemma nb_mul_add d l r h : sized h -> nb (tensor_mul_add_f d l r) [] [] any h.
Proof.
  intros Hs. apply nb_get; [done|]. intros dr _ Hd. apply nb_get; [done|]. intros lr _ Hl. apply nb_get; [done|]. intros rr _ Hr.
  apply nb_read; [apply reads_dispatch_ffi|apply nv_dispatch_ffi|done|]. intros _ _.
  apply nb_st; [apply st_mul_acc|by apply nv_mul_acc|done].
Qed.
Lemma nb_addeq a b h : sized h -> nb (op_addeq a b) [] [] any h.
Proof. intros. eapply nd_mono; [by apply nd_addeq|]. intros ? h' _ [E V]. split; [by apply sb_same|done]. Qed.
Lemma nb_acc p w o h : sized h -> nb (try_accumulate_grad p w o) [p] [p] any h.
Proof.
  intros Hs. apply nb_get; [done|]. intros r Hr _. destruct (t_rg r) eqn:Erg; simpl.
  - change (nb (bind (try_accumulate_update p) (fun _ => match o with
    | None =>
        match w with
        | None => mret tt
        | Some w =>
            let! p := get_ten p in
            let! g := deref (t_grad p) in
            op_addeq g w
        end
    | Some o =>
        let! w := deref w in
        let! wr := get_ten w in
        let! p := get_ten p in
        let! g := deref (t_grad p) in
        if is_float (t_dt wr) then tensor_mul_add_f g w o else tensor_mul_add_f g o w
    end)) ([p] ++ []) ([p] ++ []) any h).
    eapply nb_bind; [by apply nb_update|]. intros _ h1 Hs1 _ _. destruct o as [o|].
    + apply nb_deref; [done|]. intros w' _. apply nb_get; [done|]. intros wr _ _. apply nb_get; [done|]. intros p' _ _.
      apply nb_deref; [done|]. intros g _. case_match; by apply nb_mul_add.
    + destruct w as [w|]; [|by apply nb_ret]. apply nb_get; [done|]. intros p' _ _.
      apply nb_deref; [done|]. intros g _. by apply nb_addeq.
  - apply nd_ret; [done|]. split; [|done]. split; [done|]. split; [|congruence]. intros t x Hx. exists x. split; [done|].
    destruct (decide (t = p)) as [->|Hne]; (apply stepped_refl; [right; left; congruence|right; congruence]) || idtac.
    apply stepped_refl; left; [apply cnt_zero|]; by rewrite elem_of_list_singleton.
Qed.
Lemma nv_out_grad t : nv (out_grad t).
Proof. apply nv_bind; [apply nv_get_ten|]. intros. apply nv_deref. Qed.
Lemma nb_out_grad {B} t (k : nat -> E B) l g P h : sized h -> (forall x, nb (k x) l g P h) -> nb (bind (out_grad t) k) l g P h.
Proof. intros Hs Hk. apply nb_read; [apply reads_out_grad|apply nv_out_grad|done|]. intros x _. apply Hk. Qed.
Lemma nb_cat_back this dim ins : forall s h, sized h -> nb (cat_back this dim ins s) ins ins any h.
Proof.
  induction ins as [|t ins IH]; intros s h Hs; [by apply nb_ret|]. cbn [cat_back].
  apply nb_get; [done|]. intros me _ _. apply nb_get; [done|]. intros x _ Hx. cbv zeta.
  apply nb_deref; [done|]. intros g _. apply nb_get; [done|]. intros gr _ _.
  eapply nb_bind0; [by apply nb_create_view|]. intros v h1 Hs1 _ _.
  apply (nb_bind _ _ [t] ins [t] ins any); [by apply nb_acc|]. intros _ h2 Hs2 _ _. by apply IH.
Qed.
Lemma nb_step this r k ins h : sized h -> fn_fits h r k ins -> nb (step_back this k ins) ins ins any h.
Proof.
  intros Hs Hf.
  assert (forall (B : Type) i (kk : nat -> E B) l g P, (forall a, ins !! i = Some a -> nb (kk a) l g P h) ->
    nb (bind (input ins i) kk) l g P h) as Hin.
  { intros B i kk l g P Hk. by apply nb_deref. }
  destruct k; cbn [step_back fn_fits] in *; try (destruct ins as [|a [|b [|]]]; try done);
    try (apply Hin; intros ? [= <-]); try (apply Hin; intros ? [= <-]).
  - apply nb_out_grad; [done|]. intros g. apply (nb_bind _ _ [a] [b] [a] [b] any); [by apply nb_acc|]. intros _ h1 Hs1 _ _.
    apply nb_out_grad; [done|]. intros g'. by apply nb_acc.
  - apply nb_out_grad; [done|]. intros g. apply (nb_bind _ _ [a] [b] [a] [b] any); [by apply nb_acc|]. intros _ h1 Hs1 _ _.
    apply nb_out_grad; [done|]. intros g'. eapply nb_bind0; [by apply nb_create_scalar|]. intros m h2 Hs2 _ _. by apply nb_acc.
  - apply nb_out_grad; [done|]. intros g. apply (nb_bind _ _ [a] [b] [a] [b] any); [by apply nb_acc|]. intros _ h1 Hs1 _ _.
    apply nb_out_grad; [done|]. intros g'. by apply nb_acc.
  - apply (nb_bind _ _ [a] [b] [a] [b] any); [by apply nb_update|]. intros _ h1 Hs1 _ _.
    apply nb_get; [done|]. intros ar _ _. apply nb_deref; [done|]. intros ga _. apply nb_out_grad; [done|]. intros g.
    apply (nb_bind0 _ _ [b] [b] any).
    { apply nb_get; [done|]. intros dr _ Hd. apply nb_get; [done|]. intros lr _ Hl. apply nb_get; [done|]. intros rr _ Hr.
      apply nb_read; [apply reads_dispatch_ffi|apply nv_dispatch_ffi|done|]. intros _ _.
      apply nb_st; [apply st_div_num|by apply nv_div_num|done]. }
    intros _ h2 Hs2 _ _. apply (nb_bind _ _ [b] [] [b] [] any); [by apply nb_update|]. intros _ h3 Hs3 _ _.
    apply nb_get; [done|]. intros br _ _. apply nb_get; [done|]. intros me _ Hme.
    apply nb_read; [apply reads_dispatch_ff|apply nv_dispatch_ff|done|]. intros _ _.
    apply nb_deref; [done|]. intros gb _. apply nb_out_grad; [done|]. intros g'.
    apply nb_get; [done|]. intros gbr _ _. apply nb_get; [done|]. intros gr _ _.
    apply nb_st; [apply st_div_den|by apply nv_div_den|done].
  - eapply nb_bind0; [by apply nb_ones_like|]. intros o h1 Hs1 _ _. apply nb_out_grad; [done|]. intros g. by apply nb_acc.
  - apply nb_get; [done|]. intros ar _ Har. eapply nb_bind0; [by apply nb_full_double|]. intros f h1 Hs1 _ _. by apply nb_acc.
  - by apply nb_acc.
  - apply nb_out_grad; [done|]. intros g. by apply nb_acc.
  - by apply nb_cat_back.
  - by apply nb_cat_back.
  - by apply nb_cat_back.
  - by apply nb_cat_back.
  - apply nb_out_grad; [done|]. intros g. by apply nb_acc.
Qed.
End with_fops.
