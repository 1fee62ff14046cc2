(** The two counting traversals of backward() visit exactly the nodes below the root and
    count their consumers. *)
From Verif.Proofs Require Export Version.
From Verif.Model Require Export Api.

(** ** sums of occurrence counts *)
Definition uses (ins : nat -> list nat) (l : list nat) (y : nat) : Z :=
  foldr (fun x n => cnt (ins x) y + n) 0 l.
Lemma uses_app ins l l' y : uses ins (l ++ l') y = uses ins l y + uses ins l' y.
Proof. induction l as [|x l IH]; [done|]. cbn [app uses foldr] in *. unfold uses in *. rewrite IH. lia. Qed.
Lemma uses_nonneg ins l y : 0 <= uses ins l y.
Proof. induction l as [|x l IH]; [done|]. cbn [uses foldr]. pose proof (cnt_nonneg (ins x) y). unfold uses in IH. lia. Qed.
Lemma uses_perm ins l l' y : l ≡ₚ l' -> uses ins l y = uses ins l' y.
Proof. unfold uses. induction 1; simpl; lia. Qed.
Lemma uses_zero ins l y : uses ins l y = 0 -> forall x, x ∈ l -> y ∉ ins x.
Proof.
  induction l as [|a l IH]; intros H x; [by intros ?%elem_of_nil|]. cbn [uses foldr] in H.
  pose proof (cnt_nonneg (ins a) y). pose proof (uses_nonneg ins l y). unfold uses in *.
  intros [->|Hx]%elem_of_cons; [|apply IH; [lia|done]]. intros ?%cnt_pos. lia.
Qed.
Lemma uses_none ins l y : (forall x, x ∈ l -> y ∉ ins x) -> uses ins l y = 0.
Proof.
  induction l as [|a l IH]; intros H; [done|]. cbn [uses foldr]. unfold uses in IH. rewrite IH.
  - rewrite cnt_zero; [done|]. apply H. apply elem_of_list_here.
  - intros x Hx. apply H. by apply elem_of_list_further.
Qed.
Lemma uses_sub (ins : nat -> list nat) (l l' : list nat) (y : nat) : NoDup l -> l ⊆ l' -> exists k, l' ≡ₚ l ++ k.
Proof. intros Hd Hs. apply submseteq_Permutation. by apply NoDup_submseteq. Qed.
Lemma uses_eq_sub ins l l' y : NoDup l -> l ⊆ l' -> uses ins l y = uses ins l' y ->
  forall x, x ∈ l' -> y ∈ ins x -> x ∈ l.
Proof.
  intros Hd Hs E x Hx Hy. destruct (uses_sub ins l l' y Hd Hs) as (k & Hk).
  rewrite (uses_perm _ _ _ _ Hk), uses_app in E. rewrite Hk in Hx. apply elem_of_app in Hx as [?|Hx]; [done|].
  by destruct (uses_zero ins k y ltac:(lia) x Hx).
Qed.
Lemma uses_sub_eq ins l l' y : NoDup l -> l ⊆ l' -> NoDup l' -> (forall x, x ∈ l' -> y ∈ ins x -> x ∈ l) -> uses ins l y = uses ins l' y.
Proof.
  intros Hd Hs Hd' H. destruct (uses_sub ins l l' y Hd Hs) as (k & Hk).
  rewrite (uses_perm _ _ _ _ Hk), uses_app. rewrite (uses_none ins k); [lia|]. intros x Hx Hy.
  assert (x ∈ l) as Hl by (apply H; [rewrite Hk, elem_of_app; by right|done]).
  rewrite Hk in Hd'. apply NoDup_app in Hd' as (_ & Hd' & _). exact (Hd' x Hl Hx).
Qed.

(** ** bfs *)
Section with_fops.
Context {fo : FOps}.
Lemma bfs_ind (I : list nat -> list nat -> heap -> Prop) body n :
  (forall P x Q h, I P (x :: Q) h -> exists new h', body x h = (Ok new, h') /\ I (P ++ [x]) (Q ++ new) h') ->
  (forall P Q h, I P Q h -> NoDup (P ++ Q) /\ forall y, y ∈ P ++ Q -> (y < n)%nat) ->
  forall fuel P Q h, I P Q h -> (n <= length P + fuel)%nat ->
  exists P' h', bfs fuel body Q h = (Ok tt, h') /\ I P' [] h'.
Proof.
  intros Hstep Hbd. induction fuel as [|fuel IH]; intros P Q h HI Hn; destruct Q as [|x Q]; try by (exists P, h).
  - exfalso. destruct (Hbd _ _ _ HI) as [Hd Hlt]. pose proof (bounded_nodup _ _ Hd Hlt) as HL.
    rewrite app_length in HL. simpl in HL. lia.
  - destruct (Hstep _ _ _ _ HI) as (new & h' & E & HI'). cbn [bfs]. erewrite bind_ok by exact E.
    apply IH with (P := P ++ [x]); [done|]. rewrite app_length. simpl. lia.
Qed.
Definition once (body : nat -> E (list nat)) (x : nat) : E unit := let! new := body x in mret tt.
Lemma bfs_run (I : list nat -> list nat -> heap -> Prop) (X : list nat -> nat -> Prop) body n :
  (forall P x Q h, I P (x :: Q) h -> X P x /\
    match body x h with (Ok new, h') => I (P ++ [x]) (Q ++ new) h' | (Diverge, _) => False | _ => True end) ->
  (forall P Q h, I P Q h -> NoDup (P ++ Q) /\ forall y, y ∈ P ++ Q -> (y < n)%nat) ->
  forall fuel P Q h, I P Q h -> (n <= length P + fuel)%nat ->
  exists order, bfs fuel body Q h = mapM_ (once body) order h /\
    (forall k x, order !! k = Some x -> X (P ++ take k order) x) /\
    match bfs fuel body Q h with (Ok _, h') => I (P ++ order) [] h' | (Diverge, _) => False | _ => True end.
Proof.
  intros Hstep Hbd. induction fuel as [|fuel IH]; intros P Q h HI Hn; destruct Q as [|x Q];
    try by (exists []; split; [done|]; split; [done|]; simpl; by rewrite app_nil_r).
  - exfalso. destruct (Hbd _ _ _ HI) as [Hd Hlt]. pose proof (bounded_nodup _ _ Hd Hlt) as HL.
    rewrite app_length in HL. simpl in HL. lia.
  - destruct (Hstep _ _ _ _ HI) as [HX Hb]. cbn [bfs].
    assert (forall o, o = (let! new := body x in bfs fuel body (Q ++ new)) h ->
      (forall new h', body x h = (Ok new, h') -> o = bfs fuel body (Q ++ new) h') /\
      (forall e h', body x h = (Throw e, h') -> o = (Throw e, h')) /\
      (forall e h', body x h = (UB e, h') -> o = (UB e, h'))) as Hrun.
    { intros o ->. unfold bind. by destruct (body x h) as [[?|?|?|] ?]; split_and!; intros ? ? [= -> ->]. }
    destruct (Hrun _ eq_refl) as (R1 & R2 & R3). destruct (body x h) as [[new|e|u|] h'] eqn:E; [| | |done].
    + rewrite (R1 _ _ eq_refl). destruct (IH (P ++ [x]) (Q ++ new) h' Hb) as (order & E1 & H1 & H2).
      { rewrite app_length. simpl. lia. }
      exists (x :: order). split; [|split].
      * cbn [mapM_]. unfold once at 1. rewrite E1. unfold bind. by rewrite E.
      * intros [|k] y Hy; simpl in Hy |- *; [injection Hy as <-; by rewrite app_nil_r|].
        specialize (H1 k y Hy). by rewrite <- app_assoc in H1.
      * by rewrite <- app_assoc in H2.
    + rewrite (R2 _ _ eq_refl). exists [x]. split; [|split; [|done]].
      * cbn [mapM_]. unfold once, bind. by rewrite E.
      * intros [|k] y Hy; simpl in Hy |- *; [injection Hy as <-; by rewrite app_nil_r|done].
    + rewrite (R3 _ _ eq_refl). exists [x]. split; [|split; [|done]].
      * cbn [mapM_]. unfold once, bind. by rewrite E.
      * intros [|k] y Hy; simpl in Hy |- *; [injection Hy as <-; by rewrite app_nil_r|done].
Qed.

(** ** the counting phases *)
Lemma on_fn_on_fn e e' x r : on_fn e x (on_fn e' x r) = on_fn (fun y f => e y (e' y f)) x r.
Proof. unfold on_fn, with_fn. simpl. destruct r; simpl. f_equal. by destruct t_fn. Qed.

Section phase.
Variables (h0 : heap) (t : nat) (v : Z).
Hypothesis Hinv : tinv h0.
Definition region (x : nat) : Prop := below h0 t x /\ is_node h0 x.
Lemma inputs_node x : is_node h0 x -> forall y, y ∈ inputs h0 x -> (y < x)%nat /\ is_Some (h_ten h0 !! y).
Proof.
  intros (f & Hf) y Hy. unfold inputs in Hy. rewrite Hf in Hy. destruct (tinv_inputs h0 x f Hinv Hf) as (r & _ & _ & _ & H).
  by apply H.
Qed.
Lemma region_closed (P : list nat) : (forall x, x ∈ P -> region x) -> (is_node h0 t -> t ∈ P) ->
  (forall x y, x ∈ P -> y ∈ inputs h0 x -> is_node h0 y -> y ∈ P) -> forall x, x ∈ P <-> region x.
Proof.
  intros H1 H2 H3 x. split; [by apply H1|]. intros [Hb Hn]. revert Hn. induction Hb as [|x y Hb IH Hy]; [done|].
  intros Hn. apply (H3 x); [|done|done]. apply IH. unfold inputs in Hy. unfold is_node. destruct (fn_of h0 x); [done|].
  by apply elem_of_nil in Hy.
Qed.
Lemma below_le x : below h0 t x -> (x <= t)%nat.
Proof.
  induction 1 as [|x y Hb IH Hy]; [done|]. assert (is_node h0 x) as Hn.
  { unfold inputs in Hy. unfold is_node. destruct (fn_of h0 x); [done|]. by apply elem_of_nil in Hy. }
  destruct (inputs_node x Hn y Hy). lia.
Qed.

Variable visit : list nat -> E (list nat).
Variable eV : list nat -> list nat -> Z -> nat -> gradfn -> gradfn.
Hypothesis Hvisit : forall ins h, (forall i, i ∈ ins -> is_Some (h_ten h !! i)) ->
  exists new h', visit ins h = (Ok new, h') /\ visited c_ver (eV ins new (h_ver h)) ins new h h'.
Variable e : list nat -> list nat -> nat -> gradfn -> gradfn.
Hypothesis Hein : forall P L x f, gf_in (e P L x f) = gf_in f.
Hypothesis Hever : forall P L x f, region x -> fn_of h0 x = Some f -> (gf_ver (e P L x f) <? v) = negb (bool_decide (x ∈ L)).
Hypothesis Hestep : forall P L x new y f, region x -> fn_of h0 y = Some f ->
  (forall y, y ∈ new -> y ∈ inputs h0 x) ->
  eV (inputs h0 x) new v y (e P L y f) = e (P ++ [x]) (L ++ new) y f.
(** the state is [h0] with the counters given by [e] *)
Definition state (P L : list nat) (h : heap) : Prop :=
  h_sto h = h_sto h0 /\ h_ver h = v /\ forall x, h_ten h !! x = on_fn (e P L) x <$> h_ten h0 !! x.
Definition phase_inv (P Q : list nat) (h : heap) : Prop :=
  state P (P ++ Q) h /\ NoDup (P ++ Q) /\ (forall x, x ∈ P ++ Q -> region x) /\ t ∈ P ++ Q /\
  (forall x y, x ∈ P -> y ∈ inputs h0 x -> is_node h0 y -> y ∈ P ++ Q).
Lemma state_fn P L h x : state P L h -> fn_of h x = e P L x <$> fn_of h0 x.
Proof. intros (_ & _ & H). unfold fn_of. rewrite H. by destruct (h_ten h0 !! x). Qed.
Lemma phase_step P x Q h : phase_inv P (x :: Q) h ->
  exists new h', (let! g := get_fn x in visit (gf_in g)) h = (Ok new, h') /\ phase_inv (P ++ [x]) (Q ++ new) h'.
Proof.
  intros (Hst & Hd & HR & Ht & Hcl). assert (x ∈ P ++ x :: Q) as Hx by (rewrite elem_of_app, elem_of_cons; auto).
  destruct (HR x Hx) as [Hb (f & Hf)]. pose proof (state_fn _ _ _ x Hst) as Hfx. rewrite Hf in Hfx. simpl in Hfx.
  assert (gf_in f = inputs h0 x) as Ein by (unfold inputs; by rewrite Hf).
  destruct (Hvisit (inputs h0 x) h) as (new & h' & E & Hv).
  { intros i Hi. destruct Hst as (_ & _ & ->). destruct (inputs_node x ltac:(by eexists) i Hi) as [_ [r ->]]. by eexists. }
  exists new, h'. split. { erewrite bind_ok by (by apply get_fn_ok). by rewrite Hein, Ein. }
  destruct Hv as (S1 & S2 & S3 & S4 & S5).
  assert (forall y, y ∈ new <-> y ∈ inputs h0 x /\ is_node h0 y /\ y ∉ P ++ x :: Q) as Hnew.
  { intros y. rewrite S5. split.
    - intros (Hy & g & Hg & Hc). rewrite (state_fn _ _ _ y Hst) in Hg. destruct (fn_of h0 y) as [g0|] eqn:Eg; [|done].
      injection Hg as <-. split; [done|]. split; [unfold is_node; rewrite Eg; by eexists|].
      unfold c_ver in Hc. destruct Hst as (_ & EV & _). rewrite EV, (Hever P (P ++ x :: Q) y g0) in Hc.
      + apply negb_true_iff, bool_decide_eq_false in Hc. done.
      + split; [by eapply below_in|unfold is_node; rewrite Eg; by eexists].
      + done.
    - intros (Hy & (g & Hg) & Hn). split; [done|]. exists (e P (P ++ x :: Q) y g). split.
      + by rewrite (state_fn _ _ _ y Hst), Hg.
      + unfold c_ver. destruct Hst as (_ & EV & _). rewrite EV, Hever; [|split; [by eapply below_in|by eexists]|done].
        apply negb_true_iff, bool_decide_eq_false. done. }
  assert ((P ++ [x]) ++ Q ++ new = (P ++ x :: Q) ++ new) as EL by (by rewrite <- !app_assoc).
  assert ((P ++ [x]) ++ Q = P ++ x :: Q) as EL' by (by rewrite <- !app_assoc).
  split; [|split; [|split; [|split]]].
  - destruct Hst as (T1 & T2 & T3). split; [congruence|]. split; [congruence|]. intros y. rewrite S3, T3, EL, T2.
    destruct (h_ten h0 !! y) as [r|] eqn:Er; [|done]. simpl. f_equal. rewrite on_fn_on_fn. apply on_fn_ext. intros g Hg.
    apply Hestep; [split; [done|by eexists]|unfold fn_of; by rewrite Er|]. intros z Hz. by apply Hnew.
  - rewrite EL. apply NoDup_app. split; [done|]. split; [|done]. intros y Hy Hy'. apply Hnew in Hy'. tauto.
  - intros y. rewrite EL, elem_of_app. intros [Hy|Hy]; [by apply HR|]. apply Hnew in Hy as (Hy & Hn & _).
    split; [by eapply below_in|done].
  - rewrite EL. apply elem_of_app. by left.
  - intros a y Ha Hy Hn. rewrite EL. apply elem_of_app in Ha as [Ha| ->%elem_of_list_singleton].
    + apply elem_of_app. left. by eapply Hcl.
    + rewrite elem_of_app, Hnew. destruct (decide (y ∈ P ++ x :: Q)); [by left|right]. done.
Qed.
Lemma phase_ok n h : is_node h0 t -> (t < n)%nat -> state [] [t] h ->
  exists P h', bfs n (fun x => let! g := get_fn x in visit (gf_in g)) [t] h = (Ok tt, h') /\
    NoDup P /\ (forall x, x ∈ P <-> region x) /\ state P P h'.
Proof.
  intros Hnt Hlt Hst.
  destruct (bfs_ind phase_inv (fun x => let! g := get_fn x in visit (gf_in g)) n) with (fuel := n) (P := @nil nat) (Q := [t]) (h := h)
    as (P & h' & E & HI).
  - intros. by apply phase_step.
  - intros P Q h1 (_ & Hd & HR & _). split; [done|]. intros y Hy. destruct (HR y Hy) as [Hb _]. apply below_le in Hb. lia.
  - split; [done|]. split; [apply NoDup_singleton|]. split; [|split; [by apply elem_of_list_singleton|]].
    + intros x ->%elem_of_list_singleton. split; [constructor|done].
    + by intros x y ?%elem_of_nil.
  - simpl. lia.
  - exists P, h'. split; [done|]. destruct HI as (Hs & Hd & HR & Ht & Hcl). rewrite app_nil_r in *. split; [done|]. split; [|done].
    by apply region_closed.
Qed.
End phase.
End with_fops.
