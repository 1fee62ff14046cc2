(** Reasoning about calls for every outcome: [wp m Q X h] says that running [m] from [h]
    either returns [a] in a state satisfying [Q a], or stops otherwise in a state
    satisfying [X]. *)
From Verif.Proofs Require Export Basics.
From Verif.Model Require Export Api.

Inductive abort := AThrow (e : exn) | AUB (u : ub) | ADiverge.

Section monad.
Context {S : Type}.
Definition wp {A} (m : M S A) (Q : A -> S -> Prop) (X : abort -> S -> Prop) (s : S) : Prop :=
  match m s with
  | (Ok a, s') => Q a s'
  | (Throw e, s') => X (AThrow e) s'
  | (UB u, s') => X (AUB u) s'
  | (Diverge, s') => X ADiverge s'
  end.

Lemma wp_ret {A} (a : A) (Q : A -> S -> Prop) (X : abort -> S -> Prop) s : Q a s -> wp (mret a) Q X s.
Proof. done. Qed.
Lemma wp_throw {A} e (Q : A -> S -> Prop) (X : abort -> S -> Prop) s : X (AThrow e) s -> wp (mthrow e) Q X s.
Proof. done. Qed.
Lemma wp_ub {A} u (Q : A -> S -> Prop) (X : abort -> S -> Prop) s : X (AUB u) s -> wp (mub u) Q X s.
Proof. done. Qed.
Lemma wp_bind {A B} (m : M S A) (k : A -> M S B) (Q : B -> S -> Prop) (X : abort -> S -> Prop) s :
  wp m (fun a s' => wp (k a) Q X s') X s -> wp (bind m k) Q X s.
Proof. unfold wp, bind. by destruct (m s) as [[?|?|?|] ?]. Qed.
Lemma wp_lift {A} (o : outcome A) (Q : A -> S -> Prop) (X : abort -> S -> Prop) s :
  match o with Ok a => Q a s | Throw e => X (AThrow e) s | UB u => X (AUB u) s
          | Diverge => X ADiverge s end -> wp (lift o) Q X s.
Proof. unfold wp, lift. by destruct o. Qed.
Lemma wp_expect b (Q : unit -> S -> Prop) (X : abort -> S -> Prop) s :
  (b = true -> Q tt s) -> (b = false -> X (AThrow RuntimeError) s) -> wp (run_expect b) Q X s.
Proof. unfold wp, run_expect. destruct b; simpl; auto. Qed.
Lemma wp_mono {A} (m : M S A) (Q Q' : A -> S -> Prop) (X X' : abort -> S -> Prop) s :
  wp m Q X s -> (forall a s', Q a s' -> Q' a s') -> (forall a s', X a s' -> X' a s') -> wp m Q' X' s.
Proof. unfold wp. destruct (m s) as [[?|?|?|] ?]; auto. Qed.
Lemma wp_conj {A} (m : M S A) (Q Q' : A -> S -> Prop) (X X' : abort -> S -> Prop) s :
  wp m Q X s -> wp m Q' X' s -> wp m (fun a s => Q a s /\ Q' a s) (fun a s => X a s /\ X' a s) s.
Proof. unfold wp. destruct (m s) as [[?|?|?|] ?]; auto. Qed.

Lemma wp_mapM {A} (f : A -> M S unit) l (I : S -> Prop) (X : abort -> S -> Prop) s :
  I s -> (forall x s, x ∈ l -> I s -> wp (f x) (fun _ => I) X s) ->
  wp (mapM_ f l) (fun _ => I) X s.
Proof.
  revert s. induction l as [|x l IH]; intros s HI Hf; [done|].
  cbn [mapM_]. apply wp_bind. eapply wp_mono; [apply Hf; [left|done]| |done].
  intros ? s' HI'. apply IH; [done|]. intros. apply Hf; [by right|done].
Qed.

Lemma wp_for_each range (op : list Z -> M S unit) (I : S -> Prop) (X : abort -> S -> Prop) s :
  (Forall (fun n => 0 <= n) range) ->
  I s -> (forall sv s, in_range range sv -> I s -> wp (op sv) (fun _ => I) X s) ->
  wp (for_each_sizevec range op) (fun _ => I) X s.
Proof.
  intros Hr HI Hop. unfold wp. rewrite for_each_run by done.
  apply wp_mapM; [done|]. intros sv s' Hsv. apply Hop. by apply elem_of_indices.
Qed.
Lemma iter_until_inv {T R} (J : T -> Prop) (Z : R -> Prop) (f : T -> T + R) p (x : T) :
  (forall x, J x -> match f x with inl y => J y | inr r => Z r end) ->
  J x -> match iter_until p f x with inl y => J y | inr r => Z r end.
Proof.
  intros Hf. revert x. induction p as [p IH|p IH|]; intros x Hx; simpl.
  - specialize (Hf x Hx). destruct (f x) as [y|r]; [|done].
    specialize (IH y Hf) as H1. destruct (iter_until p f y) as [z|r]; [|done]. by apply IH.
  - specialize (IH x Hx) as H1. destruct (iter_until p f x) as [z|r]; [|done]. by apply IH.
  - by apply Hf.
Qed.
(** without knowing the shape is sensible *)
Lemma wp_odometer {R} range (body : list Z -> M S (option R)) (I : S -> Prop) (X : abort -> S -> Prop) s :
  I s -> (forall s, I s -> X ADiverge s) ->
  (forall sv s, I s -> wp (body sv) (fun _ => I) X s) ->
  wp (odometer range body) (fun _ => I) X s.
Proof.
  intros HI HD Hb. unfold wp, odometer.
  pose proof (iter_until_inv (fun x : list Z * S => I x.2)
    (fun r => match r with (Ok _, s') => I s' | (Throw e, s') => X (AThrow e) s'
              | (UB u, s') => X (AUB u) s' | (Diverge, s') => X ADiverge s' end)
    (odo_step range body) (Z.to_pos (extent range + 1)) (repeat 0 (length range), s)) as H.
  assert (forall x : list Z * S, I x.2 -> match odo_step range body x with
    | inl y => I y.2
    | inr r => match r with (Ok _, s') => I s' | (Throw e, s') => X (AThrow e) s'
              | (UB u, s') => X (AUB u) s' | (Diverge, s') => X ADiverge s' end end) as Hstep.
  { intros [sv s0] H0. unfold odo_step. simpl in H0.
    destruct (carry _ _ _) as [sv'|]; [|done]. specialize (Hb sv' s0 H0). unfold wp in Hb.
    destruct (body sv' s0) as [[[?|]|?|?|] ?]; done. }
  specialize (H Hstep HI). destruct (iter_until _ _ _) as [[sv s']|r]; [by apply HD|done].
Qed.
Lemma wp_for_each_any range (op : list Z -> M S unit) (I : S -> Prop) (X : abort -> S -> Prop) s :
  I s -> (forall s, I s -> X ADiverge s) ->
  (forall sv s, I s -> wp (op sv) (fun _ => I) X s) ->
  wp (for_each_sizevec range op) (fun _ => I) X s.
Proof.
  intros HI HD Hb. unfold for_each_sizevec. destruct (existsb _ _); [done|].
  destruct range as [|n range]; [by apply Hb|].
  apply wp_bind. eapply wp_mono; [apply (wp_odometer _ _ I); [done|done|]| |done].
  - intros sv s0 H0. unfold plain. apply wp_bind. eapply wp_mono; [by apply Hb| |done]. done.
  - done.
Qed.
End monad.

Section with_fops.
Context {fo : FOps}.
Lemma wp_get_ten t (Q : tensor -> heap -> Prop) (X : abort -> heap -> Prop) h :
  (forall r, h_ten h !! t = Some r -> Q r h) -> (h_ten h !! t = None -> X (AUB NullDeref) h) -> wp (get_ten t) Q X h.
Proof. unfold wp, get_ten. destruct (h_ten h !! t); auto. Qed.
Lemma wp_get_sto t (Q : storage -> heap -> Prop) (X : abort -> heap -> Prop) h :
  (forall r, h_sto h !! t = Some r -> Q r h) -> (h_sto h !! t = None -> X (AUB NullDeref) h) -> wp (get_sto t) Q X h.
Proof. unfold wp, get_sto. destruct (h_sto h !! t); auto. Qed.
Lemma wp_set_ten t r (Q : unit -> heap -> Prop) (X : abort -> heap -> Prop) h :
  Q tt (Hp (h_sto h) (<[t := r]> (h_ten h)) (h_ver h)) -> wp (set_ten t r) Q X h.
Proof. done. Qed.
Lemma wp_set_sto t r (Q : unit -> heap -> Prop) (X : abort -> heap -> Prop) h :
  Q tt (Hp (<[t := r]> (h_sto h)) (h_ten h) (h_ver h)) -> wp (set_sto t r) Q X h.
Proof. done. Qed.
Lemma wp_new_ten r (Q : nat -> heap -> Prop) (X : abort -> heap -> Prop) h :
  Q (length (h_ten h)) (Hp (h_sto h) (h_ten h ++ [r]) (h_ver h)) -> wp (new_ten r) Q X h.
Proof. done. Qed.
Lemma wp_new_sto r (Q : nat -> heap -> Prop) (X : abort -> heap -> Prop) h :
  Q (length (h_sto h)) (Hp (h_sto h ++ [r]) (h_ten h) (h_ver h)) -> wp (new_sto r) Q X h.
Proof. done. Qed.
Lemma wp_deref {A} (o : option A) (Q : A -> heap -> Prop) (X : abort -> heap -> Prop) h :
  (forall a, o = Some a -> Q a h) -> (o = None -> X (AUB NullDeref) h) -> wp (deref o) Q X h.
Proof. unfold wp, deref. destruct o; simpl; auto. Qed.
End with_fops.
