(** Two instances of the floating-point operations: what is related stays related. The monad
    and the primitives. A call of the first instance that truncates a float outside the range
    of its integer type is related to anything. *)
From Verif.Model Require Export Api.

Definition orel {A B} (Q : A -> B -> Prop) (o : outcome A) (o' : outcome B) : Prop :=
  match o, o' with
  | Ok a, Ok b => Q a b
  | Throw e, Throw e' => e = e'
  | UB u, UB u' => u = u'
  | Diverge, Diverge => True
  | _, _ => False
  end.
Definition ore {A B} (Q : A -> B -> Prop) (o : outcome A) (o' : outcome B) : Prop := o = UB FloatRange \/ orel Q o o'.
Definition pr {S S' A B} (I : S -> S' -> Prop) (Q : A -> B -> Prop) (m : M S A) (m' : M S' B) : Prop :=
  forall s s', I s s' -> (m s).1 = UB FloatRange \/ orel Q (m s).1 (m' s').1 /\ I (m s).2 (m' s').2.

Section monad.
Context {S S' : Type} (I : S -> S' -> Prop).
Lemma orel_refl {A} (o : outcome A) : orel eq o o.
Proof. by destruct o. Qed.
Lemma ore_refl {A} (o : outcome A) : ore eq o o.
Proof. right. apply orel_refl. Qed.
Lemma ore_ok {A B} (Q : A -> B -> Prop) a b : Q a b -> ore Q (Ok a) (Ok b).
Proof. by right. Qed.
Lemma ore_bind {A B C D} (Q : A -> B -> Prop) (Q' : C -> D -> Prop) o o' k k' :
  ore Q o o' -> (forall a b, Q a b -> ore Q' (k a) (k' b)) -> ore Q' (obind o k) (obind o' k').
Proof. intros [->|H] Hk; [by left|]. destruct o, o'; try done; cbn in *; try (right; done). by apply Hk. Qed.
Lemma ore_mono {A B} (Q Q' : A -> B -> Prop) o o' : ore Q o o' -> (forall a b, Q a b -> Q' a b) -> ore Q' o o'.
Proof. intros [->|H] K; [by left|]. right. destruct o, o'; try done. by apply K. Qed.

Lemma pr_ret {A B} (Q : A -> B -> Prop) a b : Q a b -> pr I Q (mret a) (mret b).
Proof. intros H s s' HI. by right. Qed.
Lemma pr_ub {A B} (Q : A -> B -> Prop) u : pr I Q (mub u) (mub u).
Proof. intros s s' HI. by right. Qed.
Lemma pr_throw {A B} (Q : A -> B -> Prop) e : pr I Q (mthrow e) (mthrow e).
Proof. intros s s' HI. by right. Qed.
Lemma pr_lift {A B} (Q : A -> B -> Prop) o o' : ore Q o o' -> pr I Q (lift o) (lift o').
Proof. intros [->|H] s s' HI; [by left|by right]. Qed.
Lemma pr_same {A} (o : outcome A) : pr I eq (lift o) (lift o).
Proof. apply pr_lift, ore_refl. Qed.
Lemma pr_bind {A B C D} (Q : A -> B -> Prop) (Q' : C -> D -> Prop) m m' k k' :
  pr I Q m m' -> (forall a b, Q a b -> pr I Q' (k a) (k' b)) -> pr I Q' (bind m k) (bind m' k').
Proof.
  intros Hm Hk s s' HI. unfold bind. destruct (Hm s s' HI) as [E|[E H]]; destruct (m s) as [o t], (m' s') as [o' t']; cbn in *.
  - subst. by left.
  - destruct o, o'; try done; try (right; by split). by apply Hk.
Qed.
Lemma pr_bind_eq {A C D} (Q' : C -> D -> Prop) (m : M S A) m' k k' :
  pr I eq m m' -> (forall a, pr I Q' (k a) (k' a)) -> pr I Q' (bind m k) (bind m' k').
Proof. intros Hm Hk. eapply pr_bind; [done|]. by intros a ? <-. Qed.
Lemma pr_mono {A B} (Q Q' : A -> B -> Prop) m m' : pr I Q m m' -> (forall a b, Q a b -> Q' a b) -> pr I Q' m m'.
Proof. intros Hm K s s' HI. destruct (Hm s s' HI) as [E|[E H]]; [by left|right]. split; [|done]. destruct (m s).1, (m' s').1; try done. by apply K. Qed.
Lemma pr_expect b : pr I eq (run_expect b) (run_expect b).
Proof. destruct b; [by apply pr_ret|apply pr_throw]. Qed.
Lemma pr_mapM {A} (f : A -> M S unit) f' l : (forall x, pr I eq (f x) (f' x)) -> pr I eq (mapM_ f l) (mapM_ f' l).
Proof. intros H. induction l as [|x l IH]; cbn [mapM_]; [by apply pr_ret|]. apply pr_bind_eq; [apply H|done]. Qed.
Lemma pr_diverge {A} : pr I (@eq A) (fun s => (Diverge, s)) (fun s => (Diverge, s)).
Proof. intros s s' HI. by right. Qed.

Definition srel_ {R} (y : (list Z * S) + (outcome (option R) * S)) (y' : (list Z * S') + (outcome (option R) * S')) : Prop :=
  match y, y' with
  | inl (sv, s), inl (sv', s') => sv = sv' /\ I s s'
  | inr (o, s), inr (o', s') => o = UB FloatRange \/ orel eq o o' /\ I s s'
  | inr (o, _), inl _ => o = UB FloatRange
  | _, _ => False
  end.
Lemma iter_rel {R} p (f : list Z * S -> (list Z * S) + (outcome (option R) * S)) f' :
  (forall sv s s', I s s' -> srel_ (f (sv, s)) (f' (sv, s'))) -> forall sv s s', I s s' -> srel_ (iter_until p f (sv, s)) (iter_until p f' (sv, s')).
Proof.
  intros Hf. induction p as [p IH|p IH|]; intros sv s s' HI; cbn [iter_until]; [| |by apply Hf].
  - pose proof (Hf sv s s' HI) as H1. destruct (f (sv, s)) as [[sv1 s1]|[o1 s1]], (f' (sv, s')) as [[sv1' s1']|[o1' s1']]; try done.
    + destruct H1 as [<- H1]. pose proof (IH sv1 s1 s1' H1) as H2.
      destruct (iter_until p f (sv1, s1)) as [[sv2 s2]|[o2 s2]], (iter_until p f' (sv1, s1')) as [[sv2' s2']|[o2' s2']]; try done.
      * destruct H2 as [<- H2]. by apply IH.
      * cbn in H2. subst. by destruct (iter_until p f' (sv2', s2')) as [[]|[]]; [|left].
    + cbn in H1. subst. destruct (iter_until p f' (sv1', s1')) as [[sv2' s2']|[]]; [|by left].
      by destruct (iter_until p f' (sv2', s2')) as [[]|[]]; [|left].
  - pose proof (IH sv s s' HI) as H2. destruct (iter_until p f (sv, s)) as [[sv2 s2]|[o2 s2]], (iter_until p f' (sv, s')) as [[sv2' s2']|[o2' s2']]; try done.
    + destruct H2 as [<- H2]. by apply IH.
    + cbn in H2. subst. by destruct (iter_until p f' (sv2', s2')) as [[]|[]]; [|left].
Qed.
Lemma pr_odometer {R} rg (body : list Z -> M S (option R)) body' : (forall sv, pr I eq (body sv) (body' sv)) -> pr I eq (odometer rg body) (odometer rg body').
Proof.
  intros Hb s s' HI. unfold odometer.
  pose proof (iter_rel (Z.to_pos (extent rg + 1)) (odo_step rg body) (odo_step rg body')) as K. specialize (K ltac:(
    intros sv t t' Ht; unfold odo_step; destruct (carry rg (Nat.pred (length rg)) sv) as [sv'|]; [|by right];
    destruct (Hb sv' t t' Ht) as [E|[E H]]; destruct (body sv' t) as [o u], (body' sv' t') as [o' u']; cbn in E;
    [subst; destruct o' as [[]| | |]; cbn; auto|destruct o as [[]| | |], o' as [[]| | |]; try done; cbn; auto]) (repeat 0 (length rg)) s s' HI).
  destruct (iter_until _ (odo_step rg body) _) as [[sv1 s1]|[o1 s1]], (iter_until _ (odo_step rg body') _) as [[sv1' s1']|[o1' s1']]; cbn in K |- *; try done.
  - right. by destruct K.
  - subst. by left.
Qed.
Lemma pr_plain {A} (body : A -> M S unit) body' x : pr I eq (body x) (body' x) -> pr I eq (plain body x) (plain body' x).
Proof. intros H. unfold plain. apply pr_bind_eq; [done|]. intros ?. by apply pr_ret. Qed.
Lemma pr_for_each rg (body : list Z -> M S unit) body' : (forall sv, pr I eq (body sv) (body' sv)) -> pr I eq (for_each_sizevec rg body) (for_each_sizevec rg body').
Proof.
  intros Hb. unfold for_each_sizevec. destruct (existsb _ _); [by apply pr_ret|]. destruct rg; [apply Hb|].
  apply pr_bind_eq; [apply pr_odometer; intros sv; by apply pr_plain|]. intros ?. by apply pr_ret.
Qed.
End monad.
