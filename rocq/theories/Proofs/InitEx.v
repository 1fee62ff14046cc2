(** Witnesses about initializer lists. *)
From Verif.Proofs Require Export Init ReshapeEx.
From Verif.Model Require Export Ieee.

Lemma init_empty {fo : FOps} (h : heap) :
  exec (OInit (TNode [])) h = (Ok (RHandle None), h) /\
  exec (QToString None) h = (Ok (RString "[]"), h).
Proof. done. Qed.
Lemma init_refuted :
  exists t, typed t /\ (forall ss dt, ~ rectangular t ss dt) /\
    (exec (OInit t) (@empty_heap Ieee)).1 = UB Uninit.
Proof.
  exists (TNode [TNode []; TNode []]). split; [|split; [|vm]].
  - repeat constructor.
  - intros ss dt H. inversion H as [|? ? ? ? Hf]; subst. inversion Hf as [|? ? H1 ?]; subst.
    by inversion H1.
Qed.

Lemma rect_node_inv {fo : FOps} ts ss dt : rectangular (TNode ts) ss dt ->
  exists ss', Forall (fun t => rectangular t ss' dt) ts.
Proof. inversion 1; subst; eauto. Qed.
(** two leaves of one list with different lengths or types *)
Lemma ragged_ok {fo : FOps} a b dt1 dt2 xs ys ts :
  (dt1 <> dt2 \/ length xs <> length ys) -> a = TLeaf dt1 xs -> b = TLeaf dt2 ys ->
  forall ss dt, ~ rectangular (TNode (a :: b :: ts)) ss dt.
Proof.
  intros Hd -> -> ss dt (ss' & H)%rect_node_inv. apply Forall_cons in H as [H1 [H2 _]%Forall_cons].
  inversion H1; subst; inversion H2; subst. destruct Hd; lia || congruence.
Qed.
(** {{{1,2},{3,4},{5,6}}} of int16 *)
Definition pairs : list (@tinit Ieee) :=
  [TLeaf I16 [VI 1; VI 2]; TLeaf I16 [VI 3; VI 4]; TLeaf I16 [VI 5; VI 6]].
Definition six : @tinit Ieee := TNode [TNode pairs].
Lemma six_rect : rectangular six [1; 3; 2] I16.
Proof.
  refine (RectNode [TNode pairs] [3; 2] I16 _ _); [done|]. constructor; [|constructor].
  refine (RectNode pairs [2] I16 _ _); [done|]. repeat constructor.
Qed.
Lemma six_typed : typed six.
Proof.
  apply TypedNode. constructor; [|constructor]. apply TypedNode.
  repeat (apply Forall_cons_2; [apply TypedLeaf; repeat (apply Forall_cons_2; [split; vm|]); apply Forall_nil_2|]).
  apply Forall_nil_2.
Qed.
Lemma six_leaf : leaf_at six [0; 2; 1] (VI 6).
Proof.
  refine (AtNode [TNode pairs] 0 (TNode pairs) [2; 1] (VI 6) _ eq_refl _); [done|].
  refine (AtNode pairs 2 (TLeaf I16 [VI 5; VI 6]) [1] (VI 6) _ eq_refl _); [done|].
  refine (AtLeaf I16 [VI 5; VI 6] 1 (VI 6) _ eq_refl). done.
Qed.
Lemma outcome_example :
  let l xs : @tinit Ieee := TLeaf I16 (map VI xs) in let e : @tinit Ieee := TNode [] in
  mismatched (TNode [l [1; 2]; e]) /\ unassigned (TNode [e; l [1; 2]]) /\
  unassigned (TNode [TNode [l [1]]; TNode [e]; l [1; 2; 3]]) /\ mismatched (TNode [TNode [l [1]; e]; TNode [e]]) /\
  rectangular (TNode [TNode [l [1]]; TNode [l [2]]]) [2; 1; 1] I16.
Proof.
  intros l e. assert (forall xs, rectangular (l xs) [Z.of_nat (length xs)] I16) as Hl.
  { intros xs. unfold l. rewrite <- (map_length (@VI Ieee) xs). apply (RectLeaf I16 (map (@VI Ieee) xs)). }
  assert (forall x, rectangular (TNode [l [x]]) [1; 1] I16) as Hn.
  { intros x. refine (RectNode [l [x]] [1] I16 _ _); [done|]. constructor; [apply Hl|constructor]. }
  assert (forall xs, built (l xs)) as Hb by (intros xs; right; by eexists _, _).
  assert (forall xs, mismatched (TNode [l xs; e])) as Hm.
  { intros xs. eapply MisHere; [apply Hl|constructor; [by left|constructor]|]. left. by inversion 1. }
  split; [apply Hm|]. split; [constructor; constructor; [apply Hb|constructor]|]. split; [|split].
  - refine (UnBelow [TNode [l [1]]] (TNode [e]) [l [1; 2; 3]] _ _); [constructor; [right; by eexists _, _|constructor]|]. constructor. constructor.
  - refine (MisBelow [] (TNode [l [1]; e]) [TNode [e]] _ _); [constructor|apply Hm].
  - refine (RectNode [TNode [l [1]]; TNode [l [2]]] [1; 1] I16 _ _); [done|]. constructor; [apply Hn|]. constructor; [apply Hn|constructor].
Qed.
