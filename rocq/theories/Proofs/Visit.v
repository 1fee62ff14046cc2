(** The three inner loops of the graph traversals, exactly: which nodes they push and how
    they change the counters. *)
From Verif.Spec Require Export Graph.
From Verif.Proofs Require Export Graph.
From Verif.Model Require Export Api.

Section with_fops.
Context {fo : FOps}.

(** the common shape of the three loops *)
Fixpoint gv (c : Z -> gradfn -> bool) (a b : Z -> gradfn -> gradfn) (ins : list nat) : E (list nat) :=
  match ins with
  | [] => mret []
  | i :: rest =>
      let! r := get_ten i in
      let! v := global_version in
      match t_fn r with
      | Some g =>
          if c v g then
            set_ten i (with_fn r (Some (a v g))) ;;;
            let! q := gv c a b rest in mret (i :: q)
          else
            set_ten i (with_fn r (Some (b v g))) ;;;
            gv c a b rest
      | None => gv c a b rest
      end
  end.
(** the effect of [n] visits on a node *)
Definition eff (c : Z -> gradfn -> bool) (a b : Z -> gradfn -> gradfn) (v : Z) (n : nat) (f : gradfn) : gradfn :=
  match n with
  | O => f
  | S m => if c v f then Nat.iter m (b v) (a v f) else Nat.iter n (b v) f
  end.
Definition on_fn (e : nat -> gradfn -> gradfn) (x : nat) (r : tensor) : tensor := with_fn r (e x <$> t_fn r).

Lemma with_fn_id r : with_fn r (t_fn r) = r. Proof. by destruct r. Qed.
Lemma on_fn_none e x r : t_fn r = None -> on_fn e x r = r.
Proof. intros H. unfold on_fn. rewrite H. simpl. rewrite <- H. apply with_fn_id. Qed.

Section spec.
Variables (c : Z -> gradfn -> bool) (a b : Z -> gradfn -> gradfn).
Hypothesis Ha : forall v g, c v (a v g) = false.
Hypothesis Hb : forall v g, c v g = false -> c v (b v g) = false.
Lemma eff_off v n f : c v f = false -> eff c a b v n f = Nat.iter n (b v) f.
Proof. intros H. destruct n; simpl; [done|]. by rewrite H. Qed.
Lemma gv_spec ins h : (forall i, i ∈ ins -> is_Some (h_ten h !! i)) ->
  exists new h', gv c a b ins h = (Ok new, h') /\ h_sto h' = h_sto h /\ h_ver h' = h_ver h /\
    (forall x, h_ten h' !! x = on_fn (fun x => eff c a b (h_ver h) (count_occ Nat.eq_dec ins x)) x <$> h_ten h !! x) /\
    NoDup new /\ (forall x, x ∈ new <-> x ∈ ins /\ exists f, fn_of h x = Some f /\ c (h_ver h) f = true).
Proof.
  revert h. induction ins as [|i ins IH]; intros h Hex.
  { exists [], h. split; [done|]. split; [done|]. split; [done|]. split; [|split; [constructor|]].
    - intros x. destruct (h_ten h !! x) as [r|]; [|done]. simpl. unfold on_fn. simpl.
      f_equal. destruct (t_fn r) eqn:E; simpl; by rewrite <- E, with_fn_id.
    - intros x. rewrite !elem_of_nil. tauto. }
  destruct (Hex i) as (r & Hr); [apply elem_of_list_here|].
  cbn [gv]. erewrite bind_ok by (by apply get_ten_ok). erewrite (bind_ok global_version) by done.
  assert (forall x, x <> i -> count_occ Nat.eq_dec (i :: ins) x = count_occ Nat.eq_dec ins x) as Hne.
  { intros x Hx. simpl. by destruct (Nat.eq_dec i x). }
  assert (count_occ Nat.eq_dec (i :: ins) i = S (count_occ Nat.eq_dec ins i)) as Heq.
  { simpl. by destruct (Nat.eq_dec i i). }
  destruct (t_fn r) as [g|] eqn:Eg.
  - set (v := h_ver h) in *.
    set (g1 := if c v g then a v g else b v g).
    set (h1 := Hp (h_sto h) (<[i := with_fn r (Some g1)]> (h_ten h)) (h_ver h)).
    destruct (IH h1) as (new & h' & E & S1 & S2 & S3 & S4 & S5).
    { intros j Hj. simpl. apply lookup_lt_is_Some. rewrite insert_length. apply lookup_lt_is_Some, Hex. by apply elem_of_list_further. }
    assert (h_ten h1 !! i = Some (with_fn r (Some g1))) as Hi1.
    { simpl. apply list_lookup_insert. by eapply lookup_lt_Some. }
    assert (forall x, x <> i -> h_ten h1 !! x = h_ten h !! x) as Ho.
    { intros x Hx. simpl. by apply list_lookup_insert_ne. }
    assert (c v g1 = false) as Hg1. { unfold g1. destruct (c v g) eqn:Ec; [apply Ha|by apply Hb]. }
    assert (forall x, h_ten h' !! x = on_fn (fun x => eff c a b (h_ver h) (count_occ Nat.eq_dec (i :: ins) x)) x <$> h_ten h !! x) as HT.
    { intros x. rewrite S3. destruct (decide (x = i)) as [->|Hx].
      - rewrite Hi1, Hr. cbn [fmap option_fmap option_map]. unfold on_fn. rewrite Heq, Eg.
        cbn [fmap option_fmap option_map t_fn with_fn]. f_equal.
        change (h_ver h1) with v. unfold with_fn. cbn. f_equal. f_equal. fold v. rewrite eff_off by done. unfold eff.
        unfold g1. destruct (c v g) eqn:Ec; [done|]. exact (eq_sym (Nat.iter_succ_r _ _ _)).
      - rewrite Ho by done. destruct (h_ten h !! x); [|done]. cbn [fmap option_fmap option_map]. unfold on_fn. by rewrite (Hne x Hx). }
    assert (forall x, fn_of h1 x = if decide (x = i) then Some g1 else fn_of h x) as Hfn.
    { intros x. unfold fn_of. destruct (decide (x = i)) as [->|Hx]; [by rewrite Hi1|by rewrite Ho]. }
    assert (i ∉ new) as Hni.
    { rewrite S5. intros (_ & f & Hf & Hc). rewrite Hfn, decide_True in Hf by done. injection Hf as <-.
      change (h_ver h1) with v in Hc. congruence. }
    exists (if c v g then i :: new else new), h'.
    split; [|split; [done|split; [done|split; [done|]]]].
    + destruct (c v g) eqn:Ec; unfold g1 in *; erewrite bind_ok by (by apply set_ten_eq);
        change (Hp (h_sto h) (<[i:=_]> (h_ten h)) (h_ver h)) with h1.
      * erewrite bind_ok by exact E. done.
      * exact E.
    + assert (forall x, x ∈ new <-> x <> i /\ x ∈ ins /\ exists f, fn_of h x = Some f /\ c v f = true) as Hnew.
      { intros x. rewrite S5. rewrite Hfn. destruct (decide (x = i)) as [->|Hx].
        - split; [|tauto]. intros (_ & f & [= <-] & Hc). change (h_ver h1) with v in Hc. congruence.
        - tauto. }
      assert (fn_of h i = Some g) as Hfi by (unfold fn_of; by rewrite Hr).
      destruct (c v g) eqn:Ec.
      * split; [by constructor|]. intros x. rewrite !elem_of_cons, Hnew.
        destruct (decide (x = i)) as [->|Hx]; [|tauto]. split; [|tauto]. intros _. split; [by left|]. by exists g.
      * split; [done|]. intros x. rewrite Hnew, elem_of_cons. destruct (decide (x = i)) as [->|Hx]; [|tauto].
        split; [tauto|]. intros (_ & f & Hf & Hc). congruence.
  - destruct (IH h) as (new & h' & E & S1 & S2 & S3 & S4 & S5).
    { intros j Hj. apply Hex. by apply elem_of_list_further. }
    exists new, h'. split; [done|]. split; [done|]. split; [done|]. split; [|split; [done|]].
    + intros x. rewrite S3. destruct (decide (x = i)) as [->|Hx].
      * rewrite Hr. cbn [fmap option_fmap option_map]. by rewrite !on_fn_none.
      * destruct (h_ten h !! x); [|done]. cbn [fmap option_fmap option_map]. unfold on_fn. by rewrite (Hne x Hx).
    + intros x. rewrite S5, elem_of_cons. destruct (decide (x = i)) as [->|Hx]; [|tauto].
      unfold fn_of. rewrite Hr, Eg. split; [|]; intros (_ & f & [=] & _).
Qed.
End spec.

Lemma get_set_same i r h : h_ten h !! i = Some r -> set_ten i (with_fn r (t_fn r)) h = (Ok tt, h).
Proof.
  intros Hr. erewrite set_ten_eq by done. rewrite with_fn_id, list_insert_id by done. by destruct h.
Qed.
Definition c_ver (v : Z) (g : gradfn) : bool := gf_ver g <? v.
Definition c_ready (v : Z) (g : gradfn) : bool := (gf_ver g <? v) && (gf_acc g =? gf_nout g).
Definition id_fn (v : Z) (g : gradfn) : gradfn := g.
Lemma visit_reset_gv ins h : visit_reset ins h = gv c_ver (fun v g => gf_with_nout (gf_with_ver g v) 0) id_fn ins h.
Proof.
  revert h. induction ins as [|i ins IH]; intros h; [done|]. cbn [visit_reset gv].
  destruct (get_ten i h) as [[r|?|?|] h0] eqn:E; unfold bind at 1; symmetry; unfold bind at 1; rewrite E; try done.
  apply get_ten_inv in E as [Hr ->]. unfold bind, global_version. destruct (t_fn r) as [g|] eqn:Eg; [|by rewrite IH].
  unfold c_ver at 1. destruct (_ <? _).
  - destruct (set_ten _ _ h) as [[?|?|?|] h1]; try done. by rewrite IH.
  - unfold id_fn at 1. rewrite <- Eg, get_set_same by done. by rewrite IH.
Qed.
Lemma visit_count_gv ins h : visit_count ins h =
  gv c_ver (fun v g => gf_with_ver (gf_with_nout g (gf_nout g + 1)) v) (fun _ g => gf_with_nout g (gf_nout g + 1)) ins h.
Proof.
  revert h. induction ins as [|i ins IH]; intros h; [done|]. cbn [visit_count gv].
  destruct (get_ten i h) as [[r|?|?|] h0] eqn:E; unfold bind at 1; symmetry; unfold bind at 1; rewrite E; try done.
  apply get_ten_inv in E as [Hr ->]. unfold bind, global_version. destruct (t_fn r) as [g|] eqn:Eg; [|by rewrite IH].
  unfold c_ver at 1. destruct (_ <? _);
    destruct (set_ten _ _ h) as [[?|?|?|] h1]; try done; by rewrite IH.
Qed.
Lemma visit_ready_gv ins h : visit_ready ins h = gv c_ready (fun v g => gf_with_ver g v) id_fn ins h.
Proof.
  revert h. induction ins as [|i ins IH]; intros h; [done|]. cbn [visit_ready gv].
  destruct (get_ten i h) as [[r|?|?|] h0] eqn:E; unfold bind at 1; symmetry; unfold bind at 1; rewrite E; try done.
  apply get_ten_inv in E as [Hr ->]. unfold bind, global_version. destruct (t_fn r) as [g|] eqn:Eg; [|by rewrite IH].
  unfold c_ready at 1. destruct (_ && _).
  - destruct (set_ten _ _ h) as [[?|?|?|] h1]; try done. by rewrite IH.
  - unfold id_fn at 1. rewrite <- Eg, get_set_same by done. by rewrite IH.
Qed.

(** what one of the loops does *)
Definition visited (c : Z -> gradfn -> bool) (e : nat -> gradfn -> gradfn) (ins new : list nat) (h h' : heap) : Prop :=
  h_sto h' = h_sto h /\ h_ver h' = h_ver h /\ (forall x, h_ten h' !! x = on_fn e x <$> h_ten h !! x) /\
  NoDup new /\ (forall x, x ∈ new <-> x ∈ ins /\ exists f, fn_of h x = Some f /\ c (h_ver h) f = true).
Lemma iter_id v n f : Nat.iter n (id_fn v) f = f.
Proof. by induction n. Qed.
Lemma on_fn_ext e e' x r : (forall f, t_fn r = Some f -> e x f = e' x f) -> on_fn e x r = on_fn e' x r.
Proof. intros H. unfold on_fn. destruct (t_fn r) as [f|]; [|done]. simpl. by rewrite H. Qed.
Lemma visited_ext c e e' ins new h h' : visited c e ins new h h' ->
  (forall x f, fn_of h x = Some f -> e x f = e' x f) -> visited c e' ins new h h'.
Proof.
  intros (S1 & S2 & S3 & S4) He. split; [done|]. split; [done|]. split; [|done]. intros x. rewrite S3.
  destruct (h_ten h !! x) as [r|] eqn:Er; [|done]. simpl. f_equal. apply on_fn_ext. intros f Hf. apply He.
  unfold fn_of. by rewrite Er.
Qed.
Lemma visit_reset_spec ins h : (forall i, i ∈ ins -> is_Some (h_ten h !! i)) ->
  exists new h', visit_reset ins h = (Ok new, h') /\
    visited c_ver (fun x f => if decide (x ∈ new) then gf_with_nout (gf_with_ver f (h_ver h)) 0 else f) ins new h h'.
Proof.
  intros Hex. rewrite visit_reset_gv.
  destruct (gv_spec c_ver (fun v g => gf_with_nout (gf_with_ver g v) 0) id_fn) with (ins := ins) (h := h)
    as (new & h' & E & H); [| |done|].
  { intros v g. unfold c_ver. simpl. lia. } { done. }
  exists new, h'. split; [done|]. eapply visited_ext; [exact H|]. intros x f Hf. destruct H as (_ & _ & _ & _ & Hn).
  pose proof (cnt_pos ins x) as Hc. unfold cnt in Hc.
  destruct (count_occ Nat.eq_dec ins x) as [|m] eqn:Em; simpl.
  - rewrite decide_False; [done|]. rewrite Hn. intros [?%Hc _]. lia.
  - rewrite !iter_id. assert (x ∈ ins) as Hx by (apply Hc; lia). destruct (c_ver (h_ver h) f) eqn:Ec.
    + rewrite decide_True; [done|]. rewrite Hn. split; [done|]. by exists f.
    + rewrite decide_False; [done|]. rewrite Hn. intros (_ & f' & Hf' & ?). congruence.
Qed.
Lemma visit_ready_spec ins h : (forall i, i ∈ ins -> is_Some (h_ten h !! i)) ->
  exists new h', visit_ready ins h = (Ok new, h') /\
    visited c_ready (fun x f => if decide (x ∈ new) then gf_with_ver f (h_ver h) else f) ins new h h'.
Proof.
  intros Hex. rewrite visit_ready_gv.
  destruct (gv_spec c_ready (fun v g => gf_with_ver g v) id_fn) with (ins := ins) (h := h)
    as (new & h' & E & H); [| |done|].
  { intros v g. unfold c_ready. simpl. apply andb_false_intro1. lia. } { done. }
  exists new, h'. split; [done|]. eapply visited_ext; [exact H|]. intros x f Hf. destruct H as (_ & _ & _ & _ & Hn).
  pose proof (cnt_pos ins x) as Hc. unfold cnt in Hc.
  destruct (count_occ Nat.eq_dec ins x) as [|m] eqn:Em; simpl.
  - rewrite decide_False; [done|]. rewrite Hn. intros [?%Hc _]. lia.
  - rewrite !iter_id. assert (x ∈ ins) as Hx by (apply Hc; lia). destruct (c_ready (h_ver h) f) eqn:Ec.
    + rewrite decide_True; [done|]. rewrite Hn. split; [done|]. by exists f.
    + rewrite decide_False; [done|]. rewrite Hn. intros (_ & f' & Hf' & ?). congruence.
Qed.
Lemma iter_nout n f : Nat.iter n (fun g => gf_with_nout g (gf_nout g + 1)) f = gf_with_nout f (gf_nout f + Z.of_nat n).
Proof.
  induction n as [|n IH]; [destruct f; unfold gf_with_nout; simpl; f_equal; lia|].
  rewrite Nat.iter_succ, IH. unfold gf_with_nout. simpl. f_equal. lia.
Qed.
Lemma visit_count_spec ins h : (forall i, i ∈ ins -> is_Some (h_ten h !! i)) ->
  exists new h', visit_count ins h = (Ok new, h') /\
    visited c_ver (fun x f => gf_with_nout (if decide (x ∈ new) then gf_with_ver f (h_ver h) else f) (gf_nout f + cnt ins x)) ins new h h'.
Proof.
  intros Hex. rewrite visit_count_gv.
  destruct (gv_spec c_ver (fun v g => gf_with_ver (gf_with_nout g (gf_nout g + 1)) v) (fun _ g => gf_with_nout g (gf_nout g + 1)))
    with (ins := ins) (h := h) as (new & h' & E & H); [| |done|].
  { intros v g. unfold c_ver. simpl. lia. } { done. }
  exists new, h'. split; [done|]. eapply visited_ext; [exact H|]. intros x f Hf. destruct H as (_ & _ & _ & _ & Hn).
  pose proof (cnt_pos ins x) as Hc. unfold cnt in *.
  destruct (count_occ Nat.eq_dec ins x) as [|m] eqn:Em; simpl.
  - rewrite decide_False; [unfold gf_with_nout; destruct f; simpl; f_equal; lia|]. rewrite Hn. intros [?%Hc _]. lia.
  - rewrite !iter_nout. assert (x ∈ ins) as Hx by (apply Hc; lia). destruct (c_ver (h_ver h) f) eqn:Ec.
    + rewrite decide_True; [|rewrite Hn; split; [done|]; by exists f]. unfold gf_with_nout, gf_with_ver. simpl. f_equal. lia.
    + rewrite decide_False; [|rewrite Hn; intros (_ & f' & Hf' & ?); congruence]. unfold gf_with_nout. simpl. f_equal. lia.
Qed.
End with_fops.
