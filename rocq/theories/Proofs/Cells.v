(** Loads and stores; loops that write one buffer as folds over its cells. *)
From Verif.Proofs Require Export BroadcastLemmas.

Section with_fops.
Context {fo : FOps}.

(** the heap with storage [s] replaced *)
Definition put (h : heap) (s : nat) (st : storage) : heap :=
  Hp (<[s := st]> (h_sto h)) (h_ten h) (h_ver h).
Lemma put_put h s a b : put (put h s a) s b = put h s b.
Proof. unfold put. simpl. by rewrite list_insert_insert. Qed.
Lemma put_id h s st : h_sto h !! s = Some st -> put h s st = h.
Proof. intros H. unfold put. rewrite list_insert_id by done. by destruct h. Qed.
Lemma put_lookup h s st x : h_sto h !! s = Some x -> h_sto (put h s st) !! s = Some st.
Proof. intros H. simpl. apply list_lookup_insert. by eapply lookup_lt_Some. Qed.
Lemma put_lookup_ne h s st s' : s <> s' -> h_sto (put h s st) !! s' = h_sto h !! s'.
Proof. intros. simpl. by apply list_lookup_insert_ne. Qed.

(** ** get/set *)
Lemma get_ten_ok h t r : h_ten h !! t = Some r -> get_ten t h = (Ok r, h).
Proof. intros H. unfold get_ten. by rewrite H. Qed.
Lemma get_sto_ok h s r : h_sto h !! s = Some r -> get_sto s h = (Ok r, h).
Proof. intros H. unfold get_sto. by rewrite H. Qed.

(** ** load and store *)
Lemma load_ok h s T b cs p v :
  h_sto h !! s = Some (Sto T b (Some cs)) -> 0 <= p ->
  cs !! Z.to_nat p = Some (Some v) -> load T s p h = (Ok v, h).
Proof.
  intros Hs Hp Hv. unfold load. rewrite (bind_ok _ _ _ _ _ (get_sto_ok _ _ _ Hs)). simpl.
  rewrite bool_decide_true by done.
  pose proof (lookup_lt_Some _ _ _ Hv).
  assert ((0 <=? p) && (p <? Z.of_nat (length cs)) = true) as -> by lia.
  by rewrite Hv.
Qed.
Lemma store_ok h s T b cs p v :
  h_sto h !! s = Some (Sto T b (Some cs)) -> 0 <= p < Z.of_nat (length cs) ->
  store T s p v h = (Ok tt, put h s (Sto T b (Some (<[Z.to_nat p := Some v]> cs)))).
Proof.
  intros Hs Hp. unfold store. rewrite (bind_ok _ _ _ _ _ (get_sto_ok _ _ _ Hs)). simpl.
  rewrite bool_decide_true by done.
  assert ((0 <=? p) && (p <? Z.of_nat (length cs)) = true) as -> by lia. done.
Qed.
Lemma store_cvt_eq h s S T b cs p v :
  h_sto h !! s = Some (Sto T b (Some cs)) -> 0 <= p < Z.of_nat (length cs) ->
  store_cvt S T s p v h =
    match cvt S T v with
    | Ok w => (Ok tt, put h s (Sto T b (Some (<[Z.to_nat p := Some w]> cs))))
    | Throw e => (Throw e, h) | UB u => (UB u, h) | Diverge => (Diverge, h)
    end.
Proof.
  intros Hs Hp. unfold store_cvt. rewrite bind_lift.
  destruct (cvt S T v); try done. by apply store_ok.
Qed.

(** ** elements *)
Lemma elem_lookup h r idx v :
  elem h r idx = Some v <->
  exists cs, cells h (t_sto r) = Some cs /\ 0 <= pos (t_lay r) idx /\
             cs !! Z.to_nat (pos (t_lay r) idx) = Some (Some v).
Proof.
  unfold elem. destruct (cells h (t_sto r)) as [cs|].
  2:{ split; [done|]. intros (cs & ? & _). done. }
  destruct (Z.leb_spec 0 (pos (t_lay r) idx)).
  - split.
    + destruct (cs !! _) as [c|] eqn:E; [|done]. intros ->. eauto.
    + intros (cs' & ? & _ & Hl). simplify_eq. by rewrite Hl.
  - split; [done|]. intros (cs' & _ & ? & _). lia.
Qed.
Lemma backed_cells h r cs : backed h r cs -> cells h (t_sto r) = Some cs.
Proof. intros [[b H] _]. unfold cells. by rewrite H. Qed.

Lemma holds_load h r v idx :
  holds h r v -> in_range (sizes (t_lay r)) idx ->
  load (t_dt r) (t_sto r) (pos (t_lay r) idx) h = (Ok (v idx), h).
Proof.
  intros [(cs & Hb) He] Hr. destruct (He idx Hr) as [He' _].
  apply elem_lookup in He' as (cs' & Hc & Hp & Hl).
  rewrite (backed_cells _ _ _ Hb) in Hc. injection Hc as <-.
  destruct Hb as [[b Hs] _]. by eapply load_ok.
Qed.
Lemma holds_exact h r v idx :
  holds h r v -> in_range (sizes (t_lay r)) idx ->
  load_exact (t_dt r) r idx h = (Ok (v idx), h).
Proof.
  intros H Hr. pose proof H as [(cs & Hb) _]. destruct Hb as (_ & Hok & Hin & Hlen).
  unfold load_exact, idx_exact. rewrite bind_lift.
  destruct (cnt_from_index_ok _ idx _ Hok Hin ltac:(rewrite two63_64; lia) Hr) as [-> _].
  by apply holds_load.
Qed.
Lemma holds_aug h r v idx :
  holds h r v -> (length (sizes (t_lay r)) <= length idx)%nat ->
  in_range (sizes (t_lay r)) (bidx (sizes (t_lay r)) idx) ->
  load_aug (t_dt r) r idx h = (Ok (v (bidx (sizes (t_lay r)) idx)), h).
Proof.
  intros H Hl Hr. pose proof H as [(cs & Hb) _]. destruct Hb as (_ & Hok & Hin & Hlen).
  unfold load_aug, idx_aug. rewrite bind_lift.
  destruct (cnt_from_aug_ok _ idx _ Hok Hin ltac:(rewrite two63_64; lia) Hl Hr) as [-> _].
  by apply holds_load.
Qed.
Lemma backed_idx h r cs idx :
  backed h r cs -> in_range (sizes (t_lay r)) idx ->
  idx_exact r idx h = (Ok (pos (t_lay r) idx), h) /\
  0 <= pos (t_lay r) idx < Z.of_nat (length cs).
Proof.
  intros (_ & Hok & Hin & Hlen) Hr.
  destruct (cnt_from_index_ok _ idx _ Hok Hin ltac:(rewrite two63_64; lia) Hr) as [He Hb].
  split; [|done]. unfold idx_exact, lift. by rewrite He.
Qed.
Lemma backed_idx_aug h r cs idx :
  backed h r cs -> (length (sizes (t_lay r)) <= length idx)%nat ->
  in_range (sizes (t_lay r)) (bidx (sizes (t_lay r)) idx) ->
  idx_aug r idx h = (Ok (pos (t_lay r) (bidx (sizes (t_lay r)) idx)), h) /\
  0 <= pos (t_lay r) (bidx (sizes (t_lay r)) idx) < Z.of_nat (length cs).
Proof.
  intros (_ & Hok & Hin & Hlen) Hl Hr.
  destruct (cnt_from_aug_ok _ idx _ Hok Hin ltac:(rewrite two63_64; lia) Hl Hr) as [He Hb].
  split; [|done]. unfold idx_aug, lift. by rewrite He.
Qed.

(** what [holds] depends on *)
Lemma holds_sto h h' r v :
  h_sto h' !! t_sto r = h_sto h !! t_sto r -> holds h r v -> holds h' r v.
Proof.
  intros Hs [(cs & (b & Hb) & Hl) He]. split.
  - exists cs. split; [|done]. exists b. congruence.
  - intros idx Hi. destruct (He idx Hi) as [H1 H2]. split; [|done].
    unfold elem, cells in *. by rewrite Hs.
Qed.
Lemma holds_some h r v : holds h r v -> exists x, h_sto h !! t_sto r = Some x.
Proof. intros [(cs & (b & Hb) & _) _]. eauto. Qed.
Lemma holds_extends h h' r v : extends h h' -> holds h r v -> holds h' r v.
Proof.
  intros [Hs _] H. destruct (holds_some _ _ _ H) as [x Hx].
  eapply holds_sto; [|exact H]. rewrite Hx. by apply Hs.
Qed.
Lemma holds_put h s st r v : s <> t_sto r -> holds h r v -> holds (put h s st) r v.
Proof. intros Hs. apply holds_sto. by apply put_lookup_ne. Qed.
Lemma holds_same h r r' v : same_data r r' -> holds h r v -> holds h r' v.
Proof.
  destruct r as [d l s g rg rt fn], r' as [d' l' s' g' rg' rt' fn'].
  intros (Hd & Hl & Hs) H. simpl in *. subst. exact H.
Qed.
Lemma holds_ext h r v v' :
  (forall idx, in_range (sizes (t_lay r)) idx -> v idx = v' idx) -> holds h r v -> holds h r v'.
Proof.
  intros E [Hb He]. split; [done|]. intros idx Hi. rewrite <- (E idx Hi). auto.
Qed.

Lemma extends_refl h : extends h h.
Proof. split; auto. Qed.
Lemma extends_trans a b c : extends a b -> extends b c -> extends a c.
Proof. intros [] []. split; auto. Qed.
Lemma extends_put h h' s st : extends h h' -> h_sto h !! s = None -> extends h (put h' s st).
Proof.
  intros [H1 H2] Hs. split; [|done]. intros s' x Hx.
  rewrite put_lookup_ne by congruence. auto.
Qed.
Lemma extends_app h ss ts v : extends h (Hp (h_sto h ++ ss) (h_ten h ++ ts) v).
Proof. split; intros k x Hx; simpl; by apply lookup_app_l_Some. Qed.

(** ** loops over one buffer *)
Definition same_err {A B} (o : outcome A) (o' : outcome B) : Prop :=
  match o, o' with
  | Throw e, Throw e' => e = e'
  | UB u, UB u' => u = u'
  | Diverge, Diverge => True
  | _, _ => False
  end.
Definition is_ok {A} (o : outcome A) : Prop := exists a, o = Ok a.

Fixpoint cfold {A} (f : A -> list cell -> outcome (list cell)) (l : list A) (cs : list cell)
    : outcome unit * list cell :=
  match l with
  | [] => (Ok tt, cs)
  | x :: r =>
      match f x cs with
      | Ok cs' => cfold f r cs'
      | Throw e => (Throw e, cs) | UB u => (UB u, cs) | Diverge => (Diverge, cs)
      end
  end.

Lemma loop_cells {A} (body : A -> E unit) (f : A -> list cell -> outcome (list cell))
    (h : heap) (s : nat) (T : dtype) (b : Z) (n : nat) (l : list A) :
  (forall x cs, x ∈ l -> length cs = n ->
     body x (put h s (Sto T b (Some cs))) =
       match f x cs with
       | Ok cs' => (Ok tt, put h s (Sto T b (Some cs')))
       | Throw e => (Throw e, put h s (Sto T b (Some cs)))
       | UB u => (UB u, put h s (Sto T b (Some cs)))
       | Diverge => (Diverge, put h s (Sto T b (Some cs)))
       end) ->
  (forall x cs cs', x ∈ l -> length cs = n -> f x cs = Ok cs' -> length cs' = n) ->
  forall cs, length cs = n ->
  mapM_ body l (put h s (Sto T b (Some cs))) =
    (fst (cfold f l cs), put h s (Sto T b (Some (snd (cfold f l cs))))).
Proof.
  induction l as [|x l IH]; intros Hb Hf cs Hn; [done|].
  cbn [mapM_ cfold]. unfold bind. rewrite (Hb x cs) by (done || left).
  destruct (f x cs) as [cs'|e|u|] eqn:E; try done.
  apply IH.
  - intros y c Hy. apply Hb. by right.
  - intros y c c' Hy. apply Hf. by right.
  - apply (Hf x cs); [left|done..].
Qed.

Definition cell_at (cs : list cell) (p : nat) : cell :=
  match cs !! p with Some c => c | None => None end.

(** step: read cell [P x], compute, write it back *)
Definition accf {A} (P : A -> nat) (g : A -> cell -> outcome val) (x : A) (cs : list cell)
    : outcome (list cell) :=
  let? w := g x (cell_at cs (P x)) in Ok (<[P x := Some w]> cs).

Fixpoint ofold {A B} (g : A -> B -> outcome B) (l : list A) (c : B) : outcome B :=
  match l with [] => Ok c | x :: r => let? c' := g x c in ofold g r c' end.
Definition osome {A} (g : A -> cell -> outcome val) (x : A) (c : cell) : outcome cell :=
  let? v := g x c in Ok (Some v).

Lemma accf_spec {A} (P : A -> nat) (g : A -> cell -> outcome val) l cs :
  (forall x, x ∈ l -> (P x < length cs)%nat) ->
  (exists cs', cfold (accf P g) l cs = (Ok tt, cs') /\ length cs' = length cs /\
     forall p, (p < length cs)%nat ->
       ofold (osome g) (filter (fun x => P x = p) l) (cell_at cs p) = Ok (cell_at cs' p)) \/
  (exists o cs' x c, cfold (accf P g) l cs = (o, cs') /\ length cs' = length cs /\
     x ∈ l /\ same_err (g x c) o /\
     same_err (ofold (osome g) (filter (fun y => P y = P x) l) (cell_at cs (P x))) o /\
     exists pre post, l = pre ++ x :: post /\
       ofold (osome g) (filter (fun y => P y = P x) pre) (cell_at cs (P x)) = Ok c).
Proof.
  revert cs. induction l as [|x l IH]; intros cs Hin.
  - left. exists cs. split; [done|]. split; [done|]. intros p Hp. done.
  - assert (Hx : (P x < length cs)%nat) by (apply Hin; left).
    cbn [cfold]. unfold accf at 1 3. destruct (g x (cell_at cs (P x))) as [w|e|u|] eqn:E; cbn [obind].
    + set (cs1 := <[P x := Some w]> cs).
      assert (Hl1 : length cs1 = length cs) by (unfold cs1; apply insert_length).
      assert (Hat : forall p, (p < length cs)%nat ->
        cell_at cs1 p = if decide (P x = p) then Some w else cell_at cs p).
      { intros p Hp. unfold cell_at, cs1. case_decide as D.
        - subst. by rewrite list_lookup_insert.
        - by rewrite list_lookup_insert_ne. }
      destruct (IH cs1) as [(cs' & H1 & H2 & H3)|(o & cs' & y & c & H1 & H2 & H3 & H4 & H5 & pre & post & H6 & H7)].
      { intros y Hy. rewrite Hl1. apply Hin. by right. }
      * left. exists cs'. split; [done|]. split; [congruence|]. intros p Hp.
        specialize (H3 p ltac:(congruence)). rewrite (Hat p Hp) in H3.
        rewrite filter_cons. destruct (decide (P x = p)) as [<-|D]; [|done].
        cbn [ofold]. unfold osome at 1. rewrite E. done.
      * right. exists o, cs', y, c. split; [done|]. split; [congruence|].
        split; [by right|]. split; [done|].
        assert (Hy : (P y < length cs)%nat) by (apply Hin; by right).
        rewrite (Hat _ Hy) in H5, H7. split.
        -- rewrite filter_cons. destruct (decide (P x = P y)) as [D|D]; [|done].
           cbn [ofold]. unfold osome at 1. rewrite <- D, E. cbn [obind]. by rewrite D.
        -- exists (x :: pre), post. split; [by rewrite H6|].
           rewrite filter_cons. destruct (decide (P x = P y)) as [D|D]; [|done].
           cbn [ofold]. unfold osome at 1. rewrite <- D, E. cbn [obind]. by rewrite D.
    + right. exists (Throw e), cs, x, (cell_at cs (P x)). repeat split; auto; [left| | |].
      * by rewrite E.
      * rewrite filter_cons, decide_True by done. cbn [ofold]. unfold osome at 1. by rewrite E.
      * exists [], l. done.
    + right. exists (UB u), cs, x, (cell_at cs (P x)). repeat split; auto; [left| | |].
      * by rewrite E.
      * rewrite filter_cons, decide_True by done. cbn [ofold]. unfold osome at 1. by rewrite E.
      * exists [], l. done.
    + right. exists Diverge, cs, x, (cell_at cs (P x)). repeat split; auto; [left| | |].
      * by rewrite E.
      * rewrite filter_cons, decide_True by done. cbn [ofold]. unfold osome at 1. by rewrite E.
      * exists [], l. done.
Qed.

(** The injective case: every index writes its own cell. *)
Lemma filter_inj_pos {A} (P : A -> nat) l x :
  NoDup l -> x ∈ l -> (forall y, y ∈ l -> P y = P x -> y = x) ->
  filter (fun y => P y = P x) l = [x].
Proof.
  induction l as [|y l IH]; intros Hn Hx Hinj; [inversion Hx|].
  apply NoDup_cons in Hn as [Hy Hn]. rewrite filter_cons.
  apply elem_of_cons in Hx as [->|Hx].
  - rewrite decide_True by done. f_equal.
    destruct (filter _ l) as [|z k] eqn:E; [done|].
    assert (Hz : z ∈ filter (fun z => P z = P y) l) by (rewrite E; left).
    apply elem_of_list_filter in Hz as [Hz1 Hz2].
    rewrite (Hinj z) in Hz2; [done|by right|done].
  - destruct (decide (P y = P x)) as [D|D].
    + apply Hinj in D; [|left]. by subst.
    + apply IH; auto. intros z Hz. apply Hinj. by right.
Qed.
Lemma filter_none {A} (P : A -> nat) l p :
  (forall y, y ∈ l -> P y <> p) -> filter (fun y => P y = p) l = [].
Proof.
  intros H. destruct (filter _ l) as [|z k] eqn:E; [done|].
  assert (Hz : z ∈ filter (fun z => P z = p) l) by (rewrite E; left).
  apply elem_of_list_filter in Hz as [Hz1 Hz2]. by destruct (H z Hz2).
Qed.
Lemma mapf_spec {A} (P : A -> nat) (g : A -> outcome val) l cs :
  NoDup l -> (forall x, x ∈ l -> (P x < length cs)%nat) ->
  (forall x y, x ∈ l -> y ∈ l -> P x = P y -> x = y) ->
  (exists cs', cfold (accf P (fun x _ => g x)) l cs = (Ok tt, cs') /\ length cs' = length cs /\
     (forall x, x ∈ l -> exists w, g x = Ok w /\ cs' !! P x = Some (Some w)) /\
     (forall p, (forall x, x ∈ l -> P x <> p) -> cs' !! p = cs !! p)) \/
  (exists o cs' x, cfold (accf P (fun x _ => g x)) l cs = (o, cs') /\ length cs' = length cs /\
     x ∈ l /\ same_err (g x) o).
Proof.
  intros Hn Hin Hinj.
  destruct (accf_spec P (fun x _ => g x) l cs Hin)
    as [(cs' & H1 & H2 & H3)|(o & cs' & x & c & H1 & H2 & H3 & H4 & _)].
  - left. exists cs'. split; [done|]. split; [done|]. split.
    + intros x Hx. specialize (H3 (P x) (Hin x Hx)).
      rewrite filter_inj_pos in H3; auto.
      cbn [ofold] in H3. unfold osome in H3.
      destruct (g x) as [w| | |] eqn:E; try done. exists w. split; [done|].
      cbn [obind] in H3. injection H3 as H3. unfold cell_at in H3.
      destruct (lookup_lt_is_Some_2 cs' (P x)) as [c Hc].
      { rewrite H2. auto. }
      rewrite Hc in H3 |- *. by rewrite <- H3.
    + intros p Hp. destruct (decide (p < length cs)%nat) as [Hlt|Hge].
      * specialize (H3 p Hlt). rewrite filter_none in H3 by done. cbn [ofold] in H3.
        injection H3 as H3. unfold cell_at in H3.
        destruct (lookup_lt_is_Some_2 cs p Hlt) as [c Hc].
        destruct (lookup_lt_is_Some_2 cs' p ltac:(congruence)) as [c' Hc'].
        rewrite Hc, Hc' in H3 |- *. by rewrite H3.
      * rewrite !lookup_ge_None_2; [done|lia..].
  - right. eauto 10.
Qed.
End with_fops.
