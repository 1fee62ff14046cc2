(** The index odometer visits the row-major index list. *)
From Verif.Proofs Require Export IndexLemmas.
From Verif.Model Require Export Utils.

Lemma extent_size_prod r : extent r = size_prod r.
Proof. induction r; simpl; auto. Qed.

(** [iter_until] runs its step up to [p] times. *)
Fixpoint iter_n {S R} (n : nat) (f : S -> S + R) (s : S) : S + R :=
  match n with
  | O => inl s
  | Datatypes.S n' => match f s with inl s' => iter_n n' f s' | inr r => inr r end
  end.
Lemma iter_n_add {S R} (f : S -> S + R) a b s :
  iter_n (a + b) f s = match iter_n a f s with inl s' => iter_n b f s' | inr r => inr r end.
Proof. revert s. induction a as [|a IH]; intros s; simpl; [done|]. destruct (f s); auto. Qed.
Lemma iter_until_n {S R} (f : S -> S + R) p s : iter_until p f s = iter_n (Pos.to_nat p) f s.
Proof.
  revert s. induction p as [p IH|p IH|]; intros s; cbn [iter_until].
  - rewrite Pos2Nat.inj_xI. replace (Datatypes.S (2 * Pos.to_nat p)) with
      (1 + (Pos.to_nat p + Pos.to_nat p))%nat by lia.
    rewrite iter_n_add. simpl. destruct (f s) as [s0|r]; [|done].
    rewrite iter_n_add, <- IH. destruct (iter_until p f s0); [apply IH|done].
  - rewrite Pos2Nat.inj_xO. replace (2 * Pos.to_nat p)%nat with
      (Pos.to_nat p + Pos.to_nat p)%nat by lia.
    rewrite iter_n_add, <- IH. destruct (iter_until p f s); [apply IH|done].
  - change (Pos.to_nat 1) with 1%nat. simpl. by destruct (f s).
Qed.

(** Run a body that may stop early over a list of indices. *)
Fixpoint run_idx {S R} (body : list Z -> M S (option R)) (l : list (list Z)) : M S (option R) :=
  match l with
  | [] => mret None
  | x :: r => let! o := body x in
              match o with None => run_idx body r | Some y => mret (Some y) end
  end.

Lemma row_major_app pre i suf spre j ssuf :
  length pre = length spre ->
  row_major (pre ++ i :: suf) (spre ++ j :: ssuf) =
  row_major pre spre * (i * size_prod suf) + j * size_prod suf + row_major suf ssuf.
Proof.
  revert spre. induction pre as [|n pre IH]; intros [|s spre] Hl; try done.
  cbn [app row_major]. rewrite IH by (simpl in Hl; lia).
    rewrite size_prod_app. cbn [size_prod]. ring.
Qed.

(** The carry loop keeps the row-major position and normalises the index. *)
Lemma carry_spec pre n suf spre i ssuf :
  Forall (fun k => 0 < k) (pre ++ n :: suf) ->
  in_range pre spre -> 0 <= i <= n -> in_range suf ssuf ->
  (i = n -> Forall (eq 0) ssuf) ->
  let range := pre ++ n :: suf in
  let sv := spre ++ i :: ssuf in
  match carry range (length pre) sv with
  | None => row_major range sv = size_prod range
  | Some sv' => in_range range sv' /\ row_major range sv' = row_major range sv
  end.
Proof.
  revert n suf spre i ssuf. induction pre as [|m pre IH] using rev_ind;
    intros n suf spre i ssuf Hpos Hpre Hi Hsuf H0 range sv.
  - apply in_range_nil_inv in Hpre as ->. subst range sv. simpl app in *.
    cbn [carry length nth]. destruct (Z.eqb_spec i n) as [->|Hne].
    + specialize (H0 eq_refl). cbn [row_major size_prod].
      assert (row_major suf ssuf = 0) as ->; [|lia].
      clear -Hsuf H0. induction Hsuf; simpl; [done|]. inversion H0; subst. rewrite IHHsuf by done. lia.
    + split; [|done]. apply in_range_cons. split; [lia|done].
  - assert (Hlen := in_range_length _ _ Hpre). rewrite app_length in Hlen; simpl in Hlen.
    destruct spre as [|k spre _] using rev_ind; [simpl in Hlen; lia|].
    rewrite app_length in Hlen; simpl in Hlen.
    apply in_range_app in Hpre as [Hpre Hk]; [|lia].
    apply Forall2_cons in Hk as [Hk _].
    assert (HL : length (pre ++ [m]) = Datatypes.S (length pre)) by (rewrite app_length; simpl; lia).
    assert (HR : range = pre ++ m :: n :: suf) by (subst range; by rewrite <- app_assoc).
    assert (HS : sv = spre ++ k :: i :: ssuf) by (subst sv; by rewrite <- app_assoc).
    rewrite HL. cbn [carry].
    assert (Hns : nth (Datatypes.S (length pre)) sv 0 = i).
    { rewrite HS. rewrite app_nth2 by lia.
      replace (Datatypes.S (length pre) - length spre)%nat with 1%nat by lia. done. }
    assert (Hnr : nth (Datatypes.S (length pre)) range 0 = n).
    { rewrite HR. rewrite app_nth2 by lia.
      replace (Datatypes.S (length pre) - length pre)%nat with 1%nat by lia. done. }
    rewrite Hns, Hnr.
    destruct (Z.eqb_spec i n) as [->|Hne].
    + specialize (H0 eq_refl).
      assert (Hnr' : nth (length pre) (<[Datatypes.S (length pre):=0]> sv) 0 = k).
      { rewrite HS. replace (Datatypes.S (length pre)) with (length spre + 1)%nat by lia.
        rewrite insert_app_r. rewrite app_nth2 by lia.
        replace (length pre - length spre)%nat with 0%nat by lia. done. }
      rewrite Hnr'.
      assert (Hsv1 : <[length pre:=k + 1]> (<[Datatypes.S (length pre):=0]> sv)
                     = spre ++ (k + 1) :: 0 :: ssuf).
      { rewrite HS. replace (Datatypes.S (length pre)) with (length spre + 1)%nat by lia.
        rewrite insert_app_r. replace (length pre) with (length spre + 0)%nat by lia.
        rewrite insert_app_r. done. }
      rewrite Hsv1. rewrite HR.
      specialize (IH m (n :: suf) spre (k + 1) (0 :: ssuf)).
      cbv zeta in IH.
      assert (Hv : row_major (pre ++ m :: n :: suf) (spre ++ (k + 1) :: 0 :: ssuf)
                   = row_major range sv).
      { rewrite HR, HS. rewrite !row_major_app by lia. cbn [row_major size_prod]. ring. }
      rewrite <- HR in IH |- *. rewrite <- HR in Hv. rewrite Hv in IH.
      assert (Hnpos : 0 < n).
      { rewrite Forall_app in Hpos. destruct Hpos as [_ Hp]. by inversion Hp. }
      apply IH.
      * by subst range.
      * done.
      * lia.
      * apply in_range_cons. split; [lia|done].
      * intros _. constructor; done.
    + rewrite HR, HS. split; [|done].
      apply in_range_app; [lia|]. split; [done|]. apply in_range_cons. split; [lia|].
      apply in_range_cons. split; [lia|done].
Qed.

Lemma in_range_repeat0 ss : Forall (fun k => 0 < k) ss -> in_range ss (repeat 0 (length ss)).
Proof. induction 1; simpl; constructor; auto; lia. Qed.
Lemma row_major_repeat0 ss : row_major ss (repeat 0 (length ss)) = 0.
Proof. induction ss; simpl; lia. Qed.

Section loop.
Context {S R : Type}.
Implicit Types (body : list Z -> M S (option R)).

(** state of the loop just before visiting position k *)
Definition odo_at (range : list Z) (k : Z) (sv : list Z) : Prop :=
  exists pre n spre i, range = pre ++ [n] /\ sv = spre ++ [i] /\
    in_range pre spre /\ 0 <= i <= n /\ row_major range sv = k.

Lemma odo_step_done range body sv h :
  Forall (fun k => 0 < k) range ->
  odo_at range (size_prod range) sv ->
  odo_step range body (sv, h) = inr (Ok None, h).
Proof.
  intros Hpos (pre & n & spre & i & -> & -> & Hr & Hi & Hv).
  unfold odo_step. rewrite app_length. simpl.
  replace (Nat.pred (length pre + 1)) with (length pre) by lia.
  pose proof (carry_spec pre n [] spre i [] Hpos Hr Hi (in_range_nil)) as H.
  cbv zeta in H. specialize (H ltac:(constructor)).
  destruct (carry _ _ _) as [sv'|]; [|done]. destruct H as [Hin Hv'].
  apply row_major_bounds in Hin. lia.
Qed.

Lemma odo_step_go range body sv h k idx :
  Forall (fun k => 0 < k) range ->
  odo_at range (Z.of_nat k) sv ->
  indices range !! k = Some idx ->
  odo_step range body (sv, h) =
    match body idx h with
    | (Ok None, h') => inl (<[Nat.pred (length range) := nth (Nat.pred (length range)) idx 0 + 1]> idx, h')
    | (o, h') => inr (o, h')
    end /\
  odo_at range (Z.of_nat k + 1)
    (<[Nat.pred (length range) := nth (Nat.pred (length range)) idx 0 + 1]> idx).
Proof.
  intros Hpos (pre & n & spre & i & -> & -> & Hr & Hi & Hv) Hidx.
  apply indices_lookup_inv in Hidx as [Hin Hidx];
    [|eapply Forall_impl; [exact Hpos|simpl; lia]].
  unfold odo_step. rewrite app_length. simpl length.
  replace (Nat.pred (length pre + 1)) with (length pre) by lia.
  pose proof (carry_spec pre n [] spre i [] Hpos Hr Hi (in_range_nil)) as H.
  cbv zeta in H. specialize (H ltac:(constructor)).
  split.
  - destruct (carry _ _ _) as [sv'|].
    + destruct H as [Hin' Hv'].
      assert (sv' = idx) as -> by (eapply row_major_inj; eauto; lia). done.
    + apply row_major_bounds in Hin. lia.
  - destruct idx as [|j idx _] using rev_ind.
    { apply in_range_length in Hin. rewrite app_length in Hin. simpl in Hin. lia. }
    assert (Hl := in_range_length _ _ Hin). rewrite !app_length in Hl. simpl in Hl.
    apply in_range_app in Hin as [Hin Hj]; [|lia]. apply Forall2_cons in Hj as [Hj _].
    rewrite app_nth2 by lia. replace (length pre - length idx)%nat with 0%nat by lia.
    replace (length pre) with (length idx + 0)%nat by lia. rewrite insert_app_r.
    exists pre, n, idx, (j + 1). repeat split; auto; try (simpl; lia).
    simpl. rewrite row_major_app in Hidx |- * by lia. simpl in *. lia.
Qed.

Lemma odo_iter range body :
  Forall (fun k => 0 < k) range -> forall m sv h k,
  (k + m = length (indices range))%nat ->
  odo_at range (Z.of_nat k) sv ->
  match iter_n (m + 1) (odo_step range body) (sv, h) with
  | inl (_, h') => (Diverge, h')
  | inr r => r
  end = run_idx body (drop k (indices range)) h.
Proof.
  intros Hpos.
  assert (Hlen : Z.of_nat (length (indices range)) = size_prod range).
  { apply length_indices. eapply Forall_impl; [exact Hpos|simpl; lia]. }
  induction m as [|m IH]; intros sv h k Hk Hat.
  - cbn [iter_n Nat.add]. rewrite odo_step_done; [|done|].
    + rewrite drop_ge by lia. done.
    + by replace (size_prod range) with (Z.of_nat k) by lia.
  - destruct (lookup_lt_is_Some_2 (indices range) k ltac:(lia)) as [idx Hidx].
    cbn [iter_n Nat.add].
    destruct (odo_step_go range body sv h k idx Hpos Hat Hidx) as [Hs Hat'].
    rewrite Hs. rewrite (drop_S _ _ _ Hidx). cbn [run_idx]. unfold bind.
    destruct (body idx h) as [[[y|]|e|u|] h'] eqn:Hb; try done.
    apply IH; [lia|]. by replace (Z.of_nat (Datatypes.S k)) with (Z.of_nat k + 1) by lia.
Qed.

Lemma odometer_run range body h :
  range <> [] -> Forall (fun k => 0 < k) range ->
  odometer range body h = run_idx body (indices range) h.
Proof.
  intros Hne Hpos. unfold odometer. rewrite iter_until_n.
  assert (Hnn : Forall (fun k => 0 <= k) range)
    by (eapply Forall_impl; [exact Hpos|simpl; lia]).
  assert (Hlen := length_indices _ Hnn). pose proof (size_prod_pos _ Hpos).
  replace (Pos.to_nat (Z.to_pos (extent range + 1))) with (length (indices range) + 1)%nat.
  2:{ rewrite extent_size_prod. rewrite Z2Nat.inj_pos || idtac. 
      rewrite <- Z2Nat.inj_pos, Z2Pos.id by lia. lia. }
  rewrite (odo_iter range body Hpos (length (indices range)) _ h 0).
  - done.
  - lia.
  - destruct range as [|n pre _] using rev_ind; [done|].
    exists pre, n, (repeat 0 (length pre)), 0.
    rewrite Forall_app, Forall_cons in Hpos. destruct Hpos as (Hp & Hn & _).
    repeat split; auto; try lia.
    + rewrite app_length. simpl. by rewrite repeat_app.
    + by apply in_range_repeat0.
    + apply row_major_repeat0.
Qed.
End loop.

Lemma run_idx_plain {S} (op : list Z -> M S unit) l h :
  (let! _ := run_idx (plain op) l in mret tt) h = mapM_ op l h.
Proof.
  revert h. induction l as [|x l IH]; intros h; [done|].
  cbn [run_idx mapM_]. specialize (IH (snd (op x h))). unfold plain, bind, mret in *.
  by destruct (op x h) as [[[]|e|u|] h'] eqn:E.
Qed.

Lemma existsb_zero_false r :
  Forall (fun n => 0 <= n) r -> existsb (Z.eqb 0) r = false -> Forall (fun n => 0 < n) r.
Proof.
  induction 1 as [|n r Hn Hr IH]; cbn [existsb]; [constructor|].
  intros H. apply orb_false_elim in H as [H1 H2]. constructor; auto.
  apply Z.eqb_neq in H1. lia.
Qed.
Lemma existsb_zero_true r : existsb (Z.eqb 0) r = true -> 0 ∈ r.
Proof.
  intros H. apply existsb_exists in H as (x & Hx & He). apply Z.eqb_eq in He as <-.
  by apply elem_of_list_In.
Qed.

(** C01: the loop is the left-to-right run over the row-major index list. *)
Lemma for_each_run {S} (range : list Z) (op : list Z -> M S unit) h :
  Forall (fun n => 0 <= n) range ->
  for_each_sizevec range op h = mapM_ op (indices range) h.
Proof.
  intros Hnn. unfold for_each_sizevec.
  destruct (existsb (Z.eqb 0) range) eqn:E.
  - apply existsb_zero_true in E. by rewrite (indices_empty _ E).
  - apply existsb_zero_false in E; [|done].
    destruct range as [|n r].
    + simpl. unfold bind, mret. by destruct (op [] h) as [[[]|?|?|] ?].
    + rewrite <- run_idx_plain. unfold bind. rewrite odometer_run by done. done.
Qed.
