(** In-place addition: views of one buffer, and when it throws. *)
From Verif.Proofs Require Export Inplace.
From Verif.Model Require Import Api.

Section with_fops.
Context {fo : FOps}.

Lemma addeq_run h a b ra rb va vb :
  tensor_at h a ra va -> tensor_at h b rb vb -> t_rg ra = false -> compatible (shape ra) (shape rb) -> no_zero_one (shape ra) (shape rb) ->
  op_addeq a b h = mapM_ (binary_body AAdd (t_dt ra) (t_dt ra) (t_dt rb) ra ra rb) (indices (bshape (shape ra) (shape rb))) h.
Proof.
  intros [Ha Hva] [Hb Hvb] Hrg Hc Hn.
  assert (Hnn : Forall (fun n => 0 <= n) (bshape (shape ra) (shape rb)))
    by (apply bshape_Forall; by eapply holds_nonneg).
  unfold op_addeq. erewrite bind_ok by (by apply get_ten_ok).
  erewrite bind_ok by (by apply get_ten_ok). rewrite Hrg. simpl. unfold tensor_add.
  unfold run_expect. rewrite ?bind_ret, ?bind_lift.
  change (sizes (t_lay ra)) with (shape ra). change (sizes (t_lay rb)) with (shape rb).
  rewrite broadcast_range_max, bmax_bshape by (done || by eapply holds_nonneg).
  rewrite bind_lift || idtac. by rewrite for_each_run.
Qed.

(** ** one buffer *)
Definition part_upd (va w : list Z -> val) (l : list (list Z)) (idx : list Z) : val := if decide (idx ∈ l) then w idx else va idx.
Lemma addeq_apart h a b ra rb va vb :
  tensor_at h a ra va -> tensor_at h b rb vb -> lay_inj (t_lay ra) ->
  t_rg ra = false -> compatible (shape ra) (shape rb) -> no_zero_one (shape ra) (shape rb) ->
  bshape (shape ra) (shape rb) = shape ra ->
  (t_sto ra = t_sto rb -> forall i j, in_range (shape ra) i -> in_range (shape ra) j ->
     row_major (shape ra) i < row_major (shape ra) j -> pos (t_lay ra) i <> pos (t_lay rb) (bidx (shape rb) j)) ->
  let e idx := add_step (t_dt ra) (t_dt rb) (va idx) (vb (bidx (shape rb) idx)) in
  (forall w, (forall idx, in_range (shape ra) idx -> e idx = Some (w idx)) ->
     exists h', exec (OAddEq (Some a) (Some b)) h = (Ok RUnit, h') /\ wrote h h' ra w) /\
  ((exists idx, in_range (shape ra) idx /\ e idx = None) ->
     exists u h', exec (OAddEq (Some a) (Some b)) h = (UB u, h') /\ step_ub u).
Proof.
  intros Ta Tb Hinj Hrg Hc Hn Hs Hord e.
  pose proof (addeq_run h a b ra rb va vb Ta Tb Hrg Hc Hn) as Hrun. rewrite Hs in Hrun.
  destruct Ta as [Ha Hva], Tb as [Hb Hvb].
  assert (Hnn : Forall (fun n => 0 <= n) (shape ra)) by (by eapply holds_nonneg).
  (* one step *)
  assert (forall done j todo h1 w, indices (shape ra) = done ++ j :: todo ->
    wrote h h1 ra (part_upd va w done) ->
    match e j with
    | Some x => exists h2, binary_body AAdd (t_dt ra) (t_dt ra) (t_dt rb) ra ra rb j h1 = (Ok tt, h2) /\ (x = w j -> wrote h h2 ra (part_upd va w (done ++ [j])))
    | None => exists u h2, binary_body AAdd (t_dt ra) (t_dt ra) (t_dt rb) ra ra rb j h1 = (UB u, h2) /\ step_ub u
    end) as Hstep.
  { intros done j todo h1 w Hl Hw.
    assert (Hj : j ∈ indices (shape ra)) by (rewrite Hl; set_solver).
    apply elem_of_indices in Hj.
    assert (forall i, i ∈ done -> in_range (shape ra) i /\ row_major (shape ra) i < row_major (shape ra) j) as Hdone.
    { intros i Hi. assert (i ∈ indices (shape ra)) as Hi' by (rewrite Hl; set_solver). apply elem_of_indices in Hi'. split; [done|].
      apply elem_of_list_lookup in Hi as [k Hk]. pose proof (lookup_lt_Some _ _ _ Hk).
      assert (indices (shape ra) !! k = Some i) as H1 by (rewrite Hl; by apply lookup_app_l_Some).
      assert (indices (shape ra) !! length done = Some j) as H2 by (rewrite Hl; by apply list_lookup_middle).
      apply indices_lookup_inv in H1 as [_ H1]; [|done]. apply indices_lookup_inv in H2 as [_ H2]; [|done]. lia. }
    assert (j ∉ done) as Hjd. { intros [_ ?]%Hdone. lia. }
    assert (part_upd va w done j = va j) as Hvj by (unfold part_upd; by rewrite decide_False).
    pose proof Hw as (Hw1 & Hw2 & Hw3 & Hw4).
    assert (in_range (shape rb) (bidx (shape rb) j)) as Hinb by (apply (bidx_in_r (shape ra)); [done|by rewrite Hs]).
    pose proof (in_range_length _ _ Hj) as Hlen.
    assert (length (shape rb) <= length j)%nat as Hlb.
    { pose proof (f_equal length Hs) as E. rewrite bshape_length in E. lia. }
    assert (load_aug (t_dt rb) rb j h1 = (Ok (vb (bidx (shape rb) j)), h1)) as Hlbv.
    { destruct (decide (t_sto ra = t_sto rb)) as [E|E].
      - assert (elem h1 rb (bidx (shape rb) j) = elem h rb (bidx (shape rb) j)) as He.
        { destruct (Hw4 rb (bidx (shape rb) j) ltac:(done)) as [B1 B2].
          destruct (decide (Exists (fun i => pos (t_lay rb) (bidx (shape rb) j) = pos (t_lay ra) i) (indices (shape ra)))) as [D|D].
          - apply Exists_exists in D as (i & Hi & Hp). apply elem_of_indices in Hi. rewrite (B1 i Hi Hp).
            assert (part_upd va w done i = va i) as ->.
            { unfold part_upd. rewrite decide_False; [done|]. intros Hd. apply Hdone in Hd as [_ Hd]. by eapply (Hord E i j). }
            destruct Hva as [_ Hva]. destruct (Hva i Hi) as [Hv _]. unfold elem in Hv |- *. rewrite Hp, <- E. done.
          - apply B2. intros i Hi Hp. apply D, Exists_exists. exists i. split; [by apply elem_of_indices|done]. }
        destruct Hvb as [(cs & (bt & Hbs) & Hbl & Hbi & Hbn) Hvb]. destruct (Hvb _ Hinb) as [Hv _]. rewrite <- He in Hv.
        destruct Hw3 as [(cs1 & (bt1 & Hs1) & _) _].
        destruct Hva as [(cs0 & (bt0 & Hs0) & _) _]. rewrite E, Hbs in Hs0. assert (t_dt rb = t_dt ra) as Hdt by congruence. assert (cs0 = cs) as -> by congruence.
        apply elem_lookup in Hv as (cs2 & Hc2 & Hp2 & Hl2). unfold cells in Hc2. rewrite <- E, Hs1 in Hc2. simpl in Hc2. injection Hc2 as ->.
        unfold load_aug. destruct (backed_idx_aug h rb cs j) as [Hi _]; [split; [by exists bt|done]|done|done|].
        unfold idx_aug in *. rewrite bind_lift. change (sizes (t_lay rb)) with (shape rb) in Hi.
        unfold lift in Hi. destruct (cnt_from_aug_index _ _); try done. injection Hi as ->.
        rewrite Hdt. eapply load_ok; [rewrite <- E; exact Hs1|done|done].
      - apply (holds_aug h1 rb vb); [|done|done]. eapply holds_sto; [|done]. by apply Hw2. }
    assert (bidx (shape ra) j = j) as Hbj by (by apply bidx_self).
    unfold binary_body.
    erewrite bind_ok by (apply (holds_aug h1 ra (part_upd va w done)); [done|unfold shape in *; lia|change (sizes (t_lay ra)) with (shape ra); by rewrite Hbj]).
    erewrite bind_ok by exact Hlbv. change (sizes (t_lay ra)) with (shape ra). rewrite Hbj, Hvj.
    destruct Hw3 as [(cs & Hbk) Hel].
    pose proof (add_step_run (t_dt ra) (t_dt rb) (va j) (vb (bidx (shape rb) j))
      ltac:(destruct Hva as [_ Hva]; by apply Hva) ltac:(destruct Hvb as [_ Hvb]; by apply Hvb)) as Hst.
    destruct (backed_idx_aug h1 ra cs j Hbk ltac:(unfold shape in *; lia) ltac:(change (sizes (t_lay ra)) with (shape ra); by rewrite Hbj)) as [Hi _].
    change (sizes (t_lay ra)) with (shape ra) in Hi. rewrite Hbj in Hi.
    fold (e j) in Hst. destruct (e j) as [x|].
    + destruct Hst as (z & Hz & Hcv & Hty). rewrite bind_lift, Hz.
      erewrite bind_ok by done. unfold store_cvt. rewrite bind_lift, Hcv.
      destruct (store_wrote h1 ra (part_upd va w done) j x) as (h2 & E2 & W2); try done; [split; [by exists cs|done]|].
      exists h2. split; [done|]. intros ->. eapply wrote_trans; [done|]. eapply wrote_ext; [|done].
      intros i Hi'. unfold upd, part_upd. destruct (decide (i = j)) as [->|Hne].
      * rewrite decide_True by set_solver. done.
      * destruct (decide (i ∈ done)); [rewrite decide_True by set_solver|rewrite decide_False by set_solver]; done.
    + destruct Hst as [(u & Hz & Hu)|(z & u & Hz & Hcv & Hu)]; rewrite bind_lift, Hz.
      * by exists u, h1.
      * erewrite bind_ok by done. unfold store_cvt. rewrite bind_lift, Hcv. by exists u, h1. }
  assert (forall w l done h1, indices (shape ra) = done ++ l -> wrote h h1 ra (part_upd va w done) ->
    ((forall idx, idx ∈ l -> e idx = Some (w idx)) -> exists h2, mapM_ (binary_body AAdd (t_dt ra) (t_dt ra) (t_dt rb) ra ra rb) l h1 = (Ok tt, h2) /\ wrote h h2 ra (part_upd va w (done ++ l))) /\
    ((forall idx, is_Some (e idx) -> e idx = Some (w idx)) -> Exists (fun idx => e idx = None) l ->
       exists u h2, mapM_ (binary_body AAdd (t_dt ra) (t_dt ra) (t_dt rb) ra ra rb) l h1 = (UB u, h2) /\ step_ub u)) as Hloop.
  { intros w l. induction l as [|j l IH]; intros done h1 Hl Hw.
    - split; [|intros _ H; inversion H]. intros _. exists h1. rewrite app_nil_r. done.
    - pose proof (Hstep done j l h1 w Hl Hw) as Hj. split.
      + intros Hall. rewrite (Hall j ltac:(left)) in Hj. destruct Hj as (h2 & E & W).
        destruct (IH (done ++ [j]) h2) as [IH1 _]; [by rewrite <- app_assoc|by apply W|].
        destruct IH1 as (h3 & E3 & W3); [intros; apply Hall; by right|]. exists h3. rewrite <- app_assoc in W3. split; [|done].
        cbn [mapM_]. by erewrite bind_ok by exact E.
      + intros Hw' Hex. cbn [mapM_]. destruct (e j) as [x|] eqn:Ej.
        * destruct Hj as (h2 & E & W). specialize (Hw' j ltac:(eauto)) as Hx. rewrite Ej in Hx. injection Hx as ->.
          destruct (IH (done ++ [j]) h2) as [_ IH2]; [by rewrite <- app_assoc|by apply W|].
          apply Exists_cons in Hex as [Hex|Hex]; [congruence|]. destruct (IH2 Hw' Hex) as (u & h3 & E3 & Hu).
          exists u, h3. by erewrite bind_ok by exact E.
        * destruct Hj as (u & h2 & E & Hu). exists u, h2. by erewrite bind_ub by exact E. }
  assert (forall w, wrote h h ra (part_upd va w [])) as H0.
  { intros w. eapply wrote_ext; [|by apply wrote_refl]. intros idx _. unfold part_upd. by rewrite decide_False by set_solver. }
  cbn [exec deref]. rewrite !bind_ret. unfold no_result, bind. rewrite Hrun. split.
  - intros w Hw. destruct (Hloop w (indices (shape ra)) [] h eq_refl (H0 w)) as [H1 _].
    destruct H1 as (h2 & -> & W). { intros idx Hi. by apply Hw, elem_of_indices. }
    exists h2. split; [done|]. eapply wrote_ext; [|exact W]. intros idx Hi. unfold part_upd. simpl. rewrite decide_True; [done|]. by apply elem_of_indices.
  - intros (idx & Hi & He). destruct (Hloop (fun idx => default (va idx) (e idx)) (indices (shape ra)) [] h eq_refl (H0 _)) as [_ H2].
    destruct H2 as (u & h2 & -> & Hu); [intros k [x ->]; done| |].
    { apply Exists_exists. exists idx. split; [by apply elem_of_indices|done]. }
    by exists u, h2.
Qed.

(** ** throwing *)
Definition nothrow {A} (m : E A) : Prop := forall h e h', m h <> (Throw e, h').
Lemma nothrow_bind {A B} (m : E A) (k : A -> E B) : nothrow m -> (forall x, nothrow (k x)) -> nothrow (bind m k).
Proof. intros Hm Hk h e h' E. unfold bind in E. destruct (m h) as [[x|e'|u|] h1] eqn:Em; try done; [by eapply Hk|by eapply Hm]. Qed.
Lemma nothrow_load T s p : nothrow (load T s p).
Proof. intros h e h' E. unfold load, bind, get_sto in E. repeat (case_match; simplify_eq; try done). Qed.
Lemma nothrow_store T s p v : nothrow (store T s p v).
Proof. intros h e h' E. unfold store, bind, get_sto in E. repeat (case_match; simplify_eq; try done). Qed.
Lemma nothrow_lift {A} (o : outcome A) : (forall e, o <> Throw e) -> nothrow (lift o).
Proof. intros Ho h e h' E. unfold lift in E. injection E as E _. by eapply Ho. Qed.
Lemma cvt_nothrow S T v e : cvt S T v <> Throw e.
Proof. rewrite cvt_cpp. by destruct (cpp_cvt S T v). Qed.
Lemma nothrow_mapM {A} (f : A -> E unit) l : (forall x, x ∈ l -> nothrow (f x)) -> nothrow (mapM_ f l).
Proof.
  induction l as [|x l IH]; intros Hf; [by intros h e h' [=]|]. cbn [mapM_]. apply nothrow_bind; [apply Hf; left|].
  intros _. apply IH. intros; apply Hf; by right.
Qed.
Lemma nothrow_idx_aug h r cs sv : backed h r cs -> (length (shape r) <= length sv)%nat -> in_range (shape r) (bidx (shape r) sv) -> nothrow (idx_aug r sv).
Proof.
  intros Hb Hl Hi h1 e h' E. destruct (backed_idx_aug h r cs sv Hb Hl Hi) as [Hx _].
  unfold idx_aug, lift in *. injection Hx as Hx. rewrite Hx in E. done.
Qed.
Lemma binop_nothrow o L R a b e : binop o L R a b <> Throw e.
Proof.
  unfold binop. rewrite !cvt_cpp. destruct (cpp_cvt L _ a) as [x|]; [|done]. destruct (cpp_cvt R _ b) as [y|]; [|done]. cbn [obind].
  unfold arith, int_chk. repeat (case_match; try done).
Qed.
Lemma addeq_throw h a b ra rb va vb e h' :
  tensor_at h a ra va -> tensor_at h b rb vb -> compatible (shape ra) (shape rb) -> no_zero_one (shape ra) (shape rb) ->
  exec (OAddEq (Some a) (Some b)) h = (Throw e, h') -> t_rg ra = true /\ h' = h.
Proof.
  intros Ta Tb Hc Hn E. destruct (t_rg ra) eqn:Hrg.
  - split; [done|]. rewrite (addeq_tracked h a b ra rb) in E; [congruence|apply Ta|apply Tb|done].
  - exfalso. cbn [exec deref] in E. rewrite !bind_ret in E. unfold no_result, bind in E.
    rewrite (addeq_run h a b ra rb va vb Ta Tb Hrg Hc Hn) in E.
    destruct (mapM_ _ _ h) as [[x|e'|u|] h1] eqn:Em; try done. revert Em. apply nothrow_mapM. intros sv Hsv.
    apply elem_of_indices in Hsv. destruct Ta as [_ [(csa & Ba) _]], Tb as [_ [(csb & Bb) _]].
    pose proof (in_range_length _ _ Hsv) as Hlen. rewrite bshape_length in Hlen.
    assert (nothrow (idx_aug ra sv)) as Ia by (apply (nothrow_idx_aug h ra csa); [done|lia|by eapply bidx_in_l]).
    assert (nothrow (idx_aug rb sv)) as Ib by (apply (nothrow_idx_aug h rb csb); [done|lia|by eapply bidx_in_r]).
    unfold binary_body, load_aug.
    apply nothrow_bind; [apply nothrow_bind; [done|intros; apply nothrow_load]|intros xa].
    apply nothrow_bind; [apply nothrow_bind; [done|intros; apply nothrow_load]|intros xb].
    apply nothrow_bind; [apply nothrow_lift; intros ?; apply binop_nothrow|intros v]. apply nothrow_bind; [done|intros p].
    unfold store_cvt. apply nothrow_bind; [apply nothrow_lift; intros ?; apply cvt_nothrow|intros; apply nothrow_store].
Qed.
End with_fops.
