(** Subscripts that fit, and subscripts that are rejected. *)
From Verif.Proofs Require Export Slice.

(** ** products with the strides of a tensor in its buffer are representable *)
Lemma subs_fit_in ss : forall sts xs off N, (length ss <= length sts)%nat ->
  Forall (fun n => 0 < n < 2 ^ 63) ss -> Forall (fun s => - 2 ^ 63 < s < 2 ^ 63) sts ->
  (forall idx, in_range ss idx -> 0 <= off + dot sts idx < N) -> N <= 2 ^ 63 ->
  all_legal ss xs -> small_steps ss xs -> subs_fit ss sts xs.
Proof.
  induction ss as [|n ss IH]; intros sts xs off N Hl Hpos Hst Hin HN Hleg Hsm; [done|].
  destruct sts as [|st sts]; [done|]. destruct xs as [|x xs]; [done|]. simpl in Hl.
  apply Forall_cons_1 in Hpos as [Hn Hpos]. apply Forall_cons_1 in Hst as [Hs Hst]. destruct Hleg as [Hx Hleg].
  assert (forall i, 0 <= i < n -> - 2 ^ 63 < st * i < 2 ^ 63) as Hi.
  { intros i Hi. assert (in_range (n :: ss) (i :: map (fun _ => 0) ss)) as H1 by (apply Forall2_cons_2; [lia|eapply in_range_zeros, Forall_impl; [exact Hpos|simpl; lia]]).
    assert (in_range (n :: ss) (0 :: map (fun _ => 0) ss)) as H2 by (apply Forall2_cons_2; [lia|eapply in_range_zeros, Forall_impl; [exact Hpos|simpl; lia]]).
    apply Hin in H1. apply Hin in H2. simpl in H1, H2. rewrite dot_zeros in H1, H2. lia. }
  assert (forall idx, in_range ss idx -> 0 <= off + dot sts idx < N) as Hin'.
  { intros idx H. assert (in_range (n :: ss) (0 :: idx)) as H1 by (apply Forall2_cons_2; [lia|done]).
    apply Hin in H1. simpl in H1. lia. }
  simpl. destruct x as [i|b e s]; cbn [small_steps legal sub_fits] in *.
  - split; [|apply (IH sts xs off N); [lia|done..]]. assert (0 <= from_end n i < n) as Hr by (unfold from_end; destruct (Z.ltb_spec i 0); lia).
    specialize (Hi _ Hr). unfold in_s64. lia.
  - destruct Hsm as [Hsm1 Hsm]. split; [|apply (IH sts xs off N); [lia|done..]]. intros Hlen. unfold in_s64.
    pose proof (sel_at_range n b e s 0 ltac:(lia) Hx ltac:(lia)) as Hs0. unfold sel_at in Hs0.
    rewrite Z.mul_0_l, Z.add_0_r in Hs0. pose proof (Hi _ Hs0). split; [|split; [lia|]].
    + destruct Hsm1 as [E|E].
      * assert (py_step s = 1 \/ py_step s = -1) as [-> | ->] by lia; lia.
      * specialize (Hi (Z.abs (py_step s)) ltac:(lia)). lia.
    + lia.
Qed.

Section with_fops.
Context {fo : FOps}.

Lemma subs_fit_backed h r cs xs : backed h r cs -> Forall (fun n => 0 < n < 2 ^ 63) (shape r) ->
  Forall (fun s => - 2 ^ 63 < s < 2 ^ 63) (strides (t_lay r)) ->
  all_legal (shape r) xs -> small_steps (shape r) xs -> subs_fit (shape r) (strides (t_lay r)) xs.
Proof.
  intros (Hb & Hok & Hin & Hn) Hpos Hst Hleg Hsm. unfold shape in *.
  apply (subs_fit_in _ _ _ (offset (t_lay r)) (Z.of_nat (length cs))); try done; [by destruct Hok|unfold two63 in Hn; lia].
Qed.

(** ** rejected subscripts *)

Lemma ssplit_items items : commas items <> [] -> Forall (fun s => ","%char ∉ s) items ->
  ssplit (commas items) ","%char = items.
Proof.
  intros Hne Hall. assert (ssplit_go ","%char (commas items) [] = items) as E.
  { destruct items as [|s items]; [done|clear Hne].
    revert s Hall. induction items as [|s' items IH]; intros s Hall; apply Forall_cons_1 in Hall as [Hs Hall].
    - simpl. by rewrite ssplit_go_end.
    - change (commas (s :: s' :: items)) with (s ++ ","%char :: commas (s' :: items)).
      rewrite ssplit_go_cut by done. simpl rev. simpl app. by rewrite IH. }
  unfold ssplit. destruct (commas items); [done|]. done.
Qed.

Lemma bad_parse t e : bad_part t e -> parse (trim t) = Throw (exn_of e).
Proof.
  unfold parse. intros [(-> & Hi & Hb)|(-> & z & Hz & Hn)].
  - pose proof (stoll_trim_bad _ Hi) as E. destruct (trim t) eqn:Et; [|by rewrite E].
    exfalso. apply Hb. destruct (trim_split t) as (a & b & Ha & Hbb & Es). rewrite Es, Et. simpl. by apply Forall_app.
  - destruct (int_trim _ _ Hz) as [H1 H2]. destruct (trim t); [done|]. rewrite H2.
    destruct (fits_s64 z) eqn:E; [|done]. by apply in_s64_fits in E.
Qed.
Lemma no_int_blank t : Forall blank t -> no_int t.
Proof.
  intros Hb (z & rest & [pre sign ds Hpre Hds Hdig Hr -> Hz]). rewrite !Forall_app in Hb. destruct Hb as (_ & _ & Hb & _).
  destruct ds as [|c ds]; [done|]. apply Forall_cons_1 in Hb as [Hb _]. apply Forall_cons_1 in Hdig as [Hd _].
  apply (not_blank c); auto.
Qed.
Lemma range_parts t tb te ts : range_text t tb te ts -> exists parts, map trim (ssplit t ":"%char) = parts /\
  (forall p, parts <> [p]) /\ nth 0 parts [] = trim tb /\ nth 1 parts [] = trim te /\ nth 2 parts [] = trim ts.
Proof.
  intros [tb' te' H1 H2|tb' te' ts' H1 H2 H3].
  - rewrite ssplit_two by done. eexists. split; [done|]. done.
  - rewrite ssplit_three by done. eexists. split; [done|]. done.
Qed.

Lemma bad_item_dim n st t e : 0 <= n < two63 -> bad_item n t e ->
  slice_dim n st (map trim (ssplit t ":"%char)) = Throw (exn_of e).
Proof.
  intros Hn Hbad.
  assert (forall t' i, int_text t' i -> map trim (ssplit t' ":"%char) = [trim t']) as Hint.
  { intros t' i Hi. rewrite ssplit_one; [done|by eapply int_nonempty|by apply plain_no; eapply int_plain]. }
  assert (forall t' s, part_text t' s -> parse (trim t') = Ok s) as Hp by apply part_parse.
  destruct Hbad as [t i Hi Hz Hr|t Hc Hne Hi|t i Hi Hz|t tb te ts Ht Hn0 Hs|t tb te ts e Ht Hn0 Hs|t tb te ts s e Ht Hn0 Hs Hs0 Hb|t tb te ts b s e Ht Hn0 Hs Hs0 Hb Hst He].
  - rewrite (Hint t i Hi). destruct (int_trim _ _ Hi) as [_ E]. rewrite (proj1 (in_s64_fits i) Hz) in E.
    cbn [slice_dim]. rewrite E. cbn [obind].
    rewrite (s64_size n), (from_end_eq n i) by done. unfold from_end.
    assert ((0 <=? (if i <? 0 then i + n else i)) && ((if i <? 0 then i + n else i) <? n) = false) as ->; [|done].
    destruct (Z.ltb_spec i 0); lia.
  - rewrite ssplit_one by done. cbn [map slice_dim]. by rewrite (stoll_trim_bad t).
  - rewrite (Hint t i Hi). destruct (int_trim _ _ Hi) as [_ E].
    destruct (fits_s64 i) eqn:Ef; [by apply in_s64_fits in Ef|]. cbn [slice_dim]. by rewrite E.
  - destruct (range_parts _ _ _ _ Ht) as (parts & -> & Hne & E0 & E1 & E2). rewrite slice_dim_range by done. rewrite E0, E1, E2.
    pose proof (range_core_spec n st (trim tb) (trim te) (trim ts) ltac:(lia)) as H.
    rewrite (Hp ts (Some 0)) in H by (split; [done|done]). by rewrite bool_decide_true in H.
  - destruct (range_parts _ _ _ _ Ht) as (parts & -> & Hne & E0 & E1 & E2). rewrite slice_dim_range by done. rewrite E0, E1, E2.
    pose proof (range_core_spec n st (trim tb) (trim te) (trim ts) ltac:(lia)) as H. by rewrite (bad_parse ts e Hs) in H.
  - destruct (range_parts _ _ _ _ Ht) as (parts & -> & Hne & E0 & E1 & E2). rewrite slice_dim_range by done. rewrite E0, E1, E2.
    pose proof (range_core_spec n st (trim tb) (trim te) (trim ts) ltac:(lia)) as H.
    rewrite (Hp ts s Hs), bool_decide_false, (bad_parse tb e Hb) in H by done. done.
  - destruct (range_parts _ _ _ _ Ht) as (parts & -> & Hne & E0 & E1 & E2). rewrite slice_dim_range by done. rewrite E0, E1, E2.
    pose proof (range_core_spec n st (trim tb) (trim te) (trim ts) ltac:(lia)) as H.
    rewrite (Hp ts s Hs), bool_decide_false, (Hp tb b Hb) in H by done.
    rewrite (bad_parse te e He) in H. destruct H as [[Hz _]|[_ H]]; [|done].
    exfalso. unfold sel_len, py_len in Hz. simpl py_stop in Hz. destruct (Z.ltb_spec 0 (py_step s)) as [Hp0|Hp0].
    + destruct (Z.ltb_spec (py_start n (py_step s) b) n); [|lia].
      pose proof (Z.div_pos (n - py_start n (py_step s) b - 1) (py_step s)). lia.
    + destruct (Z.ltb_spec (-1) (py_start n (py_step s) b)); [|lia].
      assert (py_step s <> 0) by (destruct s; simpl; [congruence|lia]).
      pose proof (Z.div_pos (py_start n (py_step s) b - -1 - 1) (- py_step s)). lia.
Qed.

Lemma bad_item_dims pre : forall ss sts xs t rest off e n,
  (length ss <= length sts)%nat -> Forall (fun n => 0 <= n < two63) ss ->
  Forall2 item_text pre xs -> all_legal ss xs -> subs_fit ss sts xs ->
  ss !! length pre = Some n -> bad_item n t e ->
  slice_dims ss sts (pre ++ t :: rest) off = Throw (exn_of e).
Proof.
  induction pre as [|p pre IH]; intros ss sts xs t rest off e n Hl Hs Hit Hleg Hfit Hk Hbad.
  - destruct ss as [|m ss]; [done|]. destruct sts as [|st sts]; [simpl in Hl; lia|]. injection Hk as <-.
    apply Forall_cons_1 in Hs as [Hm Hs]. cbn [app slice_dims]. by rewrite (bad_item_dim m st t e).
  - apply Forall2_cons_inv_l in Hit as (x & xs' & Hx & Hit & ->). destruct ss as [|m ss]; [done|].
    destruct sts as [|st sts]; [simpl in Hl; lia|]. simpl in Hl. apply Forall_cons_1 in Hs as [Hm Hs].
    destruct Hleg as [Hlx Hleg]. destruct Hfit as [Hfx Hfit]. cbn [app slice_dims].
    rewrite (slice_dim_text m st p x) by done. cbn [obind]. by rewrite (IH ss sts xs' t rest _ e n) by (try done; lia).
Qed.

Lemma exec_slice_throw h t r s e : h_ten h !! t = Some r -> slice_layout (t_lay r) s = Throw e ->
  exec (OSlice (Some t) s) h = (Throw e, h).
Proof.
  intros Ht E. cbn [exec]. rewrite un_some, !new_handle_eq. unfold op_slice. erewrite bind_ok by (by apply get_ten_ok).
  rewrite bind_lift. by rewrite E.
Qed.

Lemma slice_too_many h t r items : h_ten h !! t = Some r -> Forall (fun s => ","%char ∉ s) items ->
  commas items <> [] -> (length (shape r) < length items)%nat ->
  exec (OSlice (Some t) (commas items)) h = (Throw RuntimeError, h).
Proof.
  intros Ht Hc Hne Hlen. eapply exec_slice_throw; [done|]. unfold slice_layout. rewrite ssplit_items by done.
  assert (Nat.leb (length items) (length (sizes (t_lay r))) = false) as -> by (apply Nat.leb_gt; done). done.
Qed.
Lemma bad_nonempty n t e : bad_item n t e -> t <> [].
Proof.
  assert (forall t tb te ts, range_text t tb te ts -> t <> []) as H.
  { intros ? ? ? ? []; by destruct tb0. }
  intros [? ? Hi| | ? ? Hi| | | |]; try done; try (by eapply int_nonempty); by eapply H.
Qed.
Lemma slice_bad_item h t r pre xs bad rest e n : h_ten h !! t = Some r ->
  lay_ok (t_lay r) -> Forall (fun n => n < two63) (shape r) ->
  Forall2 item_text pre xs -> all_legal (shape r) xs -> subs_fit (shape r) (strides (t_lay r)) xs ->
  shape r !! length pre = Some n -> bad_item n bad e ->
  Forall (fun s => ","%char ∉ s) (bad :: rest) -> (length (pre ++ bad :: rest) <= length (shape r))%nat ->
  exec (OSlice (Some t) (commas (pre ++ bad :: rest))) h = (Throw (exn_of e), h).
Proof.
  intros Ht (Hl & Hs & Ho) Hsz Hit Hleg Hfit Hk Hbad Hc Hlen. eapply exec_slice_throw; [done|].
  unfold slice_layout. rewrite ssplit_items.
  - assert (Nat.leb (length (pre ++ bad :: rest)) (length (sizes (t_lay r))) = true) as -> by (apply Nat.leb_le; done).
    cbn [orun_expect obind]. rewrite (bad_item_dims pre _ _ xs bad rest _ e n); try done.
    rewrite Forall_forall in Hs, Hsz |- *. intros m Hm. specialize (Hs m Hm). specialize (Hsz m Hm). simpl in *. lia.
  - destruct Hit as [|p x pre xs Hp Hit].
    + pose proof (bad_nonempty _ _ _ Hbad). destruct rest; simpl; [done|]. by destruct bad.
    + apply item_ok in Hp as [Hp _]. simpl. destruct (pre ++ bad :: rest) eqn:E; [by destruct pre|]. by destruct p.
  - apply Forall_app. split; [|done]. clear -Hit. induction Hit as [|p x pre xs Hp Hit IH]; constructor; [by eapply item_ok|done].
Qed.
End with_fops.
