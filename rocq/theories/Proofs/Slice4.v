(** operator[] on every text: the readings of Spec/Lenient.v are total and decide the outcome. *)
From Verif.Proofs Require Export Slice3.
From Verif.Spec Require Export Lenient.
From Verif.Model Require Export Impl.

(** ** parts *)
Lemma drop_ws_app a b : drop_ws (a ++ b) = match drop_ws a with [] => drop_ws b | _ => drop_ws a ++ b end.
Proof. induction a as [|c a IH]; [done|]. simpl. by destruct (is_ws c). Qed.
Lemma trim_begins t z rest : begins_int t z rest -> exists rest', begins_int (trim t) z rest'.
Proof.
  intros [pre sign ds Hpre Hds Hdig Hr -> Hz].
  assert (exists d ds', ds = ds' ++ [d] /\ ~ blank d) as (d & ds' & Ed & Hd).
  { destruct ds as [|y ds0 _] using rev_ind; [done|]. exists y, ds0. split; [done|].
    apply Forall_app in Hdig as [_ Hd]. rewrite Forall_singleton in Hd. apply not_blank. by left. }
  assert (exists x core, sign ++ ds = x :: core /\ ~ blank x) as (x & core & Ex & Hx).
  { clear Ed Hd. destruct ds as [|d0 ds0]; [done|]. apply Forall_cons_1 in Hdig as [Hd _].
    destruct Hz as [[-> _]|[[-> | ->] _]]; eexists _, _; (split; [done|]); apply not_blank; auto. }
  destruct (drop_ws_split (rev rest)) as (bl & Hbl & Eb). set (D := drop_ws (rev rest)) in *.
  assert (rest = rev D ++ rev bl) as Er by (rewrite <- rev_app_distr, <- Eb; by rewrite rev_involutive).
  exists (rev D). assert (trim (pre ++ sign ++ ds ++ rest) = sign ++ ds ++ rev D) as ->.
  { unfold trim. rewrite !rev_app_distr, <- !app_assoc, drop_ws_app. fold D.
    assert (drop_ws (rev ds ++ rev sign ++ rev pre) = rev ds ++ rev sign ++ rev pre) as E1.
    { rewrite Ed, rev_app_distr. cbn [rev app]. by rewrite drop_ws_stop. }
    assert ((match D with [] => drop_ws (rev ds ++ rev sign ++ rev pre) | _ => D ++ rev ds ++ rev sign ++ rev pre end) =
      D ++ rev ds ++ rev sign ++ rev pre) as -> by (destruct D; [exact E1|done]).
    rewrite !rev_app_distr, !rev_involutive, <- !app_assoc, drop_ws_blank by done.
    rewrite (app_assoc sign), Ex. cbn [app]. by rewrite drop_ws_stop. }
  apply (Begins _ _ _ [] sign ds); try done. intros (c & Hc & Hdc). apply Hr. exists c. split; [|done].
  rewrite Er. destruct (rev D); [done|]. done.
Qed.
Lemma part_read t y : part_reads t y -> parse (trim t) = match y with inl o => Ok o | inr e => Throw (exn_of e) end.
Proof.
  assert (forall z rest, begins_int t z rest -> trim t <> [] /\ stoll (trim t) = if fits_s64 z then Ok z else Throw OutOfRange) as Hi.
  { intros z rest Hb. destruct (trim_begins _ _ _ Hb) as [rest' Hb']. split; [|by eapply stoll_begins].
    destruct Hb' as [pre sign ds _ Hds _ _ -> _]. destruct pre, sign, ds; done. }
  intros [Hb|z rest Hb Hz|Hn Hb|z rest Hb Hz].
  - by rewrite trim_blank.
  - destruct (Hi _ _ Hb) as [H1 H2]. rewrite (proj1 (in_s64_fits z) Hz) in H2. unfold parse. destruct (trim t); [done|]. by rewrite H2.
  - apply (bad_parse t NoInteger). by left.
  - destruct (Hi _ _ Hb) as [H1 H2]. unfold parse. destruct (trim t); [done|]. rewrite H2.
    destruct (fits_s64 z) eqn:E; [|done]. by apply in_s64_fits in E.
Qed.
Lemma part_read_stoll t y : part_reads t y -> stoll (trim t) = match y with
  | inl (Some z) => Ok z | inl None => Throw InvalidArgument | inr e => Throw (exn_of e) end.
Proof.
  intros H. pose proof (part_read _ _ H) as E. unfold parse in E.
  destruct H as [Hb| | |]; [by rewrite trim_blank|..]; destruct (trim t); try done; simpl in *;
    destruct (stoll _); simpl in *; congruence.
Qed.
Lemma part_total t : exists y, part_reads t y.
Proof.
  destruct (stoll_cases t) as [(z & rest & Hb)|[_ Hn]].
  - destruct (fits_s64 z) eqn:E.
    + exists (inl (Some z)). eapply ReadInt; [done|]. by apply in_s64_fits.
    + exists (inr TooLarge). eapply ReadLarge; [done|]. rewrite in_s64_fits. by rewrite E.
  - destruct (drop_ws t) eqn:E.
    + exists (inl None). apply ReadNothing. by apply drop_ws_nil.
    + exists (inr NoInteger). apply ReadText; [done|]. intros Hb. rewrite (drop_ws_all _ Hb) in E. done.
Qed.

(** concrete texts *)
Lemma text_no_colon t : bool_decide (":"%char ∈ t) = false -> no_colon t.
Proof. by intros H%bool_decide_eq_false_1. Qed.
Lemma read_int t pre sign ds rest z :
  (forallb is_ws pre && negb (bool_decide (ds = [])) &&
   forallb (fun c => Nat.leb 48 (nat_of_ascii c) && Nat.leb (nat_of_ascii c) 57) ds &&
   negb (match rest with c :: _ => Nat.leb 48 (nat_of_ascii c) && Nat.leb (nat_of_ascii c) 57 | [] => false end) &&
   (bool_decide (sign = ["-"%char]) || bool_decide (sign = []) || bool_decide (sign = ["+"%char]))) = true ->
  t = pre ++ sign ++ ds ++ rest ->
  z = (if bool_decide (sign = ["-"%char]) then - dec_value ds else dec_value ds) -> in_s64 z ->
  part_reads t (inl (Some z)).
Proof.
  rewrite !andb_true_iff. intros ((((H1 & H2) & H3) & H4) & H5) -> -> Hz. eapply ReadInt; [|done].
  apply (Begins _ _ rest pre sign ds); [by apply forallb_blank| |idtac| |done|].
  - intros ->. done.
  - apply Forall_forall. intros c Hc. rewrite forallb_forall in H3. specialize (H3 c (proj1 (elem_of_list_In _ _) Hc)).
    unfold digit. apply andb_true_iff in H3 as [Ha Hb]. apply Nat.leb_le in Ha. apply Nat.leb_le in Hb. lia.
  - intros (c & Hc & Hd). destruct rest as [|c' rest]; [done|]. injection Hc as ->. unfold digit in Hd.
    rewrite (proj2 (Nat.leb_le 48 _)), (proj2 (Nat.leb_le _ 57)) in H4 by lia. done.
  - case_bool_decide; [by left|]. right. split; [|done]. simpl in H5. apply orb_true_iff in H5 as [H5|H5].
    + left. by apply bool_decide_eq_true in H5.
    + right. by apply bool_decide_eq_true in H5.
Qed.

(** ** items *)
Lemma lax_parts t tb te ts : lax_range t tb te ts -> exists parts, map trim (ssplit t ":"%char) = parts /\
  (forall p, parts <> [p]) /\ nth 0 parts [] = trim tb /\ nth 1 parts [] = trim te /\ nth 2 parts [] = trim ts.
Proof.
  intros [t' tb' te' ts' H|tb' te' ts' more H1 H2 H3]; [by apply range_parts|].
  eexists. split; [done|]. unfold ssplit.
  assert (forall l, match l ++ ":"%char :: te' ++ ":"%char :: ts' ++ ":"%char :: more with [] => [] | _ => ssplit_go ":"%char (l ++ ":"%char :: te' ++ ":"%char :: ts' ++ ":"%char :: more) [] end =
    ssplit_go ":"%char (l ++ ":"%char :: te' ++ ":"%char :: ts' ++ ":"%char :: more) []) as -> by (by intros []).
  rewrite !ssplit_go_cut by done. done.
Qed.
Lemma lax_total t : no_colon t \/ exists tb te ts, lax_range t tb te ts.
Proof.
  destruct (decide (":"%char ∈ t)) as [H|H]; [right|by left].
  apply elem_of_list_split_l in H as (tb & r & -> & Hb).
  destruct (decide (":"%char ∈ r)) as [H|H]; [|exists tb, r, []; by apply LaxExact, Range2].
  apply elem_of_list_split_l in H as (te & r' & -> & He).
  destruct (decide (":"%char ∈ r')) as [H|H]; [|exists tb, te, r'; by apply LaxExact, Range3].
  apply elem_of_list_split_l in H as (ts & more & -> & Hs). exists tb, te, ts. by apply LaxMore.
Qed.
Lemma item_total n t : exists y, item_reads n t y.
Proof.
  destruct (lax_total t) as [Hc|(tb & te & ts & Ht)].
  - destruct (part_total t) as [[[i|]|e] Hp].
    + destruct (decide (- n <= i < n)); eexists; [eapply ReadAt|eapply ReadOutside]; done.
    + destruct t as [|c t]; eexists; [apply ReadEmpty|apply ReadBlank; done].
    + eexists. by apply ReadBad.
  - destruct (decide (n = 0)) as [E|E]; [eexists; by eapply ReadNoRoom|].
    destruct (part_total ts) as [[s|e] Hs]; [|eexists; by eapply ReadBadStep].
    destruct (decide (s = Some 0)) as [->|Es]; [eexists; by eapply ReadZeroStep|].
    destruct (part_total tb) as [[b|e] Hb]; [|eexists; by eapply ReadBadBegin].
    destruct (decide (0 <= py_start n (py_step s) b < n)) as [Hp|Hp]; [|eexists; by eapply ReadPast].
    destruct (part_total te) as [[e|e] He]; eexists; [by eapply ReadRange|by eapply ReadBadEnd].
Qed.
Lemma item_legal n t x : item_reads n t (inl x) -> legal n x.
Proof. intros H. inversion H; subst; done. Qed.

Lemma fits_dec n st x : Decision (sub_fits n st x).
Proof.
  destruct x as [i|b e s]; simpl; unfold in_s64; [apply _|].
  destruct (decide (0 < sel_len n b e s)) as [H|H]; [|left; by intros].
  destruct (decide (- 2 ^ 63 <= py_step s * st < 2 ^ 63)) as [H1|H1]; [|right; tauto].
  destruct (decide (- 2 ^ 63 <= py_start n (py_step s) b * st < 2 ^ 63)) as [H2|H2]; [|right; tauto].
  destruct (decide (- 2 ^ 63 < py_step s)) as [H3|H3]; [left|right]; tauto.
Defined.
Lemma schk_over z : ~ in_s64 z -> schk z = UB SignedOverflow.
Proof. intros H. unfold schk. destruct (fits_s64 z) eqn:E; [|done]. by apply in_s64_fits in E. Qed.
Lemma start_len n b s : s <> Some 0 -> 0 <= py_start n (py_step s) b < n -> sel_len n b None s <> 0.
Proof.
  intros Hs0 Hst Hz. unfold sel_len, py_len in Hz. simpl py_stop in Hz. destruct (Z.ltb_spec 0 (py_step s)) as [Hp0|Hp0].
  + destruct (Z.ltb_spec (py_start n (py_step s) b) n); [|lia].
    pose proof (Z.div_pos (n - py_start n (py_step s) b - 1) (py_step s)). lia.
  + destruct (Z.ltb_spec (-1) (py_start n (py_step s) b)); [|lia].
    assert (py_step s <> 0) by (destruct s; simpl; [congruence|lia]).
    pose proof (Z.div_pos (py_start n (py_step s) b - -1 - 1) (- py_step s)). lia.
Qed.
Lemma range_core_over n st p0 p1 p2 s b e : 0 < n < two63 ->
  parse p2 = Ok s -> s <> Some 0 -> parse p0 = Ok b -> 0 <= py_start n (py_step s) b < n -> parse p1 = Ok e ->
  ~ sub_fits n st (Range b e s) -> range_core n st p0 p1 p2 = UB SignedOverflow.
Proof.
  intros Hn E2 Hs E0 Hst E1 Hf.
  pose proof (range_core_spec n st p0 p1 p2 Hn) as H. rewrite E2, bool_decide_false, E0, E1 in H by done.
  destruct H as [(Hz & _)|(_ & _ & [H|H])]; [by destruct (start_len n b s Hs Hst)| |done].
  exfalso. apply Hf. intros Hlen. revert H. unfold dim_res.
  assert (sel_len n b e s =? 0 = false) as -> by lia. unfold range_core. assert (n =? 0 = false) as -> by lia.
  rewrite E2. simpl. rewrite bool_decide_false by done. simpl. rewrite E0. simpl.
  assert (py_step s <> 0) as Hstep. { destruct s; simpl; [congruence|lia]. }
  pose proof (beg_of_spec n (py_step s) b Hn Hstep (parse_in_s64 _ _ E0)) as Hb.
  destruct (beg_of n (py_step s) b) as [beg|]; [|exfalso; lia]. destruct Hb as [-> Hb].
  rewrite E1. simpl. destruct (end_of_spec n (py_step s) e Hn Hstep (parse_in_s64 _ _ E1)) as (o & -> & Ho). simpl.
  destruct o as [fin|]; [|intros [= H]; exfalso; unfold sel_len in *; lia].
  destruct (_ || _); [intros [= H]; exfalso; lia|].
  unfold schk. destruct (fits_s64 (fin - _)); simpl; [|done].
  destruct (fits_s64 (Z.abs (fin - _))); simpl; [|done].
  destruct (fits_s64 (Z.abs (py_step s))) eqn:F1; simpl; [|done]. destruct (fits_s64 (py_step s * st)) eqn:F2; simpl; [|done].
  destruct (fits_s64 (py_start n (py_step s) b * st)) eqn:F3; simpl; [|done]. intros _.
  apply in_s64_fits in F1, F2, F3. split; [done|]. split; [done|]. unfold in_s64 in F1. lia.
Qed.

Lemma item_dim n st t y : 0 <= n < two63 -> in_s64 st -> item_reads n t y ->
  slice_dim n st (map trim (ssplit t ":"%char)) = match y with
    | inr e => Throw (exn_of e)
    | inl x => if fits_dec n st x then Ok (dim_res n st x) else UB SignedOverflow
    end.
Proof.
  intros Hn Hst H.
  assert (forall (A : Type) x (a b : A), sub_fits n st x -> (if fits_dec n st x then a else b) = a) as Hyes by (intros; by destruct (fits_dec n st x)).
  assert (forall t' tb te ts, lax_range t' tb te ts -> slice_dim n st (map trim (ssplit t' ":"%char)) = range_core n st (trim tb) (trim te) (trim ts)) as Hr.
  { intros t' tb te ts Ht. destruct (lax_parts _ _ _ _ Ht) as (parts & -> & Hne & <- & <- & <-). by apply slice_dim_range. }
  assert (forall t', no_colon t' -> t' <> [] -> map trim (ssplit t' ":"%char) = [trim t']) as H1.
  { intros t' Hc Hne. by rewrite ssplit_one. }
  destruct H as [|t i Hc Hp Hi|t i Hc Hp Hi|t Hc Hne Hp|t e Hc Hp|t tb te ts Ht Hn0|t tb te ts e Ht Hn0 Hs|t tb te ts Ht Hn0 Hs|t tb te ts s e Ht Hn0 Hs Hs0 Hb|t tb te ts s b Ht Hn0 Hs Hs0 Hb Hp|t tb te ts s b e Ht Hn0 Hs Hs0 Hb Hp He|t tb te ts s b e Ht Hn0 Hs Hs0 Hb Hp He].
  - simpl ssplit. simpl map. assert (sub_fits n st whole) as Hf by (intros _; simpl; rewrite Z.mul_1_l; done || (split; [done|]; split; [|lia]; destruct st; done)).
    rewrite Hyes by done. by apply (range_text_ok n st [] None None None).
  - assert (t <> []) as Hne. { inversion Hp as [|? ? [pre sign ds _ Hds _ _ E _]| |]; subst. destruct pre, sign, ds; done. }
    rewrite H1 by done. cbn [slice_dim]. rewrite (part_read_stoll _ _ Hp). cbn [obind].
    assert (in_s64 i) as Hii by (by inversion Hp).
    rewrite from_end_eq, s64_size by done.
    assert ((0 <=? from_end n i) && (from_end n i <? n) = true) as -> by (unfold from_end; destruct (Z.ltb_spec i 0); lia).
    simpl orun_expect. cbn [obind]. destruct (fits_dec n st (At i)) as [Hf|Hf].
    + by rewrite (schk_ok _ Hf).
    + by rewrite (schk_over _ Hf).
  - assert (t <> []) as Hne. { inversion Hp as [|? ? [pre sign ds _ Hds _ _ E _]| |]; subst. destruct pre, sign, ds; done. }
    rewrite H1 by done. cbn [slice_dim]. rewrite (part_read_stoll _ _ Hp). cbn [obind].
    assert (in_s64 i) as Hii by (by inversion Hp).
    rewrite from_end_eq, s64_size by done.
    assert ((0 <=? from_end n i) && (from_end n i <? n) = false) as -> by (unfold from_end; destruct (Z.ltb_spec i 0); lia).
    done.
  - rewrite H1 by done. cbn [slice_dim]. by rewrite (part_read_stoll _ _ Hp).
  - assert (t <> []) as Hne. { intros ->. inversion Hp as [| |? Hb|? ? [pre sign ds _ Hds _ _ E _]]; subst; [by destruct Hb|]. destruct pre, sign, ds; done. }
    rewrite H1 by done. cbn [slice_dim]. by rewrite (part_read_stoll _ _ Hp).
  - rewrite (Hr _ _ _ _ Ht). subst n. rewrite Hyes by (intros Hl; simpl in Hl; done). done.
  - rewrite (Hr _ _ _ _ Ht). pose proof (range_core_spec n st (trim tb) (trim te) (trim ts) ltac:(lia)) as H.
    by rewrite (part_read _ _ Hs) in H.
  - rewrite (Hr _ _ _ _ Ht). pose proof (range_core_spec n st (trim tb) (trim te) (trim ts) ltac:(lia)) as H.
    rewrite (part_read _ _ Hs) in H. by rewrite bool_decide_true in H.
  - rewrite (Hr _ _ _ _ Ht). pose proof (range_core_spec n st (trim tb) (trim te) (trim ts) ltac:(lia)) as H.
    rewrite (part_read _ _ Hs), bool_decide_false, (part_read _ _ Hb) in H by done. done.
  - rewrite (Hr _ _ _ _ Ht). pose proof (range_core_spec n st (trim tb) (trim te) (trim ts) ltac:(lia)) as H.
    rewrite (part_read _ _ Hs), bool_decide_false, (part_read _ _ Hb) in H by done.
    destruct H as [(Hz & H & _)|[Hp' _]]; [|done]. rewrite H. rewrite Hyes by (intros Hl; lia).
    unfold dim_res. by rewrite Hz.
  - rewrite (Hr _ _ _ _ Ht). pose proof (range_core_spec n st (trim tb) (trim te) (trim ts) ltac:(lia)) as H.
    rewrite (part_read _ _ Hs), bool_decide_false, (part_read _ _ Hb), (part_read _ _ He) in H by done.
    destruct H as [(Hz & _)|[_ H]]; [by destruct (start_len n b s Hs0 Hp)|done].
  - rewrite (Hr _ _ _ _ Ht). destruct (fits_dec n st (Range b e s)) as [Hf|Hf].
    + pose proof (range_core_spec n st (trim tb) (trim te) (trim ts) ltac:(lia)) as H.
      rewrite (part_read _ _ Hs), bool_decide_false, (part_read _ _ Hb), (part_read _ _ He) in H by done.
      destruct H as [(Hz & _)|[_ [H _]]]; [by destruct (start_len n b s Hs0 Hp)|by apply H].
    + eapply range_core_over; try done; [lia| | | ].
      * by rewrite (part_read _ _ Hs).
      * by rewrite (part_read _ _ Hb).
      * by rewrite (part_read _ _ He).
Qed.

(** ** all items *)
Lemma items_total ss : forall sts items, (length ss <= length sts)%nat -> (length items <= length ss)%nat ->
  exists y, items_read ss sts items y.
Proof.
  induction ss as [|n ss IH]; intros sts items Hl Hi.
  - destruct items; [|simpl in Hi; lia]. eexists. apply NoItems.
  - destruct items as [|t items]; [eexists; apply NoItems|]. destruct sts as [|st sts]; [simpl in Hl; lia|]. simpl in Hl, Hi.
    destruct (item_total n t) as [[x|e] Hx]; [|eexists; by apply ItemFails].
    destruct (fits_dec n st x) as [Hf|Hf]; [|eexists; by eapply ItemOverflows].
    destruct (IH sts items ltac:(lia) ltac:(lia)) as [y Hy]. eexists. by apply ItemSelects.
Qed.
Lemma items_length ss sts items xs : items_read ss sts items (Selects xs) -> length xs = length items /\ all_legal ss xs.
Proof.
  remember (Selects xs) as y eqn:E. intros H. revert xs E. induction H as [| | |n ss st sts t ts x y Hx Hf Hy IH]; intros xs E; try done.
  - injection E as <-. by destruct ss.
  - destruct y as [ys| |]; try done. injection E as <-. destruct (IH ys eq_refl) as [H1 H2]. simpl. split; [lia|]. split; [by eapply item_legal|done].
Qed.
Lemma items_dims ss sts items y : items_read ss sts items y ->
  (length ss <= length sts)%nat -> Forall (fun n => 0 <= n < two63) ss -> Forall in_s64 sts -> forall off, 0 <= off < two64 ->
  slice_dims ss sts items off = match y with
    | Selects xs => Ok ((sel_lay ss sts xs).1.1, (sel_lay ss sts xs).1.2, u64 (off + (sel_lay ss sts xs).2))
    | Fails e => Throw (exn_of e)
    | Overflows => UB SignedOverflow
    end.
Proof.
  induction 1 as [ss sts|n ss st sts t ts e He|n ss st sts t ts x Hx Hf|n ss st sts t ts x y Hx Hf Hy IH]; intros Hl Hss Hst off Hoff.
  - apply slice_dims_text; first [done | simpl; lia | by apply Forall2_nil_2 | by destruct ss | by destruct ss, sts].
  - apply Forall_cons_1 in Hss as [Hn Hss]. apply Forall_cons_1 in Hst as [Hs Hst]. cbn [slice_dims]. by rewrite (item_dim n st t _ Hn Hs He).
  - apply Forall_cons_1 in Hss as [Hn Hss]. apply Forall_cons_1 in Hst as [Hs Hst]. cbn [slice_dims]. rewrite (item_dim n st t _ Hn Hs Hx).
    by destruct (fits_dec n st x).
  - apply Forall_cons_1 in Hss as [Hn Hss]. apply Forall_cons_1 in Hst as [Hs Hst]. cbn [slice_dims]. rewrite (item_dim n st t _ Hn Hs Hx).
    destruct (fits_dec n st x) as [_|]; [|done]. cbn [obind]. simpl in Hl.
    rewrite IH by (done || lia || apply u64_range). destruct y as [xs| |]; try done. cbn [obind first_then sel_lay tail fst snd].
    rewrite u64_add_u64, <- Z.add_assoc. destruct (dim_res n st x) as [[[? ?]|] ?]; done.
Qed.

(** ** well-formed texts whose products do not fit *)
Lemma range_text_over n st parts b e s : 0 <= n < two63 -> (forall p, parts <> [p]) ->
  parse (nth 0 parts []) = Ok b -> parse (nth 1 parts []) = Ok e -> parse (nth 2 parts []) = Ok s ->
  s <> Some 0 -> ~ sub_fits n st (Range b e s) -> slice_dim n st parts = UB SignedOverflow.
Proof.
  intros Hn Hp E0 E1 E2 Hs Hf. rewrite slice_dim_range by done.
  assert (forall m, m = 0 -> sel_len n b e s <> m) as Hz. { intros m -> Hz. apply Hf. intros Hl. lia. }
  destruct (decide (n = 0)) as [->|Hn0]; [by destruct (Hz 0); [|apply sel_len_zero]|].
  pose proof (range_core_spec n st (nth 0 parts []) (nth 1 parts []) (nth 2 parts []) ltac:(lia)) as H.
  rewrite E2, bool_decide_false, E0, E1 in H by done.
  destruct H as [(_ & _ & H)|(Hst & _)]; [by destruct (Hz 0)|]. eapply range_core_over; try done; lia.
Qed.
Lemma slice_dim_over n st t x : 0 <= n < two63 -> item_text t x -> legal n x -> ~ sub_fits n st x ->
  slice_dim n st (map trim (ssplit t ":"%char)) = UB SignedOverflow.
Proof.
  intros Hn Ht Hl Hfit. destruct Ht as [s i Hi Hz|tb te b e Hb He|tb te ts b e s Hb He Hs].
  - rewrite ssplit_one; [|by eapply int_nonempty|by apply plain_no; eapply int_plain]. cbn [map slice_dim].
    destruct (int_trim _ _ Hi) as [_ ->]. rewrite (proj1 (in_s64_fits i) Hz). cbn [obind].
    rewrite from_end_eq by done. rewrite s64_size by done. simpl in Hl.
    assert ((0 <=? from_end n i) && (from_end n i <? n) = true) as ->.
    { unfold from_end. destruct (Z.ltb_spec i 0); lia. }
    simpl. by rewrite (schk_over _ Hfit).
  - pose proof (plain_no _ (part_plain _ _ Hb)) as [Hb' _]. pose proof (plain_no _ (part_plain _ _ He)) as [He' _].
    rewrite ssplit_two by done. eapply range_text_over; try done; by apply part_parse.
  - pose proof (plain_no _ (part_plain _ _ Hb)) as [Hb' _]. pose proof (plain_no _ (part_plain _ _ He)) as [He' _].
    pose proof (plain_no _ (part_plain _ _ Hs)) as [Hs' _].
    rewrite ssplit_three by done. eapply range_text_over; try done; by apply part_parse.
Qed.
Lemma slice_dims_over ss : forall sts each xs off,
  (length ss <= length sts)%nat -> Forall (fun n => 0 <= n < two63) ss ->
  Forall2 item_text each xs -> all_legal ss xs -> ~ subs_fit ss sts xs ->
  slice_dims ss sts each off = UB SignedOverflow.
Proof.
  induction ss as [|n ss IH]; intros sts each xs off Hls Hss He Hleg Hfit; [done|].
  destruct sts as [|st sts]; [simpl in Hls; lia|]. apply Forall_cons_1 in Hss as [Hn Hss]. simpl in Hls.
  destruct xs as [|x xs]; [done|]. apply Forall2_cons_inv_r in He as (e & each' & He1 & He & ->). cbn [slice_dims].
  destruct Hleg as [Hl1 Hleg]. simpl in Hfit. destruct (fits_dec n st x) as [Hf|Hf].
  - rewrite (slice_dim_text n st e x) by done. cbn [obind]. by rewrite (IH sts each' xs) by (try tauto; lia).
  - by rewrite (slice_dim_over n st e x).
Qed.

(** every text is a list of items *)
Lemma text_items s : exists items, Forall (fun i => ","%char ∉ i) items /\ s = commas items /\ (s <> [] -> items <> []).
Proof.
  induction s as [|c s (items & Hit & -> & Hne)].
  - exists []. done.
  - destruct (decide (c = ","%char)) as [->|Hc].
    + destruct items as [|i items].
      * exists [[]; []]. split; [|done]. repeat constructor; set_solver.
      * exists ([] :: i :: items). split; [|done]. constructor; [set_solver|done].
    + destruct items as [|i items].
      * exists [[c]]. split; [|done]. constructor; [set_solver|done].
      * exists ((c :: i) :: items). split; [|split; [|done]].
        -- apply Forall_cons_1 in Hit as [H1 H2]. constructor; [set_solver|done].
        -- by destruct items.
Qed.

Section with_fops.
Context {fo : FOps}.
Lemma slice_reads h t r cs items y : reachable h -> h_ten h !! t = Some r -> backed h r cs ->
  Forall in_s64 (strides (t_lay r)) -> Forall (fun n => n < two63) (shape r) ->
  Forall (fun s => ","%char ∉ s) items -> commas items <> [] ->
  items_read (shape r) (strides (t_lay r)) items y -> (length items <= length (shape r))%nat ->
  match y with
  | Selects xs => exists t' h', exec (OSlice (Some t) (commas items)) h = (Ok (RHandle (Some t')), h') /\
      new_view h h' r t' (out_shape (shape r) xs) (src_index (shape r) xs) (t_rg r)
  | Fails e => exec (OSlice (Some t) (commas items)) h = (Throw (exn_of e), h)
  | Overflows => exec (OSlice (Some t) (commas items)) h = (UB SignedOverflow, h)
  end.
Proof.
  intros Hr Ht (Hb & Hok & Hin & Hn) Hst Hsz Hc Hne Hrd Hlen. unfold shape in *.
  assert (slice_layout (t_lay r) (commas items) = match y with
    | Selects xs => Ok (sel_layout (t_lay r) xs) | Fails e => Throw (exn_of e) | Overflows => UB SignedOverflow end) as El.
  { destruct Hok as (Hl & Hs & Ho). unfold slice_layout. rewrite ssplit_items by done.
    assert (Nat.leb (length items) (length (sizes (t_lay r))) = true) as -> by (by apply Nat.leb_le). cbn [orun_expect obind].
    rewrite (items_dims _ _ _ _ Hrd); try done; [by destruct y|].
    rewrite Forall_forall in Hs, Hsz |- *. intros m Hm. specialize (Hs m Hm). specialize (Hsz m Hm). simpl in *. lia. }
  destruct y as [xs|e|].
  - destruct (items_length _ _ _ _ Hrd) as [_ Hleg]. destruct (sel_layout_ok _ _ Hok Hleg) as [Hok' Es].
    destruct (view_op_new (OSlice (Some t) (commas items)) h t r (sel_layout (t_lay r) xs) (src_index (sizes (t_lay r)) xs)) as (t' & h' & r' & E & Hv & _); try done.
    + intros g Hg. by eapply (reachable_grads_exist h).
    + by apply exec_slice.
    + intros idx Hi. rewrite Es in Hi. eapply sel_layout_pos; try done. unfold two63, two64 in *. lia.
    + exists t', h'. split; [done|]. by rewrite <- Es.
  - by eapply exec_slice_throw.
  - cbn [exec]. rewrite un_some, !new_handle_eq. unfold op_slice. erewrite bind_ok by (by apply get_ten_ok).
    rewrite bind_lift. by rewrite El.
Qed.
Lemma slice_over h t r s xs : h_ten h !! t = Some r -> lay_ok (t_lay r) -> Forall (fun n => n < two63) (shape r) ->
  subs_text s xs -> all_legal (shape r) xs -> ~ subs_fit (shape r) (strides (t_lay r)) xs ->
  exec (OSlice (Some t) s) h = (UB SignedOverflow, h).
Proof.
  intros Ht (Hl & Hs & Ho) Hsz (items & Hit & ->) Hleg Hfit. unfold shape in *.
  assert (slice_layout (t_lay r) (commas items) = UB SignedOverflow) as El.
  { unfold slice_layout. assert (length xs <= length (sizes (t_lay r)))%nat as Hlx.
    { clear -Hleg. revert Hleg. generalize (sizes (t_lay r)). induction xs as [|x xs IH]; intros [|n ss] H; simpl in *; try lia; try done.
      destruct H as [_ H]. apply IH in H. lia. }
    rewrite ssplit_commas.
    2:{ clear -Hit. induction Hit; constructor; [by eapply item_ok|done]. }
    pose proof (Forall2_length _ _ _ Hit) as Hlen.
    assert (Nat.leb (length items) (length (sizes (t_lay r))) = true) as -> by (apply Nat.leb_le; lia). cbn [orun_expect obind].
    rewrite (slice_dims_over _ _ _ xs); try done.
    rewrite Forall_forall in Hs, Hsz |- *. intros n Hn. specialize (Hs n Hn). specialize (Hsz n Hn). simpl in *. lia. }
  cbn [exec]. rewrite un_some, !new_handle_eq. unfold op_slice. erewrite bind_ok by (by apply get_ten_ok).
  rewrite bind_lift. by rewrite El.
Qed.
Lemma slice_total r items : lay_ok (t_lay r) -> (length items <= length (shape r))%nat ->
  exists y, items_read (shape r) (strides (t_lay r)) items y.
Proof. intros (Hl & _) Hi. by apply items_total. Qed.
End with_fops.
