(** to_string() *)
From Verif.Proofs Require Export Api1 Samples.
From Verif.Spec Require Export Text.
From Verif.Model Require Export Api.

(** ** reading the text back *)
Definition sep (c : ascii) : Prop := c = ","%char \/ c = "]"%char.
Fixpoint no_sep (s : string) : Prop := match s with "" => True | String c s' => ~ sep c /\ no_sep s' end.
Definition stops (s : string) : Prop := match s with "" => True | String c _ => sep c end.
Lemma split_sep s : forall s' r r', no_sep s -> no_sep s' -> stops r -> stops r' -> s +:+ r = s' +:+ r' -> s = s' /\ r = r'.
Proof.
  induction s as [|c s IH]; intros [|c' s'] r r' H H' Hr Hr' E; cbn in *.
  - done.
  - change (r = String c' (s' +:+ r')) in E. rewrite E in Hr. by destruct H'.
  - change (String c (s +:+ r) = r') in E. rewrite <- E in Hr'. by destruct H.
  - injection E as -> E. destruct (IH s' r r') as [-> ->]; naive_solver.
Qed.
Lemma app_assoc_s (a b c : string) : (a +:+ b) +:+ c = a +:+ (b +:+ c).
Proof. induction a as [|x a IH]; [done|]. change (String x ((a +:+ b) +:+ c) = String x (a +:+ (b +:+ c))). by rewrite IH. Qed.
Lemma concat_inj (F G : Z -> string) l : (forall i, i ∈ l -> forall r r', stops r -> stops r' -> F i +:+ r = G i +:+ r' -> F i = G i /\ r = r') ->
  forall r r', String.concat ", " (map F l) +:+ String "]" r = String.concat ", " (map G l) +:+ String "]" r' ->
  (forall i, i ∈ l -> F i = G i) /\ r = r'.
Proof.
  induction l as [|i l IH]; intros H r r' E.
  - cbn in E. split; [by intros i ?%elem_of_nil|]. by injection E.
  - destruct l as [|j l].
    + cbn [map String.concat] in E. destruct (H i ltac:(left) (String "]" r) (String "]" r') (or_intror eq_refl) (or_intror eq_refl) E) as [E1 E2]. split; [|by injection E2].
      by intros k ->%elem_of_list_singleton.
    + change (String.concat ", " (map F (i :: j :: l))) with (F i +:+ (", " +:+ String.concat ", " (map F (j :: l)))) in E.
      change (String.concat ", " (map G (i :: j :: l))) with (G i +:+ (", " +:+ String.concat ", " (map G (j :: l)))) in E.
      rewrite !app_assoc_s in E. apply (H i ltac:(left)) in E as [E1 E2]; [|by left..].
      injection E2 as E2. apply IH in E2 as [E3 E4]; [|intros k Hk; apply H; by right]. split; [|done].
      intros k [->|Hk]%elem_of_cons; [done|by apply E3].
Qed.
Lemma brackets_inj ss : forall f g r r', (forall idx, in_range ss idx -> no_sep (f idx) /\ no_sep (g idx)) -> stops r -> stops r' ->
  brackets ss f +:+ r = brackets ss g +:+ r' -> (brackets ss f = brackets ss g /\ forall idx, in_range ss idx -> f idx = g idx) /\ r = r'.
Proof.
  induction ss as [|n ss IH]; intros f g r r' Hn Hr Hr' E; cbn [brackets] in *.
  - destruct (Hn [] ltac:(constructor)). destruct (split_sep _ _ r r' H H0 Hr Hr' E) as [E1 E2]. split; [|done]. split; [done|]. by intros idx ->%in_range_nil_inv.
  - rewrite !app_assoc_s in E. injection E as E. change ("]" +:+ r) with (String "]" r) in E. change ("]" +:+ r') with (String "]" r') in E.
    assert (forall i, i ∈ seqZ 0 n -> forall r r', stops r -> stops r' ->
      brackets ss (fun idx => f (i :: idx)) +:+ r = brackets ss (fun idx => g (i :: idx)) +:+ r' ->
      (brackets ss (fun idx => f (i :: idx)) = brackets ss (fun idx => g (i :: idx)) /\ forall idx, in_range ss idx -> f (i :: idx) = g (i :: idx)) /\ r = r') as K.
    { intros i Hi r0 r0' H1 H2 E0. apply IH; try done. intros idx Hidx. apply Hn. constructor; [|done]. apply elem_of_seqZ in Hi. lia. }
    destruct (concat_inj (fun i => brackets ss (fun idx => f (i :: idx))) (fun i => brackets ss (fun idx => g (i :: idx))) (seqZ 0 n)) with (r := r) (r' := r') as [E1 E2]; [|done|].
    { intros i Hi r0 r0' H1 H2 E0. destruct (K i Hi r0 r0' H1 H2 E0) as [[? _] ?]. done. }
    split; [|done]. split.
    + do 2 f_equal. f_equal. apply map_ext_in. intros i Hi%elem_of_list_In. by apply E1.
    + intros idx Hidx. destruct idx as [|i idx]; [by apply Forall2_cons_nil_inv in Hidx|]. apply Forall2_cons in Hidx as [Hi Hidx].
      assert (i ∈ seqZ 0 n) as Hi' by (apply elem_of_seqZ; lia).
      destruct (K i Hi' "" "" I I) as [[_ E3] _]; [by rewrite (E1 i Hi')|]. by apply E3.
Qed.
Lemma brackets_ext ss : forall f g, (forall idx, f idx = g idx) -> brackets ss f = brackets ss g.
Proof.
  induction ss as [|n ss IH]; intros f g E; cbn [brackets]; [apply E|]. do 3 f_equal. apply map_ext. intros i. apply IH. intros idx. apply E.
Qed.
Lemma char_no_sep x : ~ sep (pretty_N_char x).
Proof. unfold pretty_N_char, sep. repeat case_match; intros [E|E]; discriminate E. Qed.
Lemma pretty_no_sep_go x : forall s, no_sep s -> no_sep (pretty_N_go x s).
Proof.
  induction (N.lt_wf_0 x) as [x _ IH]. intros s Hs. assert (x = 0 \/ 0 < x)%N as [->|Hx] by lia; [by rewrite pretty_N_go_0|].
  rewrite pretty_N_go_step by done. apply IH; [apply N.div_lt; lia|]. split; [apply char_no_sep|done].
Qed.
Lemma pretty_no_sep (z : Z) : no_sep (pretty z).
Proof.
  assert (forall p : positive, no_sep (pretty p)) as Hp. { intros p. unfold pretty, pretty_positive, pretty, pretty_N. rewrite decide_False by done. by apply pretty_no_sep_go. }
  destruct z as [|p|p]; [|apply Hp|].
  - cbn. split; [|done]. intros [E|E]; discriminate E.
  - cbn. split; [|apply Hp]. intros [E|E]; discriminate E.
Qed.

Section with_fops.
Context {fo : FOps}.
Lemma join_concat l : join_strs l = String.concat ", " l.
Proof. induction l as [|s [|s' l] IH]; [done..|]. cbn [join_strs String.concat] in *. by rewrite IH. Qed.
Lemma collect_ok {A} (l : list Z) (f : Z -> E A) (g : Z -> A) h : (forall i, i ∈ l -> f i h = (Ok (g i), h)) -> collect l f h = (Ok (map g l), h).
Proof.
  induction l as [|i l IH]; intros H; cbn [collect map]; [done|]. erewrite bind_ok by (apply H; left). erewrite bind_ok by (apply IH; intros; apply H; by right). done.
Qed.
Lemma to_string_ok h r v cs : holds h r v -> cells h (t_sto r) = Some cs -> size_of (t_dt r) * Z.of_nat (length cs) < two63 ->
  forall ss sts off pre, (length ss <= length sts)%nat ->
  (forall idx, in_range ss idx -> in_range (sizes (t_lay r)) (pre ++ idx) /\ pos (t_lay r) (pre ++ idx) * size_of (t_dt r) = off + dot sts idx * size_of (t_dt r)) ->
  to_string_helper (t_dt r) (t_sto r) ss sts (s64 off) h = (Ok (brackets ss (fun idx => val_str (v (pre ++ idx)))), h).
Proof.
  intros Hh Hc Hsz. assert (0 < size_of (t_dt r)) as Hpos by (by destruct (t_dt r)).
  assert (forall idx, in_range (sizes (t_lay r)) idx -> 0 <= pos (t_lay r) idx < Z.of_nat (length cs)) as Hin.
  { destruct Hh as [(cs' & Hb) _]. rewrite (backed_cells _ _ _ Hb) in Hc. injection Hc as ->. apply Hb. }
  induction ss as [|n ss IH]; intros sts off pre Hl Hp; cbn [to_string_helper brackets].
  - destruct (Hp [] ltac:(constructor)) as [Hi Ep]. rewrite app_nil_r in *. replace (off + dot sts [] * size_of (t_dt r)) with off in Ep by (destruct sts; cbn; lia).
    specialize (Hin _ Hi). rewrite s64_id by (rewrite <- Ep; unfold two63 in *; nia). unfold load_byte_off. rewrite <- Ep, Z_mod_mult, Z.div_mul by lia. cbn [Z.eqb].
    erewrite bind_ok by (by apply holds_load). done.
  - destruct sts as [|st sts]; [cbn in Hl; lia|].
    erewrite bind_ok.
    2:{ apply (collect_ok _ _ (fun i => brackets ss (fun idx => val_str (v (pre ++ i :: idx))))). intros i Hi%elem_of_seqZ.
        assert (s64 (u64 (s64 off + i * st * size_of (t_dt r))) = s64 (off + i * st * size_of (t_dt r))) as ->.
        { rewrite <- (s64_u64 (off + _)). f_equal. unfold u64. rewrite <- Zplus_mod_idemp_l, s64_mod, Zplus_mod_idemp_l. done. }
        rewrite (IH sts (off + i * st * size_of (t_dt r)) (pre ++ [i])).
        - do 2 f_equal. clear. assert (forall idx, (pre ++ [i]) ++ idx = pre ++ i :: idx) as E by (intros; by rewrite <- app_assoc).
          revert E. generalize (pre ++ [i]). intros p E. apply brackets_ext. intros idx. by rewrite E.
        - cbn in Hl. lia.
        - intros idx Hidx. destruct (Hp (i :: idx)) as [H1 H2]; [constructor; [lia|done]|]. rewrite <- app_assoc. split; [done|]. cbn [app]. rewrite H2. cbn [dot]. ring. }
    by rewrite join_concat.
Qed.
Lemma to_string_holds h t r v : tensor_at h t r v ->
  (forall cs, cells h (t_sto r) = Some cs -> size_of (t_dt r) * Z.of_nat (length cs) < two63) ->
  exec (QToString (Some t)) h = (Ok (RString (brackets (shape r) (fun idx => val_str (v idx)))), h).
Proof.
  intros [Ht Hh] Hsz. pose proof Hh as [(cs & Hb) _]. pose proof (backed_cells _ _ _ Hb) as Hc. cbn [exec]. unfold impl_to_string. rewrite bind_assoc.
  erewrite bind_ok by (by apply get_ten_ok). rewrite s64_u64.
  erewrite bind_ok; [done|]. apply (to_string_ok h r v cs Hh Hc (Hsz cs Hc) _ _ _ []).
  - apply Hb.
  - intros idx Hi. split; [done|]. cbn [app]. unfold pos. ring.
Qed.
Lemma text_inj h t r v h' t' r' v' s s' : tensor_at h t r v -> tensor_at h' t' r' v' ->
  (forall cs, cells h (t_sto r) = Some cs -> size_of (t_dt r) * Z.of_nat (length cs) < two63) ->
  (forall cs, cells h' (t_sto r') = Some cs -> size_of (t_dt r') * Z.of_nat (length cs) < two63) ->
  is_int (t_dt r) = true -> is_int (t_dt r') = true -> shape r = shape r' ->
  exec (QToString (Some t)) h = (Ok (RString s), h) -> exec (QToString (Some t')) h' = (Ok (RString s'), h') -> s = s' ->
  forall idx, in_range (shape r) idx -> v idx = v' idx.
Proof.
  intros H H' Hc Hc' Hi Hi' Hs E E' -> idx Hidx. rewrite (to_string_holds _ _ _ _ H Hc) in E. rewrite (to_string_holds _ _ _ _ H' Hc') in E'. rewrite <- Hs in E'.
  assert (brackets (shape r) (fun idx => val_str (v idx)) = brackets (shape r) (fun idx => val_str (v' idx))) as Eb by congruence. clear E E'.
  assert (forall i, in_range (shape r) i -> exists z, v i = VI z) as V.
  { intros i Hr. destruct H as [_ [_ K]]. destruct (K i Hr) as [_ Ty]. destruct (v i) as [z|q]; [by exists z|]. cbn in Ty. by destruct (t_dt r). }
  assert (forall i, in_range (shape r) i -> exists z, v' i = VI z) as V'.
  { intros i Hr. rewrite Hs in Hr. destruct H' as [_ [_ K]]. destruct (K i Hr) as [_ Ty]. destruct (v' i) as [z|q]; [by exists z|]. cbn in Ty. by destruct (t_dt r'). }
  destruct (brackets_inj (shape r) (fun idx => val_str (v idx)) (fun idx => val_str (v' idx)) "" "") as [[_ K] _]; [|done|done|by rewrite Eb|].
  - intros i Hr. destruct (V i Hr) as [z ->], (V' i Hr) as [z' ->]. split; apply pretty_no_sep.
  - specialize (K idx Hidx). destruct (V idx Hidx) as [z Ez], (V' idx Hidx) as [z' Ez']. rewrite Ez, Ez' in *. cbn in K. f_equal. by apply (inj pretty).
Qed.
End with_fops.
