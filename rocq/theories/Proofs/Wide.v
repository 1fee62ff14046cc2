(** C51: division by a tensor that is broadcast along one of its dimensions. *)
From Verif.Proofs Require Export Stale2.
From Verif.Spec Require Export Stale.
From Verif.Model Require Export Api.

Section with_fops.
Context {fo : FOps}.
Notation any := (fun _ _ => True).

(** ** the last index of the quotient lies outside the denominator's gradient *)
Definition stretched (ss qs : list Z) : Prop := Forall2 (fun m n => m = n \/ m = 1) ss qs /\ ss <> qs.
Lemma last_outside ss qs : Forall2 (fun m n => m = n \/ m = 1) ss qs -> Forall (fun n => 0 < n) qs ->
  let p := row_major ss (map (fun n => n - 1) qs) in
  0 < size_prod ss /\ size_prod ss - 1 <= p < size_prod qs /\ (ss <> qs -> size_prod ss <= p) /\ size_prod ss <= size_prod qs.
Proof.
  cbv zeta. induction 1 as [|m n ss qs Hmn _ IH]; intros Hq; cbn [size_prod row_major map]; [split_and!; [lia..|done|lia]|].
  apply Forall_cons in Hq as [Hn Hq]. destruct (IH Hq) as (H1 & H2 & H3 & H4). clear IH.
  set (p := row_major ss _) in *. assert (0 < m) as Hm by lia. split; [nia|]. split; [|split].
  - destruct Hmn as [->| ->]; nia.
  - intros Hne. destruct (decide (ss = qs)) as [->|Hd].
    + assert (m <> n) by congruence. destruct Hmn as [->| ->]; [done|]. nia.
    + specialize (H3 Hd). destruct Hmn as [->| ->]; nia.
  - destruct Hmn as [->| ->]; nia.
Qed.
Lemma cnt_last ss qs : stretched ss qs -> Forall (fun n => 0 < n) qs -> size_prod qs < two63 ->
  exists p, cnt_from_index (contig ss) (map (fun n => n - 1) qs) = Ok p /\ size_prod ss <= p.
Proof.
  intros [Hf Hne] Hq Hb. destruct (last_outside ss qs Hf Hq) as (H1 & H2 & H3 & H4).
  assert (Forall (fun n => 0 < n) ss) as Hs.
  { clear -Hf Hq. induction Hf as [|m n ss qs Hmn _ IH]; [done|]. apply Forall_cons in Hq as [? ?]. constructor; [lia|auto]. }
  assert (length ss = length qs) as El by (by eapply Forall2_length).
  eexists. split; [|by apply H3]. unfold cnt_from_index, ldim. cbn [contig sizes strides offset]. rewrite map_length, El, Nat.eqb_refl. cbn [orun_expect obind].
  rewrite cnt_loop_ok; [|unfold two64; lia|rewrite length_contig_strides, map_length; lia].
  f_equal. rewrite contig_strides_exact, dot_rm_strides by (done || lia). apply u64_id. unfold two63, two64 in *. lia.
Qed.

(** ** the kernel *)
Definition short (s : nat) (n : Z) (h : heap) : Prop := exists cs, cells h s = Some cs /\ Z.of_nat (length cs) <= n.
Lemma bind_inv {A B} (m : E A) (k : A -> E B) h b h' : bind m k h = (Ok b, h') -> exists a h1, m h = (Ok a, h1) /\ k a h1 = (Ok b, h').
Proof. unfold bind. destruct (m h) as [[a|?|?|] h1]; try done. by exists a, h1. Qed.
Lemma read_inv {A B} (m : E A) (k : A -> E B) h b h' : reads m -> bind m k h = (Ok b, h') -> exists a, m h = (Ok a, h) /\ k a h = (Ok b, h').
Proof.
  intros Hm (a & h1 & E1 & E2)%bind_inv. rewrite (reads_run m h Hm) in E1. exists a. injection E1 as E1 <-. split; [|done].
  rewrite (reads_run m h Hm). by rewrite E1.
Qed.
Lemma store_short s n S T p v h a h' : short s n h -> store_cvt S T s p v h = (Ok a, h') -> short s n h'.
Proof.
  intros (cs & Hcs & Hl). unfold store_cvt. intros (w & _ & E)%read_inv; [|done]. unfold store in E.
  apply read_inv in E as (x & Ex & E); [|apply reads_get_sto]. unfold cells in Hcs. unfold get_sto in Ex.
  destruct (h_sto h !! s) as [y|] eqn:Ey; [|done]. injection Ex as ->. rewrite Hcs in E.
  repeat (case_match; [|done]). injection E as _ <-. eexists. unfold cells. simpl. rewrite list_lookup_insert by (by eapply lookup_lt_Some).
  split; [done|]. by rewrite insert_length.
Qed.
Lemma load_outside T s n p h v h' : short s n h -> n <= p -> load T s p h <> (Ok v, h').
Proof.
  intros (cs & Hcs & Hl) Hp E. unfold load in E. apply read_inv in E as (x & Ex & E); [|apply reads_get_sto]. unfold cells in Hcs. unfold get_sto in Ex.
  destruct (h_sto h !! s) as [y|] eqn:Ey; [|done]. injection Ex as ->. rewrite Hcs in E. case_match; [|done].
  destruct (Z.ltb_spec p (Z.of_nat (length cs))); [lia|]. by rewrite andb_false_r in E.
Qed.
Lemma mapM_never {A} (f : A -> E unit) l (I : heap -> Prop) x : (forall a h u h', I h -> f a h = (Ok u, h') -> I h') ->
  (forall h u h', I h -> f x h <> (Ok u, h')) -> x ∈ l -> forall h u h', I h -> mapM_ f l h <> (Ok u, h').
Proof.
  intros HI Hx Hin. induction l as [|a l IH]; [by apply elem_of_nil in Hin|]. intros h u h' Hh E. cbn [mapM_] in E.
  apply bind_inv in E as (v & h1 & E1 & E2). apply elem_of_cons in Hin as [->|Hin]; [by apply (Hx h v h1)|]. apply (IH Hin h1 u h'); [by eapply HI|done].
Qed.
Lemma den_wide Den Quot dst og quot den h a h' : nonneg (shape quot) -> 0 ∉ shape quot -> size_prod (shape quot) < two63 ->
  t_lay dst = contig (shape dst) -> stretched (shape dst) (shape quot) -> short (t_sto dst) (size_prod (shape dst)) h ->
  tensor_div_back_denominator Den Quot dst og quot den h <> (Ok a, h').
Proof.
  intros Hn Hz Hb El Hst Hs. pose proof (not_zero_pos _ Hn Hz) as Hp. unfold tensor_div_back_denominator. fold (shape quot). rewrite for_each_run by done.
  apply (mapM_never _ _ (short (t_sto dst) (size_prod (shape dst))) (map (fun n => n - 1) (shape quot))); [| | |done].
  - clear. intros sv h u h' Hs E.
    do 6 (apply read_inv in E as (? & _ & E); [|first [apply reads_load_aug|apply reads_lift|done]]).
    apply read_inv in E as (? & _ & E); [|apply reads_load]. apply read_inv in E as (? & _ & E); [|apply reads_lift].
    by eapply store_short.
  - clear h h' a Hs. intros h u h' Hs E. destruct (cnt_last _ _ Hst Hp Hb) as (p & Ep & Hle). rewrite <- El in Ep.
    do 5 (apply read_inv in E as (? & _ & E); [|first [apply reads_load_aug|apply reads_lift|done]]).
    apply read_inv in E as (p' & Ep' & E); [|done]. unfold idx_exact, lift in Ep'. rewrite Ep in Ep'. injection Ep' as <-.
    apply read_inv in E as (? & E' & _); [|apply reads_load]. by eapply load_outside in E'.
  - apply elem_of_indices. clear -Hp. unfold in_range. induction Hp as [|n qs Hn _ IH]; [constructor|]. cbn [map]. constructor; [lia|done].
Qed.
(** ** a gradient made by the step itself *)
Lemma update_makes b r h h' u : h_ten h !! b = Some r -> nonneg (shape r) -> t_rg r = true -> t_grad r = None -> try_accumulate_update b h = (Ok u, h') ->
  exists r' g gr, h_ten h' !! b = Some r' /\ t_grad r' = Some g /\ h_ten h' !! g = Some gr /\ t_lay gr = t_lay r /\
    short (t_sto gr) (size_prod (shape r)) h'.
Proof.
  intros Hr Hn Hrg Hg E. unfold try_accumulate_update in E. erewrite bind_ok in E by (by apply get_ten_ok). rewrite Hrg, Hg in E. cbn [negb] in E.
  apply bind_inv in E as ([] & h1 & E1 & E).
  assert (exists r1, h_ten h1 !! b = Some r1) as [r1 Hr1].
  { destruct (t_fn r) as [f|] eqn:Ef; [|injection E1 as <-; by exists r].
    assert (fn_of h b = Some f) as Hf by (unfold fn_of; by rewrite Hr).
    destruct (upd_fn_state h b f (fun g => gf_with_acc g (gf_acc g + 1)) Hf) as (h2 & E2 & _ & _ & T2). rewrite E1 in E2. injection E2 as <-.
    rewrite T2, Hr. by eexists. }
  apply bind_inv in E as (g & h2 & E2 & E). unfold create in E2. cbv zeta in E2. apply bind_inv in E2 as (blob & h1' & E2 & E3).
  apply bind_inv in E2 as (cs & h1'' & E2 & E4). unfold lift, new_blob in E2. case_match; [|done]. injection E2 as <- <-. injection E4 as <- <-.
  apply bind_inv in E3 as (s & h3 & E3 & E4). injection E3 as <- <-. injection E4 as <- <-. cbn [h_sto h_ten h_ver] in E.
  erewrite bind_ok in E by (apply get_ten_ok; cbn [h_ten]; by apply lookup_app_l_Some). apply bind_inv in E as ([] & h4 & E4 & E). injection E4 as <-.
  cbn [h_sto h_ten h_ver] in E. assert (b < length (h_ten h1))%nat as Hlt by (by eapply lookup_lt_Some).
  erewrite bind_ok in E by (apply get_ten_ok; cbn [h_ten]; rewrite list_lookup_insert_ne by lia; by apply lookup_snoc).
  cbn [t_sto] in E. unfold sto_zero in E. erewrite bind_ok in E by (apply get_sto_ok; cbn [h_sto]; by apply lookup_snoc).
  cbn [sto_blob sto_ty sto_bytes] in E. injection E as _ <-. 
  eexists _, _, _. cbn [h_ten]. rewrite list_lookup_insert by (rewrite app_length; simpl; lia). split; [done|]. split; [done|].
  rewrite list_lookup_insert_ne by lia. split; [by apply lookup_snoc|]. split; [done|]. 
  eexists. unfold cells. cbn [h_sto t_sto]. rewrite list_lookup_insert by (rewrite app_length; simpl; lia). split; [done|].
  rewrite map_length. unfold fresh_cells. rewrite replicate_length. unfold lnumel. rewrite numel_of_mod.
  pose proof (size_prod_nonneg _ Hn) as H0. fold (shape r).
  assert (u64 (size_of (t_dt r) * u64 (size_prod (shape r))) <= size_of (t_dt r) * size_prod (shape r)) as Hu.
  { pose proof (size_of_pos (t_dt r)). unfold u64. rewrite Zmult_mod_idemp_r. apply Z.mod_le; [nia|done]. }
  assert (0 <= u64 (size_of (t_dt r) * u64 (size_prod (shape r)))) by apply u64_range.
  rewrite Z2Nat.id by (apply Z.div_pos; [done|apply size_of_pos]). apply Z.div_le_upper_bound; [apply size_of_pos|done].
Qed.
(** [b] has the layout [l], is tracked and has no gradient yet *)
Definition plain (h : heap) (b : nat) (l : layout) : Prop := exists r, h_ten h !! b = Some r /\ t_lay r = l /\ t_rg r = true /\ t_grad r = None.
Lemma sb_plain l g h h' b lay : sb l g h h' -> b ∉ g -> plain h b lay -> plain h' b lay.
Proof.
  intros (_ & K & _) Hb (r & Hr & El & Hrg & Hg). destruct (K b r Hr) as (r' & Hr' & (_ & E & _) & R & _ & _ & G & _). exists r'. split; [done|].
  split; [congruence|]. split; [congruence|]. destruct G as [->|(_ & _ & _ & ?)]; done.
Qed.
Lemma div_step_wide x a b ss rx h : sized h -> a <> b -> plain h b (contig ss) -> h_ten h !! x = Some rx ->
  0 ∉ shape rx -> size_prod (shape rx) < two63 -> stretched ss (shape rx) -> nb (step_back x DivBack [a; b]) [a; b] [a; b] (fun _ _ => False) h.
Proof.
  intros Hs Hab Hb Hx Hz Hbd Hst. cbn [step_back]. do 2 (apply nb_deref; [done|]; intros ? [= <-]).
  apply (nb_bind _ _ [a] [b] [a] [b] any); [by apply nb_update|]. intros _ h1 Hs1 S1 _.
  apply nb_get; [done|]. intros ar Har _. apply nb_deref; [done|]. intros ga Hga.
  apply nb_out_grad; [done|]. intros g. apply (nb_bind0 _ _ [b] [b] any).
  { apply nb_get; [done|]. intros dr _ Hd. apply nb_get; [done|]. intros lr _ Hl. apply nb_get; [done|]. intros rr _ Hr.
    apply nb_read; [apply reads_dispatch_ffi|apply nv_dispatch_ffi|done|]. intros _ _.
    apply nb_st; [apply st_div_num|by apply nv_div_num|done]. }
  intros _ h2 Hs2 S2 _.
  assert (plain h2 b (contig ss)) as (b2 & Hb2 & El2 & Hrg2 & Hg2).
  { eapply sb_plain; [exact S2| |]; [by intros ?%elem_of_nil|]. eapply sb_plain; [exact S1| |done]. by intros ?%elem_of_list_singleton. }
  apply (nb_bind _ _ [b] [] [b] [] (fun _ h3 => exists r' g gr, h_ten h3 !! b = Some r' /\ t_grad r' = Some g /\ h_ten h3 !! g = Some gr /\ t_lay gr = t_lay b2 /\
    short (t_sto gr) (size_prod (shape b2)) h3)).
  { pose proof (nb_update b h2 Hs2) as H. unfold nb, nd, wp in *. destruct (try_accumulate_update b h2) as [[u|?|?|] h3] eqn:Eu; try done.
    destruct H as (H1 & H2 & _). split; [done|]. split; [done|]. eapply update_makes; [done|by apply Hs2 in Hb2|done|done|exact Eu]. }
  intros _ h3 Hs3 S3 (b3 & gb & gbr & Hb3 & Hgb & Hgbr & Elg & Hsh).
  destruct (sb_shape _ _ _ _ _ _ S1 Hx) as (x1 & Hx1 & Ex1). destruct (sb_shape _ _ _ _ _ _ S2 Hx1) as (x2 & Hx2 & Ex2).
  destruct (sb_shape _ _ _ _ _ _ S3 Hx2) as (x3 & Hx3 & Ex3).
  apply nb_get; [done|]. intros br Hbr Hnb. assert (br = b3) as -> by congruence.
  apply nb_get; [done|]. intros me Hme Hnm. assert (me = x3) as -> by congruence.
  apply nb_read; [apply reads_dispatch_ff|apply nv_dispatch_ff|done|]. intros _ _.
  apply nb_deref; [done|]. intros gb' Hgb'. assert (gb' = gb) as -> by congruence.
  apply nb_out_grad; [done|]. intros g2. apply nb_get; [done|]. intros gbr' Hgbr' _. assert (gbr' = gbr) as -> by congruence.
  apply nb_get; [done|]. intros gr Hgr _. apply nb_never; [apply nb_st; [apply st_div_den|by apply nv_div_den|done]|].
  assert (shape gbr = ss) as Esg by (unfold shape; rewrite Elg, El2; done).
  assert (shape b2 = ss) as Esb by (unfold shape; rewrite El2; done).
  intros v h'. apply den_wide; [done|congruence|congruence|rewrite Esg, Elg; done|rewrite Esg; congruence|rewrite Esg, <- Esb; done].
Qed.
Lemma wide_hist ops rs h t x f a b rb rx : Forall size_ok ops -> run empty_heap ops = (Ok rs, h) -> settled h t ->
  open h t x -> fn_of h x = Some f -> gf_kind f = DivBack -> inputs h x = [a; b] -> a <> b -> (forall y, open h t y -> b ∈ inputs h y -> y = x) ->
  h_ten h !! b = Some rb -> t_rg rb = true -> t_grad rb = None -> t_lay rb = contig (shape rb) ->
  h_ten h !! x = Some rx -> 0 ∉ shape rx -> size_prod (shape rx) < 2 ^ 63 ->
  Forall2 (fun m n => m = n \/ m = 1) (shape rb) (shape rx) -> shape rb <> shape rx ->
  forall v h', exec (OBackward (Some t)) h <> (Ok v, h').
Proof.
  intros Hz E Hs Hx Hf Hk Hin Hab Hsole Hb Hrgb Hgb Hlay Hrx H0 Hbd Hst1 Hst2 v h' E'.
  assert (v = RUnit) as ->. { cbn [exec] in E'. unfold deref in E'. rewrite bind_ret in E'. unfold no_result, bind in E'.
    destruct (backward t h) as [[[]|?|?|] h1]; by inversion E'. }
  apply exec_backward in E'. pose proof (ok_starts _ _ _ E') as Hst. assert (reachable h) as Hre by (by exists ops, rs).
  assert (b <> t) as Hbt.
  { intros ->. destruct (inputs_node h (reachable_tinv h Hre) x) with (y := t) as [Hlt _]; [by exists f|rewrite Hin; by right; left|].
    destruct Hx as (Hbx & _). apply (below_le h t (reachable_tinv h Hre)) in Hbx. lia. }
  destruct (pass_hist ops rs h t (fun P h1 => x ∉ P /\ forall p, p ∈ P -> open h t p) Hz E Hst Hs) as (order & H1 & H2 & H3 & H4).
  - intros h1 E1. split; by intros ?%elem_of_nil || (intros ? ?%elem_of_nil).
  - intros P y h1 new h2 Hy HP Hs1 [Hni HPo] Ep. split.
    2:{ intros p [?|Heq%elem_of_list_singleton]%elem_of_app; [by apply HPo|by subst p]. }
    intros [?|Heq%elem_of_list_singleton]%elem_of_app; [done|]. subst y.
    pose proof Hx as (Hbl & _). unfold fn_of in Hf. rewrite Hrx in Hf.
    destruct (HP x rx Hrx) as (rx' & Hrx' & (_ & El & _) & _ & _ & _ & _ & _ & _ & Hfn). destruct (Hfn f Hf Hbl) as (f' & Hf' & Hk' & Hin' & _).
    destruct (HP b rb Hb) as (rb' & Hb' & (_ & Elb & _) & Rb & _ & Gb & _).
    assert (gf_in f' = [a; b]) as Ein. { rewrite Hin', <- Hin. unfold inputs, fn_of. by rewrite Hrx, Hf. }
    unfold process in Ep. erewrite bind_ok in Ep by (apply get_fn_ok; unfold fn_of; by rewrite Hrx', Hf'). rewrite Hk', Hk, Ein in Ep.
    assert (shape rx' = shape rx) as Esx by (unfold shape; by rewrite El).
    assert (nb (step_back x DivBack [a; b]) [a; b] [a; b] (fun _ _ => False) h1) as H.
    { apply (div_step_wide x a b (shape rb) rx'); [done|done| |done|congruence|rewrite Esx; exact Hbd|rewrite Esx; done].
      exists rb'. split; [done|]. split; [congruence|]. split; [congruence|]. rewrite Gb; [done|done|].
      intros p Hp Hbp. apply Hni. rewrite <- (Hsole p); [done|by apply HPo|done]. }
    unfold nb, nd, wp in H. unfold bind at 1 in Ep.
    destruct (step_back x DivBack [a; b] h1) as [[?|?|?|] h3]; try done. by destruct H as (_ & _ & []).
  - destruct (H4 h' E') as (H5 & _ & _ & [H6 _]). by apply H6, H5.
Qed.
End with_fops.
