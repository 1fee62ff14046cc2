(** Memory safety of views. *)
From Verif.Proofs Require Export Safe4.

Definition osoft {A} (o : outcome A) : Prop := forall u, o = UB u -> soft u.
Lemma osoft_bind {A B} (o : outcome A) (k : A -> outcome B) : osoft o -> (forall a, o = Ok a -> osoft (k a)) -> osoft (obind o k).
Proof. intros Ho Hk u. destruct o as [a|e|u'|]; cbn [obind]; [by apply Hk|done|intros [= <-]; by apply Ho|done]. Qed.
Lemma osoft_ok {A} (a : A) : osoft (Ok a). Proof. by intros u. Qed.
Lemma osoft_throw {A} e : osoft (@Throw A e). Proof. by intros u. Qed.
Lemma osoft_schk z : osoft (schk z). Proof. unfold schk. case_match; [apply osoft_ok|]. by intros u [= <-]. Qed.
Lemma osoft_expect b : osoft (orun_expect b). Proof. destruct b; [apply osoft_ok|apply osoft_throw]. Qed.
Lemma osoft_stoll s : osoft (stoll s).
Proof. unfold stoll. intros u. repeat case_match; done. Qed.
Ltac osoft := repeat first
  [ apply osoft_ok | apply osoft_throw | apply osoft_schk | apply osoft_expect | apply osoft_stoll
  | apply osoft_bind; [|intros ? ?] | progress cbv zeta | case_match ].
Lemma slice_dim_soft n st parts : osoft (slice_dim n st parts).
Proof. unfold slice_dim. osoft. Qed.
Lemma slice_dim_size n st parts n' st' d : slice_dim n st parts = Ok (Some (n', st'), d) -> 0 <= n'.
Proof.
  assert (forall (n' st' d : Z), @Ok (option (Z * Z) * Z) (Some (0, 0), 0) = Ok (Some (n', st'), d) -> 0 <= n') as Hz by (intros ??? [= <- _ _]; lia).
  intros H. assert (forall parts, (if n =? 0 then Ok (Some (0, 0), 0) else
    let p i := nth i parts [] in
      let? step := match p 2%nat with
                   | [] => Ok 1
                   | s => let? z := stoll s in
                          let? _ := orun_expect (negb (z =? 0)) in Ok z
                   end in
      let? beg := match p 0%nat with
                  | [] => Ok (Some (if 0 <? step then 0 else s64 (u64 (n - 1))))
                  | s =>
                      let? b := stoll s in
                      let b := if b <? 0 then s64 (u64 (b + n)) else b in
                      if (b <? 0) && negb (0 <? step) then Ok None else
                      let b := if b <? 0 then 0 else b in
                      if s64 n <=? b then
                        (if 0 <? step then Ok None else Ok (Some (s64 (u64 (n - 1)))))
                      else Ok (Some b)
                  end in
      match beg with
      | None => Ok (Some (0, 0), 0)
      | Some beg =>
          let? fin := match p 1%nat with
                      | [] => Ok (Some (if 0 <? step then s64 n else -1))
                      | s =>
                          let? e := stoll s in
                          let e := if e <? 0 then s64 (u64 (e + n)) else e in
                          if 0 <? step then
                            if e <=? 0 then Ok None
                            else Ok (Some (if s64 n <? e then s64 n else e))
                          else
                            let e := if e <? 0 then -1 else e in
                            let? n1 := schk (s64 n - 1) in
                            if n1 <=? e then Ok None else Ok (Some e)
                      end in
          match fin with
          | None => Ok (Some (0, 0), 0)
          | Some fin =>
              if ((0 <? step) && (fin <=? beg)) || ((step <? 0) && (beg <=? fin)) then Ok (Some (0, 0), 0)
              else
                let? df := schk (fin - beg) in
                let? _ := schk (Z.abs df) in
                let? _ := schk (Z.abs step) in
                let size := Z.quot (Z.abs df - 1) (Z.abs step) + 1 in
                let? st' := schk (step * st) in
                let? d := schk (beg * st) in
                Ok (Some (size, st'), d)
          end
      end) = Ok (Some (n', st'), d) -> 0 <= n') as Hgen.
  { clear H. intros ps H. cbv zeta in H. destruct (n =? 0); [by eapply Hz|].
    apply obind_ok_inv in H as (step & _ & H). apply obind_ok_inv in H as ([beg|] & _ & H); [|by eapply Hz].
    apply obind_ok_inv in H as ([fin|] & _ & H); [|by eapply Hz].
    destruct (_ || _) eqn:Ec; [by eapply Hz|]. apply obind_ok_inv in H as (df & Hdf & H). do 2 apply obind_ok_inv in H as (? & _ & H).
    apply obind_ok_inv in H as (? & _ & H). apply obind_ok_inv in H as (? & _ & H). injection H as <- _ _.
    unfold schk in Hdf. case_match; [|done]. injection Hdf as <-.
    destruct (Z.eq_dec step 0) as [->|Hne]; [assert (forall x, Z.quot x 0 = 0) as Hq by (by intros []); cbn [Z.abs]; rewrite Hq; lia|].
    assert (fin - beg <> 0) by lia.
    pose proof (Z.quot_pos (Z.abs (fin - beg) - 1) (Z.abs step) ltac:(lia) ltac:(lia)). lia. }
  unfold slice_dim in H. destruct parts as [|p0 [|p1 rest]]; [by eapply Hgen| |by eapply Hgen].
  apply obind_ok_inv in H as (idx & _ & H). apply obind_ok_inv in H as (? & _ & H). apply obind_ok_inv in H as (? & _ & H). done.
Qed.
Lemma slice_dims_soft ss : forall sts each off, (length ss <= length sts)%nat -> osoft (slice_dims ss sts each off).
Proof.
  induction ss as [|n ss IH]; intros sts each off Hl; [apply osoft_ok|]. destruct sts as [|st sts]; [cbn in Hl; lia|].
  cbn [slice_dims]. cbn in Hl. destruct each as [|e each]; (apply osoft_bind; [apply slice_dim_soft|intros x _]);
    (apply osoft_bind; [apply IH; lia|intros y _; apply osoft_ok]).
Qed.
Lemma slice_dims_shape ss : forall sts each off y, slice_dims ss sts each off = Ok y -> length y.1.2 = length y.1.1 /\ Forall (fun n => 0 <= n) y.1.1.
Proof.
  induction ss as [|n ss IH]; intros sts each off y H; [injection H as <-; split; [done|constructor]|]. destruct sts as [|st sts]; [done|].
  cbn [slice_dims] in H. destruct each as [|e each]; apply obind_ok_inv in H as (x & Hx & H); apply obind_ok_inv in H as (z & Hz & H);
    destruct (IH _ _ _ _ Hz) as [I1 I2]; destruct x as [[[n' st']|] d]; injection H as <-; cbn; try done;
    (split; [lia|constructor; [by eapply slice_dim_size|done]]).
Qed.
Lemma slice_layout_soft l s : (length (sizes l) <= length (strides l))%nat -> osoft (slice_layout l s).
Proof.
  intros Hl. unfold slice_layout. apply osoft_bind; [apply osoft_expect|intros _ _]. apply osoft_bind; [by apply slice_dims_soft|intros; apply osoft_ok].
Qed.
Lemma slice_layout_shape l s l' : slice_layout l s = Ok l' -> strides_fit l' /\ nn (sizes l').
Proof.
  unfold slice_layout. intros H. apply obind_ok_inv in H as (? & _ & H). apply obind_ok_inv in H as (y & Hy & [= <-]).
  destruct (slice_dims_shape _ _ _ _ _ Hy) as [I1 I2]. split; [|done]. unfold strides_fit. cbn. split; [lia|done].
Qed.

Section with_fops.
Context {fo : FOps}.

Lemma sf_op_slice h t r s : SI h -> full_at h t -> h_ten h !! t = Some r -> (t_rg r = true -> roomy r) -> sf (op_slice t s) (fun v h' => full_at h' v) h.
Proof.
  intros S Hf Hr Hroom. unfold op_slice. eapply sf_get_bind; [done|]. pose proof (SI_geom _ _ _ S Hr) as Hg.
  apply sf_lift_bind; [done|apply slice_layout_soft, Hg|]. intros lay Hlay. destruct (slice_layout_shape _ _ _ Hlay) as [I1 I2].
  apply (sf_view h t r lay); try done. intros n Hn Hs. by eapply slice_sane.
Qed.
Lemma sf_op_transpose h t r i j : SI h -> full_at h t -> h_ten h !! t = Some r -> (t_rg r = true -> roomy r) -> sf (op_transpose t i j) (fun v h' => full_at h' v) h.
Proof.
  intros S Hf Hr Hroom. unfold op_transpose. eapply sf_get_bind; [done|]. pose proof (SI_geom _ _ _ S Hr) as (_ & Hn & Hs1 & Hs2). unfold ldim.
  apply sf_expect_bind; [done|]. intros E1. apply sf_expect_bind; [done|]. intros E2.
  assert (Z.to_nat i < length (sizes (t_lay r)))%nat by lia. assert (Z.to_nat j < length (sizes (t_lay r)))%nat by lia. assert (Z.to_nat i <> Z.to_nat j) by lia.
  apply (sf_view h t r (swap_lay (Z.to_nat i) (Z.to_nat j) (t_lay r))); try done.
  - by apply View.Forall_swap.
  - unfold strides_fit. cbn [swap_lay sizes strides]. rewrite !swap_at_length. split; [done|]. intros _. apply Hs2. intros E0. rewrite E0 in *. simpl in *. lia.
  - intros n _ Hs. by apply swap_sane.
Qed.

(** ** reshape *)
Lemma isometry_soft ss : forall sts, osoft (isometry ss sts).
Proof.
  induction ss as [|s ss IH]; intros sts; [apply osoft_ok|]. destruct sts as [|st sts]; [apply osoft_ok|]. cbn [isometry].
  destruct ss as [|s' ss]; [apply osoft_ok|]. destruct sts as [|st' sts]; [apply osoft_ok|].
  apply osoft_bind; [apply osoft_schk|intros p _]. apply osoft_bind; [apply IH|intros; apply osoft_ok].
Qed.
Lemma contig_room ss : size_prod ss < two63 -> lay_in (contig ss) (size_prod ss).
Proof. apply contig_lay_in. Qed.
Lemma contig_below ss ss' : good_sizes ss' -> numel_of ss' = numel_of ss -> nn ss -> lay_below (contig ss') (contig ss).
Proof.
  intros Hg E Hn n Hb Hs. destruct (good_numel ss' (contig ss) n Hg Hs Hb E) as [H0|(Hp & Hc & Hok & Hin & Hinj & H0)]; [by left|].
  destruct (copy_sane (contig ss) ss' n Hg Hs Hb E) as [?|(I1 & I2 & I3)]; [by left|]. right. split; [done|]. split; [|done].
  intros idx Hi. specialize (I2 idx Hi). rewrite numel_of_exact in I2 by apply Hg. lia.
Qed.
(** the end of reshape: link the result to the tensor it is a view of *)
Lemma sf_link h t tf lst rt rl rr : SI h -> h_ten h !! t = Some rt -> h_ten h !! tf = Some rr -> h_ten h !! lst = Some rl -> tf <> lst ->
  t_fn rr = None -> t_grad rr = None -> full_at h lst -> full h rr -> t_dt rr = t_dt rl -> lay_below (t_lay rr) (t_lay rl) ->
  (t_rg rt = true -> is_float (t_dt rl) = true /\ roomy rl) ->
  sf (let! i := get_ten t in if negb (t_rg i) then mret tf else track tf NoBack [lst] ;;; share_grad_storage tf lst ;;; mret tf) (fun v h' => full_at h' v) h.
Proof.
  intros S Ht Hr Hl Hne E1 E2 F1 F2 Ed Hb Hrg. eapply sf_get_bind; [done|]. assert (full_at h tf) as Ff by (by exists rr).
  destruct (t_rg rt) eqn:Erg; cbn [negb]; [|by apply sf_ret]. destruct (Hrg eq_refl) as [Hfl Hroom].
  eapply sf_eq; [apply bind_assoc|]. eapply sf_bind; [by apply (sf_track_view h tf lst rr rl)|].
  intros ? h1 G1 S1 _. apply sf_ret; [done|]. by eapply full_at_grow.
Qed.
Lemma sf_create_view h r lay : SI h -> full h r -> geom h r -> nn (sizes lay) -> strides_fit lay -> lay_below lay (t_lay r) ->
  sf (create_view (t_dt r) lay (t_sto r)) (fun v h' => v = length (h_ten h) /\ h_ten h' = h_ten h ++ [fresh_rec (t_dt r) lay (t_sto r)] /\
    full h' (fresh_rec (t_dt r) lay (t_sto r))) h.
Proof.
  intros S Hf Hg Hn Hs Hl. destruct (geom_count h r S Hg) as (x & Hx & HT & Hb & Hc & _ & Hls). set (nr := fresh_rec (t_dt r) lay (t_sto r)).
  assert (geom (add_ten h nr) nr) as Hng.
  { split; [|done]. exists x. split; [done|]. split; [done|]. split; [lia|]. by apply Hl. }
  split; [apply add_ten_grow|]. split; [|split; [done|split; [done|]]].
  - apply add_ten_si; [done|]. by apply fresh_si.
  - unfold full. eapply fullsto_grow; [apply add_ten_grow|done].
Qed.
Lemma sf_reshape_tail h t r r1 ss : SI h -> full_at h t -> h_ten h !! t = Some r1 -> same_data r r1 -> geom h r -> full h r -> shape r <> [] -> good_sizes ss -> numel_of ss = lnumel (t_lay r) ->
  (t_rg r1 = true -> roomy r1) -> sf (reshape_tail t r ss) (fun v h' => full_at h' v) h.
Proof.
  intros S Hf Ht D Hg Hfr Hne Hgs Hnum Hroom. pose proof D as (D1 & D2 & D3). pose proof Hg as (_ & Hn & Hs1 & Hs2). specialize (Hs2 Hne).
  pose proof (lookup_lt_Some _ _ _ Ht) as Hlt.
  unfold reshape_tail, ldim. rewrite (proj2 (Nat.ltb_ge _ _)) by lia. eapply sf_eq; [symmetry; apply bind_ret|].
  apply sf_lift_bind; [done|apply isometry_soft|]. intros iso Hiso. destruct iso.
  - assert (exists sts, match ss with [] => sts = strides (t_lay r) | _ => exists st, last (strides (t_lay r)) = Some st /\ sts = strides_from st ss end) as (sts & Hsts).
    { destruct ss as [|k ss]; [by eexists|]. destruct (last (strides (t_lay r))) as [st|] eqn:El; [eexists; by eexists|].
      apply last_None in El. rewrite El in Hs2. simpl in Hs2. unfold shape in Hne. by destruct (sizes (t_lay r)). }
    set (lay := Lay ss sts (offset (t_lay r))).
    assert (lay_below lay (t_lay r)) as Hb. { intros n Hb' Hs. apply iso_sane; try done. lia. }
    assert (strides_fit lay) as Hsf.
    { unfold strides_fit. cbn. destruct ss as [|k ss]; [simpl; split; [lia|done]|]. destruct Hsts as (st & _ & ->). rewrite strides_from_length. split; [lia|done]. }
    eapply (sf_eq (let! tf := create_view (t_dt r) lay (t_sto r) in let! i := get_ten t in if negb (t_rg i) then mret tf else track tf NoBack [t] ;;; share_grad_storage tf t ;;; mret tf)).
    { unfold lay. destruct ss as [|k ss]; [rewrite Hsts|destruct Hsts as (st & El & ->); rewrite El]; by rewrite bind_assoc, bind_ret, bind_assoc. }
    eapply sf_bind; [apply sf_create_view; try done; apply Hgs|]. intros tf h1 G1 S1 (-> & E1 & F1).
    apply (sf_link h1 t _ t r1 r1 (fresh_rec (t_dt r) lay (t_sto r))); try done.
    + rewrite E1. by apply lookup_app_l_Some.
    + rewrite E1. apply lookup_snoc.
    + rewrite E1. by apply lookup_app_l_Some.
    + lia.
    + by eapply full_at_grow.
    + cbn [t_lay fresh_rec]. by rewrite <- D2.
    + intros Erg. split; [by eapply (si_float h)|by apply Hroom].
  - assert (sf (op_clone t) (fun m h' => full_at h' m /\ exists rm, h_ten h' !! m = Some rm /\ t_dt rm = t_dt r1 /\ t_lay rm = contig (sizes (t_lay r1))) h) as Hc.
    { apply sf_and; [by apply sf_op_clone|]. intros m h' E. by eapply clone_rec. }
    eapply (sf_eq (let! m := op_clone t in let! mr := get_ten m in let! tf := create_view (t_dt r) (contig ss) (t_sto mr) in
      let! i := get_ten t in if negb (t_rg i) then mret tf else track tf NoBack [m] ;;; share_grad_storage tf m ;;; mret tf)).
    { unfold bind. destruct (op_clone t h) as [[m|e|u|] h1]; try done. destruct (get_ten m h1) as [[mr|e|u|] h2]; done. }
    eapply sf_bind; [exact Hc|]. intros m h1 G1 S1 (Fm & rm & Hm & Dm & Lm). eapply sf_get_bind; [done|].
    pose proof (full_rd _ _ _ S1 Fm Hm) as [Gm Fm']. destruct (rec_grow _ _ _ _ G1 Ht) as (r2 & Hr2 & (Q1 & Q2 & Q3) & Q4 & _).
    assert (t_dt r = t_dt rm) as Ed by congruence. rewrite Ed.
    assert (lay_below (contig ss) (t_lay rm)) as Hb.
    { rewrite Lm. apply contig_below; [done|rewrite <- D2; done|]. rewrite <- D2. done. }
    eapply sf_bind; [apply (sf_create_view h1 rm (contig ss)); try done; [apply Hgs|apply contig_fit]|]. intros tf h2 G2 S2 (-> & E2 & F2).
    apply (sf_link h2 t _ m r2 rm (fresh_rec (t_dt rm) (contig ss) (t_sto rm))); try done.
    + rewrite E2. by apply lookup_app_l_Some.
    + rewrite E2. apply lookup_snoc.
    + rewrite E2. by apply lookup_app_l_Some.
    + apply lookup_lt_Some in Hm. lia.
    + by eapply full_at_grow.
    + intros Erg. split; [rewrite Dm, Q1; by eapply (si_float h1)|]. right. unfold shape. rewrite Lm. cbn [contig sizes]. apply contig_lay_in.
      destruct (geom_count h r S Hg) as (x & _ & _ & _ & Hc1 & Hc2 & _). rewrite <- D2. fold (shape r). lia.
Qed.
Lemma sf_op_reshape_sv h t r ss : SI h -> full_at h t -> h_ten h !! t = Some r -> good_sizes ss -> (t_rg r = true -> roomy r /\ shape r <> []) ->
  sf (op_reshape_sv t ss) (fun v h' => full_at h' v) h.
Proof.
  intros S Hf Hr Hgs Hrg. pose proof (SI_geom _ _ _ S Hr) as Hg. pose proof (full_rd _ _ _ S Hf Hr) as [_ Hfr].
  destruct (Z.eqb_spec (numel_of ss) (lnumel (t_lay r))) as [Hnum|Hnum].
  2:{ unfold op_reshape_sv. eapply sf_get_bind; [done|]. apply sf_expect_bind; [done|]. lia. }
  eapply sf_eq; [symmetry; by apply op_reshape_sv_eq|]. destruct (Z.eqb_spec (numel_of ss) 1) as [H1|H1].
  - set (lay := Lay ss (map (fun _ => 1) ss) (offset (t_lay r))).
    assert (lay_below lay (t_lay r)) as Hb. { intros n Hb' Hs. by apply one_sane. }
    assert (strides_fit lay) as Hsf. { unfold strides_fit. cbn. rewrite map_length. done. }
    eapply sf_bind; [apply sf_create_view; try done; apply Hgs|]. intros tf h1 G1 S1 (-> & E1 & F1).
    destruct (t_rg r) eqn:Erg; cbn [negb].
    + destruct (Hrg eq_refl) as [Hroom Hne]. pose proof (lookup_lt_Some _ _ _ Hr) as Hlt.
      eapply sf_eq; [apply bind_assoc|].
      assert (h_ten h1 !! t = Some r) as Hr1 by (rewrite E1; by apply lookup_app_l_Some).
      eapply sf_bind; [apply (sf_track_view h1 _ t (fresh_rec (t_dt r) lay (t_sto r)) r); try done|].
      * rewrite E1. apply lookup_snoc.
      * lia.
      * by eapply full_at_grow.
      * by eapply (si_float h).
      * intros ? h2 G2 S2 (r2 & Hr2 & Hg2). assert (grow h h2) as G02 by (by eapply grow_trans).
        destruct (rec_grow _ _ _ _ G02 Hr) as (r2' & Hr2' & D & _). assert (r2' = r2) as -> by congruence.
        apply (sf_reshape_tail h2 t r r2); try done; [by eapply full_at_grow|by eapply geom_grow| |intros _; by left].
        unfold full. by eapply fullsto_grow.
    + apply sf_ret; [done|]. eexists. rewrite E1. split; [apply lookup_snoc|done].
  - destruct (decide (shape r = [])) as [E0|Hne].
    { exfalso. apply H1. rewrite Hnum. unfold lnumel. fold (shape r). by rewrite E0. }
    apply (sf_reshape_tail h t r r); try done. intros E. by apply Hrg.
Qed.
Lemma regularize_soft ss n : osoft (regularize_size ss n).
Proof.
  unfold regularize_size. destruct ss as [|a ss]; [apply osoft_bind; [apply osoft_expect|intros; apply osoft_ok]|].
  apply osoft_bind; [apply osoft_expect|intros _ _]. case_match; [|apply osoft_ok]. cbv zeta. case_match; [by intros u [= <-]|].
  apply osoft_bind; [apply osoft_expect|intros; apply osoft_ok].
Qed.
Lemma sf_op_reshape h t r xs : SI h -> full_at h t -> h_ten h !! t = Some r -> Forall in_ll xs -> Forall (fun x => -1 <= x) xs -> given xs < two64 ->
  (t_rg r = true -> roomy r /\ shape r <> []) -> sf (op_reshape t xs) (fun v h' => full_at h' v) h.
Proof.
  intros S Hf Hr H1 H2 H3 Hrg. unfold op_reshape. eapply sf_get_bind; [done|]. apply sf_lift_bind; [done|apply regularize_soft|]. intros ss Hss.
  apply (sf_op_reshape_sv h t r ss); try done. eapply regularize_good; [done|done|done| |done].
  unfold lnumel. rewrite numel_of_mod. apply Z.mod_pos_bound. done.
Qed.
Lemma sf_op_reshape_as h t o r : SI h -> full_at h t -> full_at h o -> h_ten h !! t = Some r -> (t_rg r = true -> roomy r /\ shape r <> []) ->
  sf (op_reshape_as t o) (fun v h' => full_at h' v) h.
Proof.
  intros S Hf Ho Hr Hrg. destruct (full_at_get _ _ Ho) as [ro Hro]. unfold op_reshape_as. eapply sf_get_bind; [done|].
  pose proof (SI_geom _ _ _ S Hro) as Hg. apply (sf_op_reshape_sv h t r); try done. split; [apply Hg|].
  destruct (geom_count h ro S Hg) as (x & _ & _ & _ & Hc1 & Hc2 & _). fold (shape ro). unfold two63, two64 in *. lia.
Qed.
End with_fops.
