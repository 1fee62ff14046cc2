(** Gradients of expressions: views, and the calls of a whole expression. *)
From Verif.Proofs Require Export ExprGrad.
From Verif.Model Require Export Exact Api.
#[local] Existing Instance Exact.

(** ** views *)
Section views.
Context (ops : list op) (H : list nat) (T : nat -> Prop) (h : heap) (a : nat).
Hypothesis Hp : program ops H T h.
Hypothesis Ha : a ∈ H.
Lemma held_rec : exists r, at_hand h H a r /\ grad_ok h r /\ tensor_at h a r (contents h r) /\ fits (t_dt r) (shape r).
Proof.
  destruct (program_GI _ _ _ _ Hp) as (D & G & HD). destruct (program_facts _ _ _ _ Hp) as (Hinv & _). destruct (g_rec _ _ _ G a (HD a Ha)) as (r & Hr & H1 & H2 & _).
  exists r. split; [done|]. split; [by eapply tinv_grad_ok|]. done.
Qed.
Lemma n_transpose d0 d1 A x h' ba : is_arr h a A ba -> 0 <= d0 < Z.of_nat (length (a_ss A)) -> 0 <= d1 < Z.of_nat (length (a_ss A)) ->
  exec (OTranspose (Some a) d0 d1) h = (Ok (RHandle (Some x)), h') ->
  makes_node h x h' NoBack [a] /\ same_cells h' x a (exchange (Z.to_nat d0) (Z.to_nat d1)).
Proof.
  intros (ra & [Hra _] & _ & Sa & _) H0 H1 E. destruct held_rec as (r & [_ Hr] & Hg & [_ Hv] & Hfit). assert (ra = r) as -> by congruence. rewrite <- Sa in H0, H1. cbn [exec] in E.
  apply un_inv in E as (y & [= <-] & E). unfold op_transpose in E. erewrite bind_ok in E by (by apply get_ten_ok).
  destruct (_ && _) in E; [|done]. erewrite bind_ok in E by done.
  destruct (negb (d0 =? d1)) eqn:Hne; [|done]. erewrite bind_ok in E by done.
  destruct (holds_ok _ _ _ Hv) as (Hok & n & Hin & Hn). unfold shape in *.
  assert (Z.to_nat d0 < length (sizes (t_lay r)))%nat as Hi by lia. assert (Z.to_nat d1 < length (sizes (t_lay r)))%nat as Hj by lia.
  assert (length (sizes (t_lay r)) <= length (strides (t_lay r)))%nat as Hls by apply Hok.
  eapply (viewed_node h h' a r (swap_lay (Z.to_nat d0) (Z.to_nat d1) (t_lay r))); [done| |].
  - apply view_viewed; try done. rewrite <- finish_eq by done. exact E.
  - cbn [swap_lay sizes]. intros idx Hx. pose proof (in_range_length _ _ Hx) as Hlen. rewrite swap_at_length in Hlen. rewrite <- swap_at_exchange by lia. split.
    + unfold shape. rewrite <- (swap_at_twice (Z.to_nat d0) (Z.to_nat d1) (sizes (t_lay r))) by done. apply in_range_swap; [done|by rewrite swap_at_length..].
    + unfold pos. cbn [swap_lay strides offset]. rewrite dot_swap by lia. done.
Qed.
Lemma n_slice s xs A x h' : is_arr h a A true -> subs_text s xs -> Forall (fun n => 0 < n < two63) (a_ss A) -> all_legal (a_ss A) xs -> small_steps (a_ss A) xs ->
  exec (OSlice (Some a) s) h = (Ok (RHandle (Some x)), h') -> makes_node h x h' NoBack [a] /\ same_cells h' x a (src_index (a_ss A) xs).
Proof.
  intros (ra & [Hra _] & _ & Sa & _ & Ra) Htx Hpo Hleg Hsm E. destruct held_rec as (r & [_ Hr] & Hg & [_ Hv] & Hfit). assert (ra = r) as -> by congruence. specialize (Ra eq_refl). rewrite <- Sa in *.
  destruct Ra as (Q1 & Q2 & cs & Q3 & Q4). { eapply Forall_impl; [exact Hpo|]. simpl. lia. }
  assert (Forall (fun n => 0 < n < 2 ^ 63) (shape r)) as Hp' by exact Hpo. unfold small_strides in Q2.
  pose proof (subs_fit_backed h r cs xs Q3 Hp' Q2 Hleg Hsm) as Hf. pose proof Q3 as (Hb & Hok & Hin & Hn). unfold shape in *.
  assert (slice_layout (t_lay r) s = Ok (sel_layout (t_lay r) xs)) as El.
  { apply slice_layout_text; try done; [eapply Forall_impl; [exact Q2|]; unfold in_s64; simpl; lia|eapply Forall_impl; [exact Hpo|]; simpl; lia]. }
  destruct (sel_layout_ok _ _ Hok Hleg) as [Hok' Es]. cbn [exec] in E. apply un_inv in E as (y & [= <-] & E). unfold op_slice in E. erewrite bind_ok in E by (by apply get_ten_ok).
  rewrite bind_lift, El in E. cbn [lift] in E.
  eapply (viewed_node h h' a r (sel_layout (t_lay r) xs)); [done| |].
  - apply view_viewed; try done. rewrite <- finish_eq by done. exact E.
  - intros idx Hi. rewrite Es in Hi. eapply sel_layout_pos; try done. unfold two63, two64 in *. lia.
Qed.
End views.

(** [x] is a view of [m], which is [y] or a copy of it, in the same row-major order *)
Definition reshaped (h : heap) (x y m : nat) : Prop :=
  (m = y \/ nodeat h m CloneBack [y] /\ shape_of h m = shape_of h y) /\ nodeat h x NoBack [m] /\
  same_cells h x m (same_rank (shape_of h x) (shape_of h m)) /\ (tracked h x -> tracked h m /\ tracked h y).
Lemma tail_node h t r ss x h' : h_ten h !! t = Some r -> grad_ok h r -> holds h r (contents h r) -> fits (t_dt r) (shape r) ->
  Forall (fun n => 0 <= n < two64) ss -> size_prod ss = size_prod (shape r) -> reshape_tail t r ss h = (Ok x, h') ->
  stays h h' /\ h_ten h !! x = None /\ exists m, (m = t \/ h_ten h !! m = None) /\ reshaped h' x t m.
Proof.
  intros Ht Hg Hh Hfit Hss Hp E.
  destruct (holds_ok _ _ _ Hh) as (Hok & n & Hin & Hn). pose proof (holds_allocable _ _ _ _ Hh Hfit) as Ha. pose proof (allocable_lt63 _ _ Ha) as Hlt.
  assert (Forall (fun n => 0 <= n) ss) as Hss0 by (eapply Forall_impl; [done|]; simpl; lia). pose proof (lay_nonneg _ Hok) as Hnn.
  unfold reshape_tail in E. destruct (Nat.ltb_spec (ldim (t_lay r)) (length (strides (t_lay r)))) as [|Hlen]; [done|].
  rewrite bind_ret, bind_lift in E. destruct (isometry _ _) as [iso|?|?|] eqn:Hiso; try done. cbn [lift] in E. destruct iso.
  - rewrite !bind_assoc in E.
    assert (exists sts, match ss with [] => mret (strides (t_lay r)) | _ :: _ => match last (strides (t_lay r)) with
      | Some st => mret (strides_from st ss) | None => mub OutOfBounds end end h = (Ok sts, h) /\
      match ss with [] => sts = strides (t_lay r) | _ => exists st, last (strides (t_lay r)) = Some st /\ sts = strides_from st ss end) as (sts & Es & Hsts).
    { destruct ss as [|k ss]; [by eexists|]. destruct (last (strides (t_lay r))) as [st|]; [|done]. eexists. split; [done|]. by eexists. }
    erewrite bind_ok in E by exact Es. rewrite bind_assoc in E.
    destruct (iso_map (t_lay r) ss sts n) as [Hlok Hmap]; try done.
    assert (viewed h h' t r (Lay ss sts (offset (t_lay r))) x (t_rg r)) as V.
    { apply view_viewed; try done. erewrite bind_ok by apply create_view_eq. erewrite bind_ok in E by apply create_view_eq. rewrite bind_ret in E.
      erewrite bind_ok in E by (apply get_ten_ok, lookup_app_l_Some, Ht). exact E. }
    destruct (viewed_node h h' t r _ x (same_rank ss (shape r)) Ht V Hmap) as [(K & N & Nd) S]. split; [done|]. split; [done|]. exists t. split; [by left|].
    destruct V as (rx & _ & Hx & (_ & D2 & _) & Erg & _). destruct (K t r Ht) as (rt & Hrt & (_ & Lt & _) & Gt & _).
    split; [by left|]. split; [done|]. split.
    + rewrite (shape_rec _ _ _ Hx), (shape_rec _ _ _ Hrt). unfold shape. rewrite <- D2, <- Lt. exact S.
    + intros (r' & Hr' & Er'). assert (tracked h' t) by (exists rt; split; [done|congruence]). done.
  - rewrite bind_assoc in E. erewrite bind_ok in E by (by apply (clone_ok h t r (contents h r))).
    pose proof (alloc_node h (t_dt r) (shape r) (rm_cells (shape r) (contents h r)) (t_rg r) CloneBack [t]) as (K1 & N1 & Nd1).
    set (h1 := alloc_heap _ _ _ _ _ _) in E.
    set (m := length (h_ten h)) in *. fold (shape r) in h1. change (alloc_heap _ _ _ _ _ _) with h1 in K1, Nd1.
    set (rm := Create.fresh_rec h (t_dt r) (contig (shape r)) (t_rg r) (clone_fn (t_rg r) t)).
    assert (h_ten h1 !! m = Some rm) as Hm by apply alloc_ten.
    assert (h_ten h1 !! t = Some r) as Ht1 by (by apply alloc_ten_old).
    assert (holds h1 rm (contents h1 rm)) as Hh1. { eapply holds_contents. apply alloc_holds; [done|]. intros idx Hi. by eapply holds_ty. }
    clearbody h1.
    rewrite bind_assoc in E. erewrite bind_ok in E by (by apply get_ten_ok). rewrite bind_assoc in E. change (t_dt r) with (t_dt rm) in E.
    assert (forall idx, in_range ss idx -> in_range (shape r) (same_rank ss (shape r) idx) /\
      pos (contig ss) idx = pos (contig (shape r)) (same_rank ss (shape r) idx)) as Hmap.
    { intros idx Hi. destruct (same_rank_spec ss (shape r) idx Hnn Hp Hi) as [H1 H2]. split; [done|].
      rewrite !pos_contig by (rewrite ?Hp; done). done. }
    assert (viewed h1 h' m rm (contig ss) x (t_rg rm)) as V.
    { apply view_viewed; try done. erewrite bind_ok by apply create_view_eq. erewrite bind_ok in E by apply create_view_eq. rewrite bind_ret in E.
      erewrite bind_ok in E by (apply get_ten_ok, lookup_app_l_Some, Ht1). exact E. }
    destruct (viewed_node h1 h' m rm _ x (same_rank ss (shape r)) Hm V Hmap) as [(K & N & Nd) S]. split; [by eapply stays_trans|]. split.
    { destruct (h_ten h !! x) as [r0|] eqn:E0; [|done]. destruct (K1 x r0 E0) as (r1 & Hr1 & _). congruence. }
    exists m. split; [by right|]. destruct V as (rx & _ & Hx & (_ & D2 & _) & Erg & _). destruct (K m rm Hm) as (rm' & Hrm & (_ & Lm & _) & Gm & _).
    destruct (K t r Ht1) as (rt & Hrt & (_ & Lt & _) & Gt & _).
    split; [right; split; [by eapply nodeat_stays|]|split; [done|split]].
    + rewrite (shape_rec _ _ _ Hrm), (shape_rec _ _ _ Hrt). unfold shape. by rewrite <- Lm, <- Lt.
    + rewrite (shape_rec _ _ _ Hx), (shape_rec _ _ _ Hrm). unfold shape. rewrite <- D2, <- Lm. exact S.
    + intros (r' & Hr' & Er'). assert (rx = r') as -> by congruence. rewrite Erg in Er'. split; [exists rm'; split; [done|by rewrite Gm]|exists rt; split; [done|by rewrite Gt]].
Qed.
Lemma sv_node h t r ss x h' : h_ten h !! t = Some r -> grad_ok h r -> holds h r (contents h r) -> fits (t_dt r) (shape r) -> good_sizes ss ->
  Forall (fun n => 0 <= n < two64) ss -> op_reshape_sv t ss h = (Ok x, h') ->
  stays h h' /\ h_ten h !! x = None /\ exists m, (m = t \/ h_ten h !! m = None) /\ reshaped h' x t m.
Proof.
  intros Ht Hg Hh Hfit [Hs1 Hs2] Hss E.
  destruct (Z.eq_dec (numel_of ss) (lnumel (t_lay r))) as [Hn|Hn].
  2:{ by rewrite (reshape_sv_reject h t r ss) in E. }
  rewrite (op_reshape_sv_eq t ss h r) in E by done.
  destruct (holds_ok _ _ _ Hh) as (Hok & n & Hin & Hn'). pose proof (holds_allocable _ _ _ _ Hh Hfit) as Ha. pose proof (allocable_lt63 _ _ Ha) as Hlt.
  pose proof (lay_nonneg _ Hok) as Hnn.
  assert (numel_of ss = size_prod ss) as Hnum by (by apply numel_of_exact).
  assert (lnumel (t_lay r) = size_prod (shape r)) as Hnum' by (apply numel_of_exact; [done|unfold shape, two63, two64 in *; lia]).
  assert (size_prod ss = size_prod (shape r)) as Hp by congruence.
  destruct (Z.eqb_spec (numel_of ss) 1) as [H1|H1]; [|by eapply tail_node].
  set (lay := Lay ss (map (fun _ => 1) ss) (offset (t_lay r))) in *.
  assert (forall idx, in_range (sizes lay) idx -> in_range (shape r) (same_rank ss (shape r) idx) /\ pos lay idx = pos (t_lay r) (same_rank ss (shape r) idx)) as Hmap.
  { cbn [lay sizes]. intros idx Hi. destruct (same_rank_spec ss (shape r) idx Hnn Hp Hi) as [Hr1 _]. split; [done|]. unfold pos. cbn [lay strides offset].
    rewrite (in_range_ones _ _ (size_prod_one _ Hnn ltac:(unfold shape in *; lia)) Hr1), dot_zeros.
    rewrite (in_range_ones _ _ (size_prod_one _ Hs1 ltac:(lia)) Hi), dot_zeros. done. }
  erewrite bind_ok in E by apply create_view_eq. destruct (t_rg r) eqn:Erg; cbn [negb] in E.
  - destruct (share_viewed h t r lay Ht Hg Erg (bytes_exact _ _ _ Hh Hfit)) as (h1 & E1 & V). rewrite <- bind_assoc in E.
    erewrite bind_ok in E by exact E1. destruct V as (rx & _ & _ & _ & _ & _ & K & _ & V). destruct (V eq_refl) as (_ & (rt & Hrt & _ & Hgt) & _).
    destruct (st_rec _ _ _ K t r Ht) as (rt' & Hrt' & (S1 & S2 & S3) & S4 & _). assert (rt' = rt) as -> by congruence.
    destruct (tail_node h1 t rt ss x h') as (K2 & N2 & m & Hm & R); try done.
    + eapply holds_contents. eapply (holds_same h1 r rt); [done|]. eapply data_kept_holds; [|exact Hh]. split; [apply K|]. intros y ry Hy. destruct (st_rec _ _ _ K y ry Hy) as (r1 & ? & ? & _). by exists r1.
    + unfold shape in *. congruence.
    + unfold shape in *. congruence.
    + unfold reshape_tail in *. rewrite <- S1, <- S2, <- S3. exact E.
    + apply stays_step in K. split; [by eapply stays_trans|]. assert (forall y, h_ten h1 !! y = None -> h_ten h !! y = None) as Hold.
      { intros y Hy. destruct (h_ten h !! y) as [r0|] eqn:E0; [|done]. destruct (K y r0 E0) as (r1 & Hr1 & _). congruence. }
      split; [auto|]. exists m. split; [|done]. destruct Hm; auto.
  - injection E as <- <-. pose proof (untracked_viewed h t r lay Ht) as V. rewrite <- Erg in V.
    destruct (viewed_node h _ t r lay _ (same_rank ss (shape r)) Ht V Hmap) as [(K & N & Nd) S]. split; [done|]. split; [done|]. exists t. split; [by left|].
    destruct V as (rx & _ & Hx & (_ & D2 & _) & Erg' & _). destruct (K t r Ht) as (rt & Hrt & (_ & Lt & _) & Gt & _).
    split; [by left|]. split; [done|]. split.
    + rewrite (shape_rec _ _ _ Hx), (shape_rec _ _ _ Hrt). unfold shape. rewrite <- D2, <- Lt. exact S.
    + intros (r' & Hr' & Er'). congruence.
Qed.
Lemma n_reshape ops H T h a xs x h' : program ops H T h -> a ∈ H -> Forall in_ll xs -> Forall (fun x => -1 <= x) xs -> given xs < 2 ^ 64 ->
  exec (OReshape (Some a) xs) h = (Ok (RHandle (Some x)), h') -> stays h h' /\ h_ten h !! x = None /\ exists m, (m = a \/ h_ten h !! m = None) /\ reshaped h' x a m.
Proof.
  intros Hp Ha H1 H2 H3 E. destruct (held_rec ops H T h a Hp Ha) as (r & [_ Hr] & Hg & [_ Hv] & Hfit). cbn [exec] in E.
  apply un_inv in E as (y & [= <-] & E). unfold op_reshape in E. erewrite bind_ok in E by (by apply get_ten_ok).
  rewrite bind_lift in E. destruct (regularize_size xs _) as [ss|?|?|] eqn:Es; try done.
  eapply (sv_node h a r ss); try done; [|by eapply regularize_range].
  eapply regularize_good; [done..|by rewrite <- two64_pow| |exact Es]. unfold lnumel. rewrite numel_of_mod. apply u64_range.
Qed.
