(** Views keep the invariant of Prog.v. *)
From Verif.Proofs Require Export Prog6 Chain2.
From Verif.Model Require Export Exact Api.
#[local] Existing Instance Exact.
#[local] Existing Instance is_view_dec.

(** tensor [x] of [h'] is a new view of [t] with layout [lay] *)
Definition viewed (h h' : heap) (t : nat) (r : tensor) (lay : layout) (x : nat) (rg : bool) : Prop :=
  exists rx, h_ten h !! x = None /\ h_ten h' !! x = Some rx /\ same_data (view_rec r lay) rx /\
    t_rg rx = rg /\ t_fn rx = (if rg then Some (Gfn NoBack [t] 0 0 0) else None) /\ step t h h' /\
    (rg = false -> t_grad rx = None) /\
    (rg = true -> t_rg r = true /\ (exists rt, h_ten h' !! t = Some rt /\ t_grad rt <> None /\ grad_ok h' rt) /\ forall s, has_grad h' t s -> has_grad h' x s).

Lemma untracked_viewed h t r lay : h_ten h !! t = Some r -> viewed h (view_heap h r lay) t r lay (length (h_ten h)) false.
Proof.
  intros Hr. exists (view_rec r lay). split; [by apply lookup_ge_None_2|]. split; [apply lookup_snoc|]. split; [done|]. split; [done|]. split; [done|].
  split; [|split; [done|done]]. apply step_extends. split; [done|]. intros y ry Hy. by apply lookup_app_l_Some.
Qed.

Lemma share_viewed h t r lay (x := length (h_ten h)) : h_ten h !! t = Some r -> grad_ok h r -> t_rg r = true ->
  u64 (size_of (t_dt r) * lnumel (t_lay r)) = size_of (t_dt r) * size_prod (shape r) ->
  exists h', (track x NoBack [t] ;;; share_grad_storage x t) (view_heap h r lay) = (Ok tt, h') /\ viewed h h' t r lay x true.
Proof.
  intros Ht Hg Hrg Hnum. assert (t < x)%nat as Hl by (by eapply lookup_lt_Some).
  unfold track. rewrite bind_assoc. erewrite bind_ok by (apply get_ten_ok, lookup_snoc). erewrite bind_ok by apply set_ten_eq.
  match goal with |- context [share_grad_storage _ _ ?y] => set (h2 := y) end. set (rv := with_fn _ _) in h2.
  assert (h_ten h2 !! x = Some rv) as Hx2. { apply list_lookup_insert. simpl. rewrite app_length. simpl. lia. }
  assert (forall y, (y < x)%nat -> h_ten h2 !! y = h_ten h !! y) as Hold2.
  { intros y Hy. cbn [h2 h_ten]. rewrite list_lookup_insert_ne by lia. cbn [view_heap h_ten]. by rewrite lookup_app_l. }
  assert (length (h_ten h2) = Datatypes.S x) as Hl2. { cbn [h2 h_ten]. rewrite insert_length. cbn [view_heap h_ten]. rewrite app_length. simpl. lia. }
  unfold share_grad_storage. erewrite bind_ok by (apply get_ten_ok; by rewrite Hold2).
  destruct (t_grad r) as [g|] eqn:Eg.
  - destruct (Hg g Eg) as [gr Hgr]. assert (g < x)%nat as Hgl by (by eapply lookup_lt_Some).
    rewrite bind_ret. erewrite bind_ok by (apply get_ten_ok; by rewrite Hold2). rewrite Eg.
    erewrite bind_ok by (apply get_ten_ok; by rewrite Hold2). erewrite bind_ok by (by apply get_ten_ok).
    erewrite bind_ok by done. cbn [h_sto h_ten h_ver]. erewrite bind_ok by (apply get_ten_ok; simpl; by apply lookup_app_l_Some).
    rewrite set_ten_eq. cbn [h_sto h_ten h_ver]. eexists. split; [reflexivity|]. match goal with |- viewed _ ?y _ _ _ _ _ => set (h3 := y) end.
    assert (h_ten h3 !! x = Some (with_grad rv (Some (Datatypes.S x)))) as Hx3.
    { cbn [h3 h_ten]. rewrite list_lookup_insert by (rewrite app_length; lia). by rewrite Hl2. }
    assert (forall y, (y < x)%nat -> h_ten h3 !! y = h_ten h !! y) as Hold3.
    { intros y Hy. cbn [h3 h_ten]. rewrite list_lookup_insert_ne by lia. rewrite lookup_app_l by lia. by apply Hold2. }
    assert (h_ten h3 !! Datatypes.S x = Some (Ten (t_dt rv) (t_lay rv) (t_sto gr) None false false None)) as Hg3.
    { cbn [h3 h_ten]. rewrite list_lookup_insert_ne by lia. rewrite <- Hl2. apply lookup_snoc. }
    exists (with_grad rv (Some (Datatypes.S x))). split; [by apply lookup_ge_None_2|]. split; [done|]. split; [done|]. split; [done|]. split; [done|].
    split; [|split; [done|]].
    + apply step_extends. split; [done|]. intros y ry Hy. rewrite Hold3; [done|by eapply lookup_lt_Some].
    + intros _. split; [done|]. split.
      { exists r. rewrite Hold3 by done. split; [done|]. split; [congruence|]. intros g1 Eg1. assert (g1 = g) as -> by congruence. rewrite Hold3 by done. done. }
      intros s (r1 & g1 & gr1 & L1 & L2 & L3 & L4 & L5 & L6 & L7). rewrite Hold3 in L1 by done. assert (r1 = r) as -> by congruence.
      assert (g1 = g) as -> by congruence. rewrite Hold3 in L3 by done. assert (gr1 = gr) as -> by congruence.
      eexists _, _, _. split; [exact Hx3|]. split; [reflexivity|]. split; [exact Hg3|]. split; [done|]. split; [done|]. split; [done|exact L7].
  - rewrite bind_assoc. erewrite bind_ok by apply create_noalloc. erewrite bind_ok by apply set_ten_eq. cbn [h_sto h_ten h_ver]. rewrite Hl2.
    match goal with |- context [bind (get_ten t) _ ?y] => set (h3 := y) end.
    set (gr := Ten (t_dt r) (t_lay r) (length (h_sto h2)) None false false None) in h3.
    assert (h_ten h3 !! t = Some (with_grad r (Some (Datatypes.S x)))) as Ht3.
    { cbn [h3 h_ten]. apply list_lookup_insert. rewrite app_length. lia. }
    assert (forall y, (y < x)%nat -> y <> t -> h_ten h3 !! y = h_ten h !! y) as Hold3.
    { intros y Hy Hne. cbn [h3 h_ten]. rewrite list_lookup_insert_ne by done. rewrite lookup_app_l by lia. by apply Hold2. }
    assert (h_ten h3 !! Datatypes.S x = Some gr) as Hg3.
    { cbn [h3 h_ten]. rewrite list_lookup_insert_ne by lia. rewrite <- Hl2. apply lookup_snoc. }
    assert (h_ten h3 !! x = Some rv) as Hx3. { cbn [h3 h_ten]. rewrite list_lookup_insert_ne by lia. rewrite lookup_app_l by lia. done. }
    assert (length (h_ten h3) = Datatypes.S (Datatypes.S x)) as Hl3. { cbn [h3 h_ten]. rewrite insert_length, app_length, Hl2. simpl. lia. }
    assert (h_sto h3 = h_sto h ++ [Sto (t_dt r) (size_of (t_dt r) * size_prod (shape r)) None]) as Hs3 by (cbn [h3 h_sto]; by rewrite Hnum).
    assert (t_sto gr = length (h_sto h)) as Hgs by done.
    clearbody h3. erewrite bind_ok by (by apply get_ten_ok). cbn [t_grad with_grad].
    erewrite bind_ok by (by apply get_ten_ok). erewrite bind_ok by (by apply get_ten_ok).
    erewrite bind_ok by done. cbn [h_sto h_ten h_ver]. erewrite bind_ok by (apply get_ten_ok; simpl; by apply lookup_app_l_Some).
    rewrite set_ten_eq. cbn [h_sto h_ten h_ver]. eexists. split; [reflexivity|]. match goal with |- viewed _ ?y _ _ _ _ _ => set (h4 := y) end.
    assert (forall y ry, y <> x -> h_ten h3 !! y = Some ry -> h_ten h4 !! y = Some ry) as Hold4.
    { intros y ry Hy Hry. cbn [h4 h_ten]. rewrite list_lookup_insert_ne by done. by apply lookup_app_l_Some. }
    assert (h_ten h4 !! x = Some (with_grad rv (Some (Datatypes.S (Datatypes.S x))))) as Hx4.
    { cbn [h4 h_ten]. rewrite list_lookup_insert by (rewrite app_length; lia). by rewrite Hl3. }
    assert (h_ten h4 !! Datatypes.S (Datatypes.S x) = Some (Ten (t_dt rv) (t_lay rv) (t_sto gr) None false false None)) as Hg4.
    { cbn [h4 h_ten]. rewrite list_lookup_insert_ne by lia. rewrite <- Hl3. apply lookup_snoc. }
    assert (h_sto h4 = h_sto h ++ [Sto (t_dt r) (size_of (t_dt r) * size_prod (shape r)) None]) as Hs4 by exact Hs3.
    assert (has_grad h4 t (length (h_sto h))) as Hgt.
    { eexists _, _, gr. split; [apply Hold4; [lia|exact Ht3]|]. split; [done|]. split; [apply Hold4; [lia|exact Hg3]|]. done. }
    assert (has_grad h4 x (length (h_sto h))) as Hgx.
    { eexists _, _, _. split; [exact Hx4|]. split; [done|]. split; [exact Hg4|]. done. }
    clearbody h4. exists (with_grad rv (Some (Datatypes.S (Datatypes.S x)))). split; [by apply lookup_ge_None_2|]. split; [done|]. split; [done|].
    split; [done|]. split; [done|]. split; [|split; [done|]].
    + split.
      * intros y ry Hy. assert (y < x)%nat as Hyl by (by eapply lookup_lt_Some). destruct (decide (y = t)) as [->|Hne].
        -- assert (ry = r) as -> by congruence. eexists. split; [apply Hold4; [lia|exact Ht3]|]. split; [done|]. split; [done|]. split; [done|].
           right. split; [done|]. split; [done|]. split; [done|]. exists (length (h_sto h)). split; [by apply lookup_ge_None_2|]. split; [done|].
           unfold raw_buffer. rewrite Hs4. apply lookup_snoc.
        -- exists ry. split; [apply Hold4; [lia|]; by rewrite Hold3|]. split; [done|]. split; [done|]. split; [done|]. by left.
      * intros s y Hs. rewrite Hs4. by apply lookup_app_l_Some.
    + intros _. split; [done|]. split.
      { eexists. split; [apply Hold4; [lia|exact Ht3]|]. split; [done|]. intros g1 Eg1. apply (inj Some) in Eg1 as <-. exists gr. apply Hold4; [lia|exact Hg3]. }
      intros s Hs. by rewrite (has_grad_fun _ _ _ _ Hs Hgt).
Qed.

(** a view has no more elements *)
Lemma map_count ss ss' (f : list Z -> list Z) : Forall (fun n => 0 <= n) ss -> Forall (fun n => 0 <= n) ss' ->
  (forall idx, in_range ss idx -> in_range ss' (f idx)) ->
  (forall i j, in_range ss i -> in_range ss j -> f i = f j -> i = j) -> size_prod ss <= size_prod ss'.
Proof.
  intros Hn Hn' Hf Hinj. pose proof (length_indices _ Hn) as Hl. pose proof (length_indices _ Hn') as Hl'.
  assert (length (map f (indices ss)) <= length (indices ss'))%nat as H.
  { apply NoDup_incl_length.
    - apply NoDup_ListNoDup. apply NoDup_fmap_2_strong; [|by apply NoDup_indices].
      intros x y Hx Hy E. apply Hinj; [by apply in_indices..|done].
    - intros z Hz. apply in_map_iff in Hz as (idx & <- & Hi%elem_of_list_In). apply elem_of_list_In.
      apply elem_of_indices, Hf. by apply in_indices. }
  rewrite map_length in H. lia.
Qed.

Lemma GI_view D T h h' t r lay x rg f : GI D T h -> D t -> h_ten h !! t = Some r -> viewed h h' t r lay x rg -> lay_ok lay -> lay_inj lay ->
  (forall idx, in_range (sizes lay) idx -> in_range (shape r) (f idx) /\ pos lay idx = pos (t_lay r) (f idx)) ->
  GI (fun y => D y \/ y = x) T h'.
Proof.
  intros G Dt Ht (rx & Nx & Hx & (E1 & E2 & E3) & Erg & Efn & K & Hun & Htr) Hok Hinj Hf. cbn [view_rec t_dt t_lay t_sto] in E1, E2, E3.
  pose proof (GI_step D T t h h' G K) as G'.
  assert (~ D x) as NDx. { intros Dx. destruct (g_rec _ _ _ G x Dx) as (? & ? & _). congruence. }
  destruct (st_rec _ _ _ K t r Ht) as (rt & Hrt & (S1 & S2 & S3) & _).
  destruct (g_rec _ _ _ G' t Dt) as (rt' & Hrt' & Hh & Hfit & Hi). assert (rt' = rt) as -> by congruence.
  assert (forall idx idx', pos lay idx = pos (t_lay rt) idx' -> elem h' rx idx = elem h' rt idx') as Hel.
  { intros idx idx' E. unfold elem, cells. rewrite <- E2, <- E3, <- S3, E. done. }
  assert (forall idx idx', pos lay idx = pos (t_lay rt) idx' -> value h' x idx = value h' t idx') as Hval.
  { intros idx idx' E. unfold value, contents. rewrite Hx, Hrt. by rewrite (Hel _ _ E). }
  unfold shape in Hf. rewrite S2 in Hf.
  assert (holds h' rx (contents h' rx)) as Hhx.
  { eapply holds_contents. eapply (view_holds h' h' rt rx _ lay f); [split; [done|]; intros ? ry ?; by exists ry|congruence..|done|exact Hf|exact Hh]. }
  assert (lay_of h' x = lay) as Elx by (unfold lay_of; by rewrite Hx).
  assert (lay_of h' t = t_lay rt) as Elt by (unfold lay_of; by rewrite Hrt).
  assert (inputs h' x = if rg then [t] else []) as Ein. { unfold inputs, fn_of. rewrite Hx, Efn. by destruct rg. }
  eapply (GI_add D T h' x rx); try done.
  - unfold fits in *. rewrite <- E1, S1. unfold shape in *. rewrite <- E2. pose proof (size_of_pos (t_dt rt)).
    assert (size_prod (sizes lay) <= size_prod (sizes (t_lay rt))); [|nia].
    apply (map_count _ _ f); [by apply lay_nonneg|by eapply holds_nonneg|intros; by apply Hf|].
    intros i j Hi1 Hj1 E. apply Hinj; [done..|]. rewrite (proj2 (Hf i Hi1)), (proj2 (Hf j Hj1)). by rewrite E.
  - by rewrite <- E2.
  - intros y. rewrite Ein. destruct rg; [intros ->%elem_of_list_singleton; done|intros []%elem_of_nil].
  - intros g Hg. rewrite Efn in Hg. destruct rg; [|done]. apply (inj Some) in Hg as <-. cbn [gf_kind gf_in gf_acc]. split; [|done]. split; [|split; [|done]].
    + cbn [node_ok]. split.
      * exists rt. split; [done|]. destruct (Htr eq_refl) as (Hrg & _). destruct (st_rec _ _ _ K t r Ht) as (rt' & Hrt'' & _ & E & _). congruence.
      * intros idx Hi'. unfold shape_of in *. rewrite Elx in *. rewrite Elt in *. exists (f idx). by apply Hf.
    + cbn [computes]. intros idx idx' _ _. rewrite Elx, Elt. apply Hval.
  - intros Hg Hnv. rewrite Erg in Hg. rewrite Hg in Efn. destruct Hnv. exists (Gfn NoBack [t] 0 0 0). unfold fn_of. by rewrite Hx, Efn.
  - intros Hg. rewrite Erg in Hg. rewrite Hg in Efn. split; [done|]. by apply Hun.
  - intros Hnv. apply Hun. destruct rg; [|done]. destruct Hnv. exists (Gfn NoBack [t] 0 0 0). unfold fn_of. by rewrite Hx, Efn.
  - intros (g & Hg & Hk) Cx b Hb. unfold fn_of in Hg. rewrite Hx, Efn in Hg. destruct rg; [|done]. apply (inj Some) in Hg as <-.
    destruct (Htr eq_refl) as (Hrg & (rt' & Hrt'' & Hne & _) & Hsh).
    assert (base_of h' t b) as Hbt.
    { clear - Hb Hx Efn. inversion Hb as [? Hnv|? f' a ? Hf' Hk' Hi' Hb']; subst.
      - destruct Hnv. exists (Gfn NoBack [t] 0 0 0). unfold fn_of. by rewrite Hx, Efn.
      - unfold fn_of in Hf'. rewrite Hx, Efn in Hf'. apply (inj Some) in Hf' as <-. cbn [gf_in] in Hi'. by injection Hi' as <-. }
    assert (clean h' T t) as Ct.
    { intros y Hy. apply Cx. clear - Hy Ein. induction Hy as [|y z Hy IH Hz]; [|by eapply below_in].
      eapply below_in; [constructor|]. rewrite Ein. apply elem_of_list_singleton. done. }
    destruct (decide (is_view h' t)) as [Hv|Hv].
    + destruct (g_view _ _ _ G' t b Dt Ct Hv Hbt) as (s & Hs1 & Hs2). exists s. split; [by apply Hsh|done].
    + assert (b = t) as ->. { inversion Hbt as [|? f' a ? Hf' Hk' Hi' Hb']; subst; [done|]. destruct Hv. by exists f'. }
      assert (tracked h' t) as Htt. { exists rt. split; [done|]. destruct (st_rec _ _ _ K t r Ht) as (rt1 & ? & _ & E & _). congruence. }
      destruct (g_grad _ _ _ G' t rt Dt) as [?|(s & Hs & _)]; try done; [apply Ct; constructor|congruence|]. exists s. split; [by apply Hsh|done].
  - intros y s Dy Ty Vy Hy. split.
    + intros ->. apply (g_apart _ _ _ G' y _ Dy Ty Vy Hy). exists t, rt. split; [by left|]. split; [done|congruence].
    + intros g kg rk Hg Hk. rewrite Efn in Hg. destruct rg; [|done]. apply (inj Some) in Hg as <-. by apply elem_of_nil in Hk.
Qed.

(** ** the calls *)
Lemma bytes_exact h r w : holds h r w -> fits (t_dt r) (shape r) ->
  u64 (size_of (t_dt r) * lnumel (t_lay r)) = size_of (t_dt r) * size_prod (shape r).
Proof.
  intros Hh Hf. pose proof (holds_allocable _ _ _ _ Hh Hf) as Ha. pose proof (allocable_lt63 _ _ Ha) as Hlt. pose proof (allocable_nonneg _ _ Ha) as Hn.
  assert (lnumel (t_lay r) = size_prod (shape r)) as -> by (apply numel_of_exact; [done|unfold shape, two63, two64 in *; lia]).
  apply u64_id. pose proof (size_of_pos (t_dt r)). pose proof (size_prod_nonneg _ Hn). unfold fits in Hf. pose proof alloc_max_lt. unfold shape in *. unfold two63, two64 in *. nia.
Qed.
Lemma tinv_grad_ok h t r : tinv h -> h_ten h !! t = Some r -> grad_ok h r.
Proof. intros Hi Ht g Hg. exact (tinv_grads_exist h Hi t r g Ht Hg). Qed.

(** a view of [t] *)
Lemma view_GI D T h t r lay f x h' : GI D T h -> D t -> h_ten h !! t = Some r -> grad_ok h r -> lay_ok lay -> lay_inj lay ->
  (forall idx, in_range (sizes lay) idx -> in_range (shape r) (f idx) /\ pos lay idx = pos (t_lay r) (f idx)) ->
  (let! ret := create_view (t_dt r) lay (t_sto r) in
   if negb (t_rg r) then mret ret else track ret NoBack [t] ;;; share_grad_storage ret t ;;; mret ret) h = (Ok x, h') ->
  GI (fun y => D y \/ y = x) T h'.
Proof.
  intros G Dt Ht Hg Hok Hinj Hf E. erewrite bind_ok in E by apply create_view_eq.
  destruct (g_rec _ _ _ G t Dt) as (r' & Hr' & Hh & Hfit & _). assert (r' = r) as -> by congruence.
  destruct (t_rg r) eqn:Erg; cbn [negb] in E.
  - destruct (share_viewed h t r lay Ht Hg Erg (bytes_exact _ _ _ Hh Hfit)) as (h1 & E1 & V). rewrite <- bind_assoc in E.
    erewrite bind_ok in E by exact E1. injection E as <- <-. by eapply (GI_view D T h h1 t r lay).
  - injection E as <- <-. eapply (GI_view D T h _ t r lay); try done. by apply untracked_viewed.
Qed.
Lemma finish_eq h t r lay : h_ten h !! t = Some r ->
  (let! ret := create_view (t_dt r) lay (t_sto r) in finish_view ret t) h =
  (let! ret := create_view (t_dt r) lay (t_sto r) in
   if negb (t_rg r) then mret ret else track ret NoBack [t] ;;; share_grad_storage ret t ;;; mret ret) h.
Proof.
  intros Ht. erewrite bind_ok by apply create_view_eq. symmetry. erewrite bind_ok by apply create_view_eq. symmetry.
  unfold finish_view. erewrite bind_ok by (apply get_ten_ok, lookup_app_l_Some, Ht). done.
Qed.

(** evenly spaced tensors *)
Lemma iso_map l ss sts n : lay_ok l -> lay_in l n -> n < two63 -> size_prod (sizes l) < two63 ->
  (length (strides l) <= length (sizes l))%nat -> isometry (sizes l) (strides l) = Ok true ->
  Forall (fun n => 0 <= n < two64) ss -> size_prod ss = size_prod (sizes l) ->
  match ss with [] => sts = strides l | _ => exists st, last (strides l) = Some st /\ sts = strides_from st ss end ->
  lay_ok (Lay ss sts (offset l)) /\ forall idx, in_range ss idx ->
    in_range (sizes l) (same_rank ss (sizes l) idx) /\ pos (Lay ss sts (offset l)) idx = pos l (same_rank ss (sizes l) idx).
Proof.
  intros Hok Hin Hn Hlt Hl Hiso Hss Hp Hsts. pose proof (lay_nonneg _ Hok) as Hnn.
  assert (Forall (fun n => 0 <= n) ss) as Hss0 by (eapply Forall_impl; [done|]; simpl; lia).
  assert (length (strides l) = length (sizes l)) as Hlen by (pose proof (proj1 Hok); lia).
  split.
  - split; [|split; [done|apply Hok]]. cbn [sizes strides]. destruct ss as [|k ss]; [simpl; lia|]. destruct Hsts as (st & _ & ->). by rewrite strides_from_length.
  - intros idx Hi. destruct ss as [|k ss].
    + destruct (same_rank_spec [] (sizes l) idx Hnn Hp Hi) as [H1 _]. split; [done|]. unfold pos. cbn [strides offset].
      pose proof (size_prod_one _ Hnn (eq_sym Hp)) as Hone. rewrite (in_range_ones _ _ Hone H1), dot_zeros.
      apply in_range_nil_inv in Hi as ->. destruct sts; simpl; lia.
    + destruct Hsts as (st & Hst & ->).
      destruct (isometry_reshape l n (k :: ss)) as (l0 & Hlast & Hx); try done.
      { intros E0. rewrite E0 in Hlen. destruct (strides l); done. }
      assert (l0 = st) as -> by congruence. by apply Hx.
Qed.
Lemma map_inj lay l (f : list Z -> list Z) : lay_inj l -> (forall idx, in_range (sizes lay) idx -> in_range (sizes l) (f idx) /\ pos lay idx = pos l (f idx)) ->
  (forall i j, in_range (sizes lay) i -> in_range (sizes lay) j -> f i = f j -> i = j) -> lay_inj lay.
Proof.
  intros Hl Hf Hj a b Ha Hb E. destruct (Hf a Ha) as [A1 A2]. destruct (Hf b Hb) as [B1 B2]. apply Hj; [done..|]. apply Hl; [done..|]. congruence.
Qed.

Lemma tail_GI D T h t r ss x h' : GI D T h -> D t -> h_ten h !! t = Some r -> grad_ok h r ->
  Forall (fun n => 0 <= n < two64) ss -> size_prod ss = size_prod (shape r) -> reshape_tail t r ss h = (Ok x, h') ->
  exists D' : nat -> Prop, (forall y, D y -> D' y) /\ D' x /\ GI D' T h'.
Proof.
  intros G Dt Ht Hg Hss Hp E. destruct (g_rec _ _ _ G t Dt) as (r' & Hr' & Hh & Hfit & Hinj). assert (r' = r) as -> by congruence.
  destruct (holds_ok _ _ _ Hh) as (Hok & n & Hin & Hn). pose proof (holds_allocable _ _ _ _ Hh Hfit) as Ha. pose proof (allocable_lt63 _ _ Ha) as Hlt.
  assert (Forall (fun n => 0 <= n) ss) as Hss0 by (eapply Forall_impl; [done|]; simpl; lia). pose proof (lay_nonneg _ Hok) as Hnn.
  unfold reshape_tail in E. destruct (Nat.ltb_spec (ldim (t_lay r)) (length (strides (t_lay r)))) as [|Hlen]; [done|].
  rewrite bind_ret, bind_lift in E. destruct (isometry _ _) as [iso|?|?|] eqn:Hiso; try done. cbn [lift] in E. destruct iso.
  - rewrite !bind_assoc in E.
    assert (exists sts, match ss with [] => mret (strides (t_lay r)) | _ :: _ => match last (strides (t_lay r)) with
      | Some st => mret (strides_from st ss) | None => mub OutOfBounds end end h = (Ok sts, h) /\
      match ss with [] => sts = strides (t_lay r) | _ => exists st, last (strides (t_lay r)) = Some st /\ sts = strides_from st ss end) as (sts & Es & Hsts).
    { destruct ss as [|k ss]; [by eexists|]. destruct (last (strides (t_lay r))) as [st|]; [|done]. eexists. split; [done|]. by eexists. }
    erewrite bind_ok in E by exact Es. rewrite bind_assoc in E.
    destruct (iso_map (t_lay r) ss sts n) as [Hlok Hmap]; try done.
    exists (fun y => D y \/ y = x). split; [by left|]. split; [by right|].
    eapply (view_GI D T h t r (Lay ss sts (offset (t_lay r))) (same_rank ss (shape r))); try done.
    + eapply (map_inj _ (t_lay r) (same_rank ss (shape r))); [done|exact Hmap|]. cbn [sizes]. intros i j Hi Hj. by apply same_rank_inj.
    + erewrite bind_ok by apply create_view_eq. erewrite bind_ok in E by apply create_view_eq. rewrite bind_ret in E. 
      erewrite bind_ok in E by (apply get_ten_ok, lookup_app_l_Some, Ht). exact E.
  - rewrite bind_assoc in E. erewrite bind_ok in E by (by apply (clone_ok h t r (contents h r))). set (h1 := alloc_heap _ _ _ _ _ _) in E.
    set (m := length (h_ten h)) in E. fold (shape r) in h1.
    assert (GI (fun y => D y \/ y = m) T h1) as G1.
    { apply (clone_GI D T h G t r (t_dt r) (contents h r)); try done. intros idx Hi. by eapply holds_ty. }
    set (rm := fresh_rec h (t_dt r) (contig (shape r)) (t_rg r) (clone_fn (t_rg r) t)).
    assert (h_ten h1 !! m = Some rm) as Hm by apply alloc_ten.
    assert (h_ten h1 !! t = Some r) as Ht1 by (by apply alloc_ten_old). clearbody h1.
    rewrite bind_assoc in E. erewrite bind_ok in E by (by apply get_ten_ok). rewrite bind_assoc in E. change (t_dt r) with (t_dt rm) in E.
    exists (fun y => (D y \/ y = m) \/ y = x). split; [by intros; left; left|]. split; [by right|].
    assert (forall idx, in_range ss idx -> in_range (shape r) (same_rank ss (shape r) idx) /\
      pos (contig ss) idx = pos (contig (shape r)) (same_rank ss (shape r) idx)) as Hmap.
    { intros idx Hi. destruct (same_rank_spec ss (shape r) idx Hnn Hp Hi) as [H1 H2]. split; [done|].
      rewrite !pos_contig by (rewrite ?Hp; done). done. }
    eapply (view_GI (fun y => D y \/ y = m) T h1 m rm (contig ss) (same_rank ss (shape r))).
    + done.
    + by right.
    + done.
    + by intros g ?.
    + by apply contig_lay_ok.
    + apply contig_lay_inj. unfold shape in *. lia.
    + exact Hmap.
    + erewrite bind_ok by apply create_view_eq. erewrite bind_ok in E by apply create_view_eq. rewrite bind_ret in E.
      erewrite bind_ok in E by (apply get_ten_ok, lookup_app_l_Some, Ht1). exact E.
Qed.

Lemma reshape_GI D T h t r ss x h' : GI D T h -> D t -> h_ten h !! t = Some r -> grad_ok h r -> good_sizes ss ->
  Forall (fun n => 0 <= n < two64) ss -> op_reshape_sv t ss h = (Ok x, h') ->
  exists D' : nat -> Prop, (forall y, D y -> D' y) /\ D' x /\ GI D' T h'.
Proof.
  intros G Dt Ht Hg [Hs1 Hs2] Hss E. destruct (g_rec _ _ _ G t Dt) as (r' & Hr' & Hh & Hfit & Hinj). assert (r' = r) as -> by congruence.
  destruct (Z.eq_dec (numel_of ss) (lnumel (t_lay r))) as [Hn|Hn].
  2:{ by rewrite (reshape_sv_reject h t r ss) in E. }
  rewrite (op_reshape_sv_eq t ss h r) in E by done.
  destruct (holds_ok _ _ _ Hh) as (Hok & n & Hin & Hn'). pose proof (holds_allocable _ _ _ _ Hh Hfit) as Ha. pose proof (allocable_lt63 _ _ Ha) as Hlt.
  pose proof (lay_nonneg _ Hok) as Hnn.
  assert (numel_of ss = size_prod ss) as Hnum by (by apply numel_of_exact).
  assert (lnumel (t_lay r) = size_prod (shape r)) as Hnum' by (apply numel_of_exact; [done|unfold shape, two63, two64 in *; lia]).
  assert (size_prod ss = size_prod (shape r)) as Hp by congruence.
  destruct (Z.eqb_spec (numel_of ss) 1) as [H1|H1]; [|by eapply tail_GI].
  set (lay := Lay ss (map (fun _ => 1) ss) (offset (t_lay r))) in *.
  assert (lay_ok lay) as Hlok. { split; [cbn; by rewrite map_length|]. split; [done|apply Hok]. }
  assert (forall idx, in_range (sizes lay) idx -> in_range (shape r) (same_rank ss (shape r) idx) /\ pos lay idx = pos (t_lay r) (same_rank ss (shape r) idx)) as Hmap.
  { cbn [lay sizes]. intros idx Hi. destruct (same_rank_spec ss (shape r) idx Hnn Hp Hi) as [Hr1 _]. split; [done|]. unfold pos. cbn [lay strides offset].
    rewrite (in_range_ones _ _ (size_prod_one _ Hnn ltac:(unfold shape in *; lia)) Hr1), dot_zeros.
    rewrite (in_range_ones _ _ (size_prod_one _ Hs1 ltac:(lia)) Hi), dot_zeros. done. }
  erewrite bind_ok in E by apply create_view_eq. destruct (t_rg r) eqn:Erg; cbn [negb] in E.
  - destruct (share_viewed h t r lay Ht Hg Erg (bytes_exact _ _ _ Hh Hfit)) as (h1 & E1 & V). rewrite <- bind_assoc in E.
    erewrite bind_ok in E by exact E1. destruct V as (rx & _ & _ & _ & _ & _ & K & _ & V). destruct (V eq_refl) as (_ & (rt & Hrt & _ & Hgt) & _).
    destruct (st_rec _ _ _ K t r Ht) as (rt' & Hrt' & (S1 & S2 & S3) & S4 & _). assert (rt' = rt) as -> by congruence.
    eapply (tail_GI D T h1 t rt ss x h'); try done.
    + by eapply GI_step.
    + unfold shape in *. congruence.
    + unfold reshape_tail in *. rewrite <- S1, <- S2, <- S3. exact E.
  - exists (fun y => D y \/ y = x). split; [by left|]. split; [by right|]. injection E as <- <-.
    eapply (GI_view D T h _ t r lay); [done|done|done|by apply untracked_viewed|done| |exact Hmap].
    eapply (map_inj _ (t_lay r) (same_rank ss (shape r))); [done|exact Hmap|]. cbn [lay sizes]. intros i j Hi Hj. by apply same_rank_inj.
Qed.

Lemma regularize_range xs n ss : regularize_size xs n = Ok ss -> Forall (fun n => 0 <= n < two64) ss.
Proof.
  intros E. assert (forall f : Z -> Z, Forall (fun n => 0 <= n < two64) (map (fun z => u64 (f z)) xs)) as Hu.
  { intros f. apply Forall_fmap, Forall_forall. intros z _. apply u64_range. }
  unfold regularize_size in E. destruct xs as [|x0 xs0] eqn:Exs; [apply obind_ok_inv in E as (_ & _ & [= <-]); done|]. rewrite <- Exs in *. clear Exs.
  apply obind_ok_inv in E as (_ & _ & E). destruct (_ =? 1)%nat.
  - destruct (_ =? 0); [done|]. apply obind_ok_inv in E as (_ & _ & E). apply ok_inj in E as <-.
    apply Forall_fmap, Forall_forall. intros z _. simpl. destruct (z =? -1); apply u64_range.
  - apply ok_inj in E as <-. apply (Hu (fun z => z)).
Qed.

Section ops.
Variables (D T : nat -> Prop) (h : heap) (H : list nat).
Hypothesis Hinv : tinv h.
Hypothesis G : GI D T h.
Hypothesis HD : forall x, x ∈ H -> D x.

Lemma keeps_slice a r s : at_hand h H a r -> Forall (fun n => n < two63) (shape r) -> keeps_GI D T h (OSlice (Some a) s).
Proof.
  intros Hh Hlt x h' E. destruct (hand_at D T h H G HD a r Hh) as (Da & [Ha Hv] & Hfit & Hinj).
  exists (fun y => D y \/ y = x). split; [by left|]. split; [by right|]. cbn [exec] in E.
  apply un_inv in E as (y & [= <-] & E). unfold op_slice in E. erewrite bind_ok in E by (by apply get_ten_ok).
  rewrite bind_lift in E. destruct (slice_layout (t_lay r) s) as [lay|?|?|] eqn:El; try done.
  unfold slice_layout in El. apply obind_ok_inv in El as (_ & _ & El). apply obind_ok_inv in El as (y & Hy & El). apply ok_inj in El as <-.
  destruct (holds_ok _ _ _ Hv) as (Hok & n & Hin & Hn). pose proof (lay_nonneg _ Hok) as Hnn.
  assert (Forall (fun n => 0 <= n < two63) (sizes (t_lay r))) as Hb.
  { unfold shape in Hlt. rewrite Forall_forall in Hnn, Hlt |- *. intros m Hm. specialize (Hnn m Hm). specialize (Hlt m Hm). simpl in *. lia. }
  destruct (slice_dims_inv _ _ _ _ _ Hb (proj2 (proj2 Hok)) Hy) as (_ & xs & _ & Hleg & ->). cbn [fst snd] in E.
  change (Lay _ _ _) with (sel_layout (t_lay r) xs) in E. assert (n <= two64) by (unfold two63, two64 in *; lia).
  destruct (sel_layout_ok (t_lay r) xs Hok Hleg) as [Hlok Hsh]. cbn [lift] in E. 
  eapply (view_GI D T h a r (sel_layout (t_lay r) xs) (src_index (shape r) xs)); try done.
  - by eapply tinv_grad_ok.
  - by eapply sel_layout_inj.
  - intros idx Hi. rewrite Hsh in Hi. by eapply sel_layout_pos.
  - rewrite <- finish_eq by done. exact E.
Qed.
Lemma keeps_transpose a r i j : at_hand h H a r -> keeps_GI D T h (OTranspose (Some a) i j).
Proof.
  intros Hh x h' E. destruct (hand_at D T h H G HD a r Hh) as (Da & [Ha Hv] & Hfit & Hinj).
  exists (fun y => D y \/ y = x). split; [by left|]. split; [by right|]. cbn [exec] in E.
  apply un_inv in E as (y & [= <-] & E). unfold op_transpose in E. erewrite bind_ok in E by (by apply get_ten_ok).
  destruct (_ && _) eqn:H1 in E; [|done]. erewrite bind_ok in E by done.
  destruct (negb (i =? j)) eqn:H2; [|done]. erewrite bind_ok in E by done. unfold ldim in H1.
  destruct (holds_ok _ _ _ Hv) as (Hok & n & Hin & Hn).
  assert (Z.to_nat i < length (sizes (t_lay r)))%nat as Hi by lia. assert (Z.to_nat j < length (sizes (t_lay r)))%nat as Hj by lia.
  assert (length (sizes (t_lay r)) <= length (strides (t_lay r)))%nat as Hls by apply Hok.
  assert (forall idx, in_range (sizes (swap_lay (Z.to_nat i) (Z.to_nat j) (t_lay r))) idx ->
    in_range (shape r) (swap_at (Z.to_nat i) (Z.to_nat j) idx) /\ pos (swap_lay (Z.to_nat i) (Z.to_nat j) (t_lay r)) idx = pos (t_lay r) (swap_at (Z.to_nat i) (Z.to_nat j) idx)) as Hp.
  { cbn [swap_lay sizes]. intros idx Hr. pose proof (in_range_length _ _ Hr) as Hlen. rewrite swap_at_length in Hlen. split.
    - unfold shape. rewrite <- (swap_at_twice (Z.to_nat i) (Z.to_nat j) (sizes (t_lay r))) by done. apply in_range_swap; [done|by rewrite swap_at_length..].
    - unfold pos. cbn [swap_lay strides offset]. rewrite dot_swap by lia. done. }
  eapply (view_GI D T h a r (swap_lay (Z.to_nat i) (Z.to_nat j) (t_lay r)) (swap_at (Z.to_nat i) (Z.to_nat j))); try done.
  - by eapply tinv_grad_ok.
  - by apply swap_lay_ok.
  - eapply (map_inj _ (t_lay r)); [done|exact Hp|]. intros p q Hpr Hqr E'.
    apply in_range_length in Hpr, Hqr. cbn [swap_lay sizes] in Hpr, Hqr. rewrite swap_at_length in Hpr, Hqr.
    rewrite <- (swap_at_twice (Z.to_nat i) (Z.to_nat j) p), <- (swap_at_twice (Z.to_nat i) (Z.to_nat j) q) by lia. by rewrite E'.
  - rewrite <- finish_eq by done. exact E.
Qed.
Lemma keeps_detach a r : at_hand h H a r -> keeps_GI D T h (ODetach (Some a)).
Proof.
  intros Hh x h' E. destruct (hand_at D T h H G HD a r Hh) as (Da & [Ha Hv] & Hfit & Hinj).
  exists (fun y => D y \/ y = x). split; [by left|]. split; [by right|]. cbn [exec] in E.
  apply un_inv in E as (y & [= <-] & E). unfold op_detach in E. erewrite bind_ok in E by (by apply get_ten_ok). rewrite create_view_eq in E. injection E as <- <-.
  destruct (holds_ok _ _ _ Hv) as (Hok & n & Hin & Hn).
  eapply (GI_view D T h _ a r (t_lay r) _ _ (fun idx => idx)); [done|done|done|by apply untracked_viewed|done|done|done].
Qed.
Lemma keeps_reshape a r xs : at_hand h H a r -> Forall in_ll xs -> Forall (fun x => -1 <= x) xs -> given xs < 2 ^ 64 -> keeps_GI D T h (OReshape (Some a) xs).
Proof.
  intros Hh H1 H2 H3 x h' E. destruct (hand_at D T h H G HD a r Hh) as (Da & [Ha Hv] & Hfit & Hinj). cbn [exec] in E.
  apply un_inv in E as (y & [= <-] & E). unfold op_reshape in E. erewrite bind_ok in E by (by apply get_ten_ok).
  rewrite bind_lift in E. destruct (regularize_size xs _) as [ss|?|?|] eqn:Es; try done.
  eapply (reshape_GI D T h a r ss); try done; [by eapply tinv_grad_ok| |by eapply regularize_range].
  eapply regularize_good; [done..|by rewrite <- two64_pow| |exact Es]. unfold lnumel. rewrite numel_of_mod. apply u64_range.
Qed.
Lemma keeps_reshape_as a b r rb : at_hand h H a r -> at_hand h H b rb -> size_prod (shape rb) < 2 ^ 64 -> keeps_GI D T h (OReshapeAs (Some a) (Some b)).
Proof.
  intros Hh Hh' H1 x h' E. destruct (hand_at D T h H G HD a r Hh) as (Da & [Ha Hv] & Hfit & Hinj).
  destruct (hand_at D T h H G HD b rb Hh') as (Db & [Hb Hvb] & _). cbn [exec] in E.
  apply bin_inv in E as (y & z & [= <-] & [= <-] & E). unfold op_reshape_as in E. erewrite bind_ok in E by (by apply get_ten_ok).
  destruct (holds_ok _ _ _ Hvb) as (Hok & _).
  eapply (reshape_GI D T h a r (sizes (t_lay rb))); try done; [by eapply tinv_grad_ok| |apply Hok].
  split; [by apply lay_nonneg|]. by rewrite <- two64_pow.
Qed.
End ops.
