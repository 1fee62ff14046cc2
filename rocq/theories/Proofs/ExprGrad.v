(** Gradients of expressions: the graph that the calls of an expression leave behind. *)
From Verif.Proofs Require Export Expr Formula.
From Verif.Spec Require Export ExprGrad.
From Verif.Model Require Export Exact Api.
#[local] Existing Instance Exact.

(** ** tensors that stay, new nodes *)
Definition stays (h h' : heap) : Prop :=
  forall y r, h_ten h !! y = Some r -> exists r', h_ten h' !! y = Some r' /\ same_data r r' /\ t_rg r' = t_rg r /\ t_fn r' = t_fn r /\
    (forall s, h_sto h !! t_sto r = Some s -> h_sto h' !! t_sto r = Some s) /\
    (t_grad r' = t_grad r \/ t_grad r = None /\ exists s, has_grad h' y s /\ raw_buffer h' s (t_dt r) (t_lay r)).
Lemma stays_refl h : stays h h.
Proof. intros y r Hr. exists r. split_and!; try done. by left. Qed.
Lemma stays_trans h1 h2 h3 : stays h1 h2 -> stays h2 h3 -> stays h1 h3.
Proof.
  intros K1 K2 y r Hr. destruct (K1 y r Hr) as (r' & Hr' & (D1 & D2 & D3) & G1 & F1 & S1 & N1). destruct (K2 y r' Hr') as (r2 & Hr2 & (E1 & E2 & E3) & G2 & F2 & S2 & N2).
  exists r2. split; [done|]. split; [split; [congruence|split; congruence]|]. split; [congruence|]. split; [congruence|]. split; [intros s Hs; rewrite D3 in *; by apply S2, S1|].
  destruct N1 as [N1|(N1 & s & (u & g & gr & Hu & Eg & Hg & P1 & P2 & P3 & P4) & Hraw)].
  - destruct N2 as [N2|(N2 & s & Hg & Hraw)]; [left; congruence|]. right. split; [congruence|]. exists s. rewrite D1, D2. done.
  - right. split; [done|]. exists s. assert (u = r') as -> by congruence. destruct (K2 g gr Hg) as (gr' & Hg' & (Q1 & Q2 & Q3) & Q4 & _ & Q5 & _). split.
    + exists r2, g, gr'. split; [done|]. split; [destruct N2 as [->|[N2 _]]; [done|congruence]|]. split; [done|]. split_and!; congruence.
    + unfold raw_buffer in *. rewrite P4 in Q5. by apply Q5.
Qed.
Lemma stays_extends h h' : extends h h' -> stays h h'.
Proof. intros [S K] y r Hr. exists r. split; [by apply K|]. split_and!; try done; [intros s; apply S|by left]. Qed.
Lemma stays_step a h h' : step a h h' -> stays h h'.
Proof.
  intros K y r Hr. destruct (st_rec _ _ _ K y r Hr) as (r' & H1 & H2 & H3 & H4 & H5). exists r'. split; [done|]. split; [done|]. split; [done|]. split; [done|]. split; [intros s; apply (st_sto _ _ _ K)|].
  destruct H5 as [H5|(_ & H5 & _ & s & _ & H6)]; [by left|right; split; [done|by exists s]].
Qed.
(** gradients keep their elements; a gradient that a view has created is 0 *)
Lemma stays_grad ops H T h h' a i : program ops H T h -> stays h h' -> a ∈ H -> ~ is_node h a -> grad_value h' a i = grad_value h a i.
Proof.
  intros Hp K Ha Hn. destruct (program_GI _ _ _ _ Hp) as (D & G & HD). destruct (g_rec _ _ _ G a (HD a Ha)) as (r & Hr & _).
  destruct (K a r Hr) as (r' & Hr' & _ & _ & _ & _ & N). unfold grad_value. rewrite Hr, Hr'. destruct N as [->|(-> & s & (u & g & gr & Hu & Eg & Hg & P1 & P2 & P3 & P4) & Hraw)].
  - destruct (t_grad r) as [g|] eqn:Eg0; [|done].
    assert (~ T a) as Ta by (intros [_ ?]%(g_sub _ _ _ G); done).
    assert (~ is_view h a) as Va by (intros (f & ? & _); apply Hn; by exists f).
    assert (tracked h a) as Ht. { exists r. split; [done|]. destruct (t_rg r) eqn:Erg; [done|]. destruct (g_const _ _ _ G a r (HD a Ha) Hr Erg). congruence. }
    destruct (g_grad _ _ _ G a r (HD a Ha) Ta Ht Va Hr) as [?|(s & Hs & _)]; [congruence|].
    pose proof Hs as (r1 & g1 & gr & L1 & L2 & L3 & L4 & L5 & L6 & L7). assert (r1 = r) as -> by congruence. assert (g1 = g) as -> by congruence.
    destruct (grad_exists D T h a s G (HD a Ha) Ta Va Hs) as [x Hx].
    destruct (K g gr L3) as (gr' & Hgr' & Sg & _ & _ & Hst & _). unfold value. rewrite Hgr', L3. do 1 f_equal. unfold contents.
    rewrite (kept_elem h h' gr gr' i Sg); [done|]. rewrite L7 in *. by rewrite Hx, (Hst x Hx).
  - assert (u = r') as -> by congruence. rewrite Eg. unfold value. rewrite Hg. unfold contents, elem, cells. rewrite P4, Hraw. done.
Qed.
Lemma stays_lay h h' y r : stays h h' -> h_ten h !! y = Some r -> lay_of h' y = lay_of h y.
Proof. intros K Hr. destruct (K y r Hr) as (r' & Hr' & (_ & D & _) & _). unfold lay_of. rewrite Hr, Hr'. congruence. Qed.
Lemma stays_fn h h' y r : stays h h' -> h_ten h !! y = Some r -> fn_of h' y = fn_of h y.
Proof. intros K Hr. destruct (K y r Hr) as (r' & Hr' & _ & _ & F & _). unfold fn_of. by rewrite Hr, Hr'. Qed.

(** [x] is the result of an operation of kind [k] on [ins]; only tracked results have a node *)
Definition nodeat (h : heap) (x : nat) (k : bkind) (ins : list nat) : Prop :=
  exists r, h_ten h !! x = Some r /\ t_fn r = (if t_rg r then Some (Gfn k ins 0 0 0) else None) /\ (k <> NoBack -> t_lay r = contig (shape r)).
Lemma nodeat_stays h h' x k ins : stays h h' -> nodeat h x k ins -> nodeat h' x k ins.
Proof.
  intros K (r & Hr & Hf & Hl). destruct (K x r Hr) as (r' & Hr' & (D1 & D2 & D3) & G & F & _). exists r'. split; [done|]. rewrite G, F. split; [done|].
  unfold shape in *. by rewrite <- D2.
Qed.
Lemma nodeat_fn h x k ins f : nodeat h x k ins -> fn_of h x = Some f -> gf_kind f = k /\ gf_in f = ins.
Proof. intros (r & Hr & Hf & _) E. unfold fn_of in E. rewrite Hr, Hf in E. destruct (t_rg r); [|done]. by injection E as <-. Qed.
Lemma nodeat_tracked h x k ins : nodeat h x k ins -> tracked h x -> fn_of h x = Some (Gfn k ins 0 0 0).
Proof. intros (r & Hr & Hf & _) (r' & Hr' & E). assert (r' = r) as -> by congruence. unfold fn_of. by rewrite Hr, Hf, E. Qed.
Lemma nodeat_untracked h x k ins : nodeat h x k ins -> ~ tracked h x -> fn_of h x = None.
Proof.
  intros (r & Hr & Hf & _) N. unfold fn_of. rewrite Hr, Hf. destruct (t_rg r) eqn:E; [|done]. destruct N. by exists r.
Qed.
Definition makes_node (h : heap) (x : nat) (h' : heap) (k : bkind) (ins : list nat) : Prop :=
  stays h h' /\ h_ten h !! x = None /\ nodeat h' x k ins.
Lemma alloc_node h dt ss cs (rg : bool) k ins : makes_node h (length (h_ten h)) (alloc_heap h dt (contig ss) cs rg (if rg then Some (Gfn k ins 0 0 0) else None)) k ins.
Proof.
  split; [apply stays_extends, alloc_extends|]. split; [by apply lookup_ge_None_2|]. eexists. split; [apply alloc_ten|]. split; [done|]. intros _. unfold shape. cbn. done.
Qed.

(** ** the nodes of the calls *)
Ltac exec_eq E H := rewrite H in E; apply pair_equal_spec in E as [E ?]; injection E as <-; subst.
Lemma n_arith o h a b A B C x h' ba bb : is_arr h a A ba -> is_arr h b B bb -> compatible (a_ss A) (a_ss B) -> no_zero_one (a_ss A) (a_ss B) ->
  room (dt_join (a_dt A) (a_dt B)) (bshape (a_ss A) (a_ss B)) -> d_arith o A B = Some C -> exec (exec_arith o (Some a) (Some b)) h = (Ok (RHandle (Some x)), h') ->
  makes_node h x h' (back_of o) [a; b].
Proof.
  intros (ra & Ha & Da & Sa & Ga & _) (rb & Hb & Db & Sb & Gb & _) Hc Hz [F R] HC E. unfold d_arith in HC. rewrite <- Da, <- Db, <- Sa, <- Sb in *.
  destruct (op_arith_spec o h a b ra rb _ _ (proj1 Ha) (proj1 Hb) (proj2 Ha) (proj2 Hb) Hc Hz F (fun _ => qc_comm)) as [Hok _].
  apply table_spec in HC as (E1 & E2 & E3 & Hv). rewrite exec_arith_eq, new_handle_eq, (Hok _ Hv) in E. injection E as <- <-. apply alloc_node.
Qed.
Lemma n_neg h a A C x h' ba : is_arr h a A ba -> room (dt_join I32 (a_dt A)) (a_ss A) -> d_neg A = Some C -> exec (ONeg (Some a)) h = (Ok (RHandle (Some x)), h') ->
  exists z, makes_node h x h' SubBack [z; a] /\ has_arr h' z (Arr I32 [] false (fun _ => VI 0)) /\ ~ is_node h' z.
Proof.
  intros (ra & Ha & Da & Sa & Ga & _) [F R] HC E. unfold d_neg in HC. rewrite <- Da, <- Sa in *. apply table_spec in HC as (E1 & E2 & E3 & Hv).
  cbn [exec] in E. rewrite un_some, new_handle_eq in E. unfold op_neg in E. erewrite bind_ok in E by (apply create_scalar_ok). fold (scalar_heap h I32 (VI 0)) in E.
  pose proof (scalar_extends h I32 (VI 0)) as He. set (rz := Create.fresh_rec h I32 (contig []) false None).
  assert (tensor_at (scalar_heap h I32 (VI 0)) (length (h_ten h)) rz (fun _ => VI 0)) as Hz. { split; [apply alloc_ten|]. apply alloc_holds; [apply allocable_nil|done]. }
  assert (length (h_ten (scalar_heap h I32 (VI 0))) = S (length (h_ten h))) as Hlen. { unfold scalar_heap, alloc_heap. cbn. rewrite app_length. cbn. lia. }
  remember (scalar_heap h I32 (VI 0)) as h1 eqn:Eh1. clear Eh1.
  pose proof (at_extends _ _ _ _ _ He Ha) as Ha1.
  destruct (op_arith_spec ASub h1 _ a rz ra _ _ (proj1 Hz) (proj1 Ha1) (proj2 Hz) (proj2 Ha1)) as [Hok _].
  { apply compatible_nil. } { apply no_zero_one_nil. } { change (sizes (t_lay rz)) with (@nil Z). by rewrite bshape_nil. } { done. }
  change (sizes (t_lay rz)) with (@nil Z) in Hok. rewrite bshape_nil in Hok. cbn [op_arith] in Hok. rewrite (Hok (a_v C)) in E.
  2:{ intros idx Hi. unfold arith_elem. rewrite Binary.bidx_self by done. by apply Hv. }
  remember (alloc_heap h1 _ _ _ _ _) as h2 eqn:Eh2. injection E as <- <-. exists (length (h_ten h)).
  assert (makes_node h1 (length (h_ten h1)) h2 SubBack [length (h_ten h); a]) as (K1 & K2 & K3). { rewrite Eh2. apply alloc_node. }
  assert (extends h1 h2) as He2 by (rewrite Eh2; apply alloc_extends).
  pose proof (at_extends _ _ _ _ _ He2 Hz) as Hz2. pose proof (proj1 Hz2) as Rz. split; [|split].
  - split; [eapply stays_trans; [by apply stays_extends|done]|]. split; [apply lookup_ge_None_2; lia|done].
  - by exists rz.
  - intros [f Hf]. unfold fn_of in Hf. rewrite Rz in Hf. done.
Qed.
Lemma n_cast D h a A C x h' ba : is_arr h a A ba -> room D (a_ss A) -> (a_rg A = true -> floating D = true) -> d_cast D A = Some C ->
  exec (OTypeTo (Some a) D) h = (Ok (RHandle (Some x)), h') -> (x = a /\ h' = h) \/ makes_node h x h' CloneBack [a].
Proof.
  intros (ra & Ha & Da & Sa & Ga & _) [F R] Hg HC E. unfold d_cast in HC. rewrite <- Sa, <- Ga, <- Da in *. destruct (decide (D = t_dt ra)) as [->|Hne].
  - left. rewrite (type_same h a ra (proj1 Ha) Hg) in E. injection E as <- <-. done.
  - right. destruct (to_dtype_ok h a ra _ D (proj1 Ha) (proj2 Ha) F Hne) as [Hok _]. { destruct (t_rg ra); [|done]. by rewrite Hg. }
    apply table_spec in HC as (E1 & E2 & E3 & Hv). cbn [exec] in E. rewrite un_some, new_handle_eq, (Hok _ Hv) in E. injection E as <- <-. apply alloc_node.
Qed.
Lemma n_copy h a A x h' ba : is_arr h a A ba -> room (a_dt A) (a_ss A) -> exec (OClone (Some a)) h = (Ok (RHandle (Some x)), h') -> makes_node h x h' CloneBack [a].
Proof.
  intros (ra & Ha & Da & Sa & Ga & _) [F R] E. rewrite <- Sa, <- Da in *. cbn [exec] in E. rewrite un_some, new_handle_eq, (clone_ok h a ra _ (proj1 Ha) (proj2 Ha) F) in E.
  injection E as <- <-. apply alloc_node.
Qed.
Lemma n_sum h a A C x h' ba : is_arr h a A ba -> size_prod (a_ss A) < two63 -> d_sum A = Some C -> exec (OSum (Some a)) h = (Ok (RHandle (Some x)), h') -> makes_node h x h' SumBack [a].
Proof.
  intros (ra & Ha & Da & Sa & Ga & _) Hp HC E. rewrite <- Sa in Hp. unfold d_sum in HC. rewrite <- Sa, <- Da in HC.
  pose proof (sum_ok h a ra _ (proj1 Ha) (proj2 Ha) Hp) as H0. unfold shape in *. destruct (array_sum _ _ _) as [v|]; [|done].
  cbn [exec] in E. rewrite un_some, new_handle_eq, (proj1 H0) in E. injection E as <- <-. apply alloc_node.
Qed.
Lemma n_mean h a A C x h' ba : is_arr h a A ba -> size_prod (a_ss A) < two63 -> d_mean A = Some C -> exec (OMean (Some a)) h = (Ok (RHandle (Some x)), h') -> makes_node h x h' MeanBack [a].
Proof.
  intros (ra & Ha & Da & Sa & Ga & _) Hp HC E. rewrite <- Sa in Hp. unfold d_mean in HC. rewrite <- Sa, <- Da in HC.
  pose proof (mean_ok h a ra _ (proj1 Ha) (proj2 Ha) Hp) as H0. unfold shape in *. destruct (array_mean _ _ _) as [v|]; [|done].
  cbn [exec] in E. rewrite un_some, new_handle_eq, (proj1 H0) in E. injection E as <- <-. apply alloc_node.
Qed.
Lemma n_cmp c h a b A B x h' ba bb : is_arr h a A ba -> is_arr h b B bb -> compatible (a_ss A) (a_ss B) -> no_zero_one (a_ss A) (a_ss B) ->
  room I8 (bshape (a_ss A) (a_ss B)) -> exec (OCmp c (Some a) (Some b)) h = (Ok (RHandle (Some x)), h') -> stays h h' /\ ~ is_node h' x.
Proof.
  intros (ra & Ha & Da & Sa & Ga & _) (rb & Hb & Db & Sb & Gb & _) Hc Hz [F R] E. rewrite <- Sa, <- Sb in *.
  cbn [exec] in E. rewrite bin_some, new_handle_eq, (op_cmp_spec c h a b ra rb _ _ (proj1 Ha) (proj1 Hb) (proj2 Ha) (proj2 Hb) Hc Hz F) in E. injection E as <- <-.
  split; [apply stays_extends, alloc_extends|]. intros [f Hf]. unfold fn_of in Hf. rewrite alloc_ten in Hf. done.
Qed.
Lemma n_cat d h a b A B x h' ba bb : is_arr h a A ba -> is_arr h b B bb -> (d < length (a_ss A))%nat -> same_but d (a_ss A) (a_ss B) ->
  let ss := <[d := nth d (a_ss A) 0 + nth d (a_ss B) 0]> (a_ss A) in
  Forall (fun n => n < two64) ss -> room (dt_join (a_dt A) (a_dt B)) ss -> exec (OCat [Some a; Some b] (Z.of_nat d)) h = (Ok (RHandle (Some x)), h') ->
  makes_node h x h' (CatBack (Z.of_nat d)) [a; b].
Proof.
  intros (ra & Ha & Da & Sa & Ga & _) (rb & Hb & Db & Sb & Gb & _) Hd Hsame ss H64 [F R] E.
  assert (cat_shape d ra [ra; rb] = ss) as Cs. { unfold cat_shape, sizes_along, ss. cbn [map total_len fold_right]. rewrite Sa, Sb. f_equal. lia. }
  assert (cat_type ra [ra; rb] = dt_join (a_dt A) (a_dt B)) as Ct. { unfold cat_type. cbn [fold_left]. by rewrite Da, Db, dt_join_self. }
  pose proof (cat_ok h [a; b] [ra; rb] [a_v A; a_v B] ra [rb] (Z.of_nat d)) as HK. cbv zeta in HK. rewrite !Nat2Z.id, Cs, Ct in HK.
  assert (Forall2 (fun t r => h_ten h !! t = Some r) [a; b] [ra; rb]) as P1 by (constructor; [apply Ha|constructor; [apply Hb|constructor]]).
  assert (Forall2 (holds h) [ra; rb] [a_v A; a_v B]) as P2 by (constructor; [apply Ha|constructor; [apply Hb|constructor]]).
  assert (Forall (fun r => same_but d (shape ra) (shape r)) [ra; rb]) as P3. { constructor; [by split|constructor; [by rewrite Sa, Sb|constructor]]. }
  assert (0 <= Z.of_nat d < Z.of_nat (length (shape ra))) as P4 by (rewrite Sa; lia).
  destruct (HK P1 P2 eq_refl P4 P3 H64 F) as (w' & Hw' & E').
  assert (exec (OCat [Some a; Some b] (Z.of_nat d)) h = new_handle (op_cat [a; b] (Z.of_nat d)) h) as Ex by (cbn [exec]; by erewrite bind_ok by (apply (deref_all_some [a; b]))).
  rewrite Ex, new_handle_eq, E' in E. injection E as <- <-. apply alloc_node.
Qed.

(** ** views *)
Definition same_cells (h : heap) (x y : nat) (f : list Z -> list Z) : Prop :=
  forall idx, in_range (shape_of h x) idx -> in_range (shape_of h y) (f idx) /\ pos (lay_of h x) idx = pos (lay_of h y) (f idx).
Lemma same_cells_stays h h' x y f rx ry : stays h h' -> h_ten h !! x = Some rx -> h_ten h !! y = Some ry -> same_cells h x y f -> same_cells h' x y f.
Proof. intros K Hx Hy S idx. unfold shape_of. rewrite (stays_lay _ _ _ _ K Hx), (stays_lay _ _ _ _ K Hy). apply S. Qed.
Lemma viewed_node h h' t r lay x f : h_ten h !! t = Some r -> viewed h h' t r lay x (t_rg r) ->
  (forall idx, in_range (sizes lay) idx -> in_range (shape r) (f idx) /\ pos lay idx = pos (t_lay r) (f idx)) ->
  makes_node h x h' NoBack [t] /\ same_cells h' x t f.
Proof.
  intros Ht (rx & Nx & Hx & (D1 & D2 & D3) & Erg & Efn & K & _) Hf. apply stays_step in K. split.
  - split; [done|]. split; [done|]. exists rx. split; [done|]. split; [by rewrite Erg|done].
  - intros idx. unfold shape_of. rewrite (stays_lay _ _ _ _ K Ht). unfold lay_of. rewrite Hx, Ht. cbn [view_rec t_lay] in D2. rewrite <- D2. apply Hf.
Qed.
Lemma view_viewed h t r lay x h' : h_ten h !! t = Some r -> grad_ok h r -> holds h r (contents h r) -> fits (t_dt r) (shape r) ->
  (let! ret := create_view (t_dt r) lay (t_sto r) in
   if negb (t_rg r) then mret ret else track ret NoBack [t] ;;; share_grad_storage ret t ;;; mret ret) h = (Ok x, h') ->
  viewed h h' t r lay x (t_rg r).
Proof.
  intros Ht Hg Hh Hfit E. erewrite bind_ok in E by apply create_view_eq. destruct (t_rg r) eqn:Erg; cbn [negb] in E.
  - destruct (share_viewed h t r lay Ht Hg Erg (bytes_exact _ _ _ Hh Hfit)) as (h1 & E1 & V). rewrite <- bind_assoc in E.
    erewrite bind_ok in E by exact E1. injection E as <- <-. done.
  - injection E as <- <-. by apply untracked_viewed.
Qed.
