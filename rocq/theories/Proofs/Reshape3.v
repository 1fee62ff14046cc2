(** Exactly which size vectors reshape refuses. *)
From Verif.Proofs Require Export Reshape2.
From Verif.Spec Require Export Refuse.
From Verif.Model Require Export Api.

Lemma size_prod_u64 xs : u64 (size_prod (map u64 xs)) = u64 (size_prod xs).
Proof.
  induction xs as [|x xs IH]; [done|]. cbn [map size_prod]. unfold u64 in *.
  rewrite Zmult_mod_idemp_l, <- Zmult_mod_idemp_r, IH, Zmult_mod_idemp_r. done.
Qed.
Lemma given_all xs : wildcards xs = 0%nat -> given xs = size_prod xs.
Proof.
  induction xs as [|x xs IH]; [done|]. rewrite wildcards_cons, given_cons.
  destruct (x =? -1); [done|]. cbn [size_prod]. intros H. by rewrite IH.
Qed.
Lemma isometry_nothrow ss sts e : isometry ss sts <> Throw e.
Proof.
  revert sts. induction ss as [|s ss IH]; intros [|st sts]; try done. cbn [isometry].
  destruct ss as [|s' ss]; [done|]. destruct sts as [|st' sts]; [done|].
  unfold schk. destruct (fits_s64 _); [|done]. cbn [obind].
  specialize (IH (st' :: sts)). by destruct (isometry _ _) as [?|?|?|].
Qed.
(** a vector with one -1 that is not refused has the count asked for, or the count fails *)
Lemma wild_prod q xs : wildcards xs = 1%nat ->
  u64 (size_prod (map (fun z => if z =? -1 then u64 q else u64 z) xs)) = u64 (given xs * q).
Proof.
  intros Hw. assert (map (fun z => if z =? -1 then u64 q else u64 z) xs = map u64 (map (fillm q) xs)) as ->.
  { rewrite map_map. apply map_ext. intros z. unfold fillm. by destruct (z =? -1). }
  rewrite size_prod_u64, size_prod_fill, Hw. by rewrite Z.pow_1_r.
Qed.

Section with_fops.
Context {fo : FOps}.

Definition nt (a : abort) (_ : heap) : Prop := forall e, a <> AThrow e.
Notation ntw m := (wp m (fun _ _ => True) nt).

Lemma ntw_get {A} t (k : tensor -> E A) h : (forall r, h_ten h !! t = Some r -> ntw (k r) h) -> ntw (bind (get_ten t) k) h.
Proof.
  intros Hk. apply wp_bind. unfold wp, get_ten. destruct (h_ten h !! t) as [r|] eqn:E; [by apply Hk|]. by intros e.
Qed.
Lemma ntw_track t k ins h : ntw (track t k ins) h.
Proof. apply ntw_get. done. Qed.
Lemma ntw_share a b h : ntw (share_grad_storage a b) h.
Proof.
  apply ntw_get. intros f _. apply wp_bind.
  assert (forall h, ntw (let! f := get_ten b in
    match t_grad f with
    | None => mub NullDeref
    | Some fg => let! fgr := get_ten fg in let! t := get_ten a in
        let! g := create_view (t_dt t) (t_lay t) (t_sto fgr) in
        let! t := get_ten a in set_ten a (with_grad t (Some g)) end) h) as Hk.
  { intros h0. apply ntw_get. intros f' _. destruct (t_grad f') as [g|]; [|by intros e].
    apply ntw_get. intros gr _. apply ntw_get. intros t _. apply wp_bind. unfold wp at 1, create_view, new_ten.
    cbn. apply ntw_get. done. }
  destruct (t_grad f); [apply Hk|]. apply wp_bind. unfold wp at 1. rewrite create_noalloc.
  unfold wp at 1. rewrite set_ten_eq. apply Hk.
Qed.

Lemma tail_nothrow h t r r1 v ss :
  h_ten h !! t = Some r1 -> same_data r r1 -> holds h r v -> fits (t_dt r) (shape r) -> ntw (reshape_tail t r ss) h.
Proof.
  intros Ht Hsd Hh Hfit. unfold reshape_tail. apply wp_bind.
  destruct (Nat.ltb _ _); [by intros e|]. apply wp_bind. apply wp_lift.
  pose proof (isometry_nothrow (sizes (t_lay r)) (strides (t_lay r))) as Hi.
  destruct (isometry _ _) as [b|e|u|]; [|by destruct (Hi e)|by intros e..]. clear Hi.
  assert (forall tf ln h, ntw (let! i := get_ten t in
    if negb (t_rg i) then mret tf else track tf NoBack [ln] ;;; share_grad_storage tf ln ;;; mret tf) h) as Hk.
  { intros tf ln h0. apply ntw_get. intros i _. destruct (negb _); [done|].
    apply wp_bind. eapply wp_mono; [apply ntw_track| |done]. intros _ h1 _. cbv beta.
    apply wp_bind. eapply wp_mono; [apply ntw_share| |done]. done. }
  apply wp_bind. destruct b.
  - apply wp_bind. assert (forall sts, ntw (let! tf := create_view (t_dt r) (Lay ss sts (offset (t_lay r))) (t_sto r) in mret (tf, t)) h) as Hc by done.
    destruct ss as [|s ss].
    + unfold wp. cbn. apply Hk.
    + destruct (last _); [|by intros e]. unfold wp. cbn. apply Hk.
  - assert (holds h r1 v) as Hh1 by (by eapply holds_same). destruct Hsd as (S1 & S2 & S3).
    apply wp_bind. unfold wp at 1. rewrite (clone_ok h t r1 v); [|done..|by rewrite <- S1, <- S2].
    apply wp_bind. unfold wp at 1. erewrite get_ten_ok by apply alloc_ten. unfold wp at 1. cbn. apply Hk.
Qed.

Lemma sv_nothrow h t r v ss :
  tensor_at h t r v -> fits (t_dt r) (shape r) -> numel_of ss = lnumel (t_lay r) -> ntw (op_reshape_sv t ss) h.
Proof.
  intros [Ht Hh] Hfit Hn. unfold wp. rewrite (op_reshape_sv_eq t ss h r) by done.
  match goal with |- let (_, _) := ?m h in _ => change (ntw m h) end.
  destruct (numel_of ss =? 1); [|by apply (tail_nothrow h t r r v)].
  assert (kept (fun _ => True) h h) as Hk by apply kept_refl.
  apply wp_bind. unfold wp at 1. rewrite create_view_eq. pose proof (kept_new_ten _ _ _ (view_rec r (Lay ss (map (fun _ => 1) ss) (offset (t_lay r)))) Hk) as Hk1.
  destruct (negb _); [done|]. fold (view_heap h r (Lay ss (map (fun _ => 1) ss) (offset (t_lay r)))) in Hk1. revert Hk1. 
  generalize (length (h_ten h)), (view_heap h r (Lay ss (map (fun _ => 1) ss) (offset (t_lay r)))). intros tf h1 Hk1.
  apply wp_bind. pose proof (fr_track _ _ tf NoBack [t] h1 Hk1) as Hf. unfold fr in Hf.
  eapply wp_mono; [apply wp_conj; [exact Hf|apply ntw_track]| |by intros a h' [_ H]].
  intros _ h2 [[Hk2 _] _]. clear Hf.
  apply wp_bind. pose proof (fr_share _ _ tf t h2 Hk2) as Hf. unfold fr in Hf.
  eapply wp_mono; [apply wp_conj; [exact Hf|apply ntw_share]| |by intros a h' [_ H]].
  intros _ h3 [[Hk3 _] _]. apply kept_data in Hk3. destruct (proj2 Hk3 t r Ht) as (r3 & Hr3 & Hsd).
  apply (tail_nothrow h3 t r r3 v); [done..| |done]. by eapply data_kept_holds.
Qed.

End with_fops.

(** what regularize_size makes of a vector *)
Lemma regularize_div xs n : wildcards xs = 1%nat -> u64 (given xs) = 0 -> regularize_size xs n = UB DivByZero.
Proof.
  intros Hw Hg. unfold regularize_size. destruct xs as [|x0 xs0] eqn:Exs; [done|]. rewrite <- Exs in *. clear Exs x0 xs0.
  rewrite minus_ones_eq, Hw, given_fold1, Hg. done.
Qed.
Lemma regularize_throw xs n : 0 <= n < two64 -> refuses xs n ->
  regularize_size xs n = Throw RuntimeError \/ exists ss, regularize_size xs n = Ok ss /\ numel_of ss <> n.
Proof.
  intros Hn Hr. unfold regularize_size, refuses in *. destruct xs as [|x0 xs0] eqn:Exs.
  { left. change (given [] mod 2 ^ 64) with 1 in Hr. cbn in Hr. destruct (Z.eqb_spec n 1) as [->|]; done. }
  rewrite <- Exs in *. clear Exs x0 xs0. rewrite minus_ones_eq, given_fold1. change (given xs mod 2 ^ 64) with (u64 (given xs)) in Hr.
  destruct (wildcards xs) as [|[|k]] eqn:Ew; cbn [Nat.leb Nat.eqb orun_expect obind].
  - right. eexists. split; [done|]. by rewrite numel_of_mod, size_prod_u64, <- given_all.
  - left. destruct Hr as [H1 H2]. destruct (Z.eqb_spec (u64 (given xs)) 0); [done|].
    destruct (Z.eqb_spec (n mod u64 (given xs)) 0); done.
  - by left.
Qed.
Lemma regularize_pass xs n : 0 <= n < two64 -> ~ refuses xs n -> ~ (wildcards xs = 1%nat /\ u64 (given xs) = 0) ->
  exists ss, regularize_size xs n = Ok ss /\ numel_of ss = n.
Proof.
  intros Hn Hr Hd. unfold regularize_size, refuses in *. destruct xs as [|x0 xs0] eqn:Exs.
  { change (given [] mod 2 ^ 64) with 1 in Hr. cbn in Hr. destruct (Z.eqb_spec n 1) as [->|]; [by exists []|lia]. }
  rewrite <- Exs in *. clear Exs x0 xs0. rewrite minus_ones_eq, given_fold1. change (given xs mod 2 ^ 64) with (u64 (given xs)) in Hr.
  destruct (wildcards xs) as [|[|k]] eqn:Ew; cbn [Nat.leb Nat.eqb orun_expect obind].
  - eexists. split; [done|]. rewrite numel_of_mod, size_prod_u64, <- given_all by done. lia.
  - destruct (Z.eqb_spec (u64 (given xs)) 0) as [|Hg]; [by destruct Hd|].
    assert (n mod u64 (given xs) = 0) as Hm by lia. rewrite Hm. cbn [Z.eqb orun_expect obind]. eexists. split; [done|].
    rewrite numel_of_mod.
    assert (0 < u64 (given xs)) as Hpos. { pose proof (Z.mod_pos_bound (given xs) two64 ltac:(done)). unfold u64 in *. lia. }
    rewrite wild_prod by done. set (q := n / u64 (given xs)).
    assert (u64 (given xs * s64 q) = u64 (u64 (given xs) * q)) as ->.
    { unfold u64. rewrite Zmult_mod_idemp_l. rewrite <- (Zmult_mod_idemp_r (s64 q)), <- (Zmult_mod_idemp_r q). by rewrite s64_mod. }
    assert (u64 (given xs) * q = n) as -> by (pose proof (Z.div_mod n (u64 (given xs))); lia).
    by apply u64_id.
  - by destruct Hr.
Qed.

Section api.
Context {fo : FOps}.

Lemma exec_reshape h t r xs : h_ten h !! t = Some r -> Forall (fun n => 0 <= n) (shape r) -> size_prod (shape r) < two64 ->
  exec (OReshape (Some t) xs) h =
    match regularize_size xs (size_prod (shape r)) with
    | Ok ss => match op_reshape_sv t ss h with
               | (Ok t', h') => (Ok (RHandle (Some t')), h')
               | (Throw e, h') => (Throw e, h') | (UB u, h') => (UB u, h') | (Diverge, h') => (Diverge, h') end
    | Throw e => (Throw e, h) | UB u => (UB u, h) | Diverge => (Diverge, h) end.
Proof.
  intros Ht Hnn Hlt. cbn [exec]. rewrite un_some, new_handle_eq. unfold op_reshape.
  erewrite bind_ok by (by apply get_ten_ok). unfold lnumel. fold (shape r).
  rewrite numel_of_exact by done. rewrite bind_lift. destruct (regularize_size _ _) as [ss|e|u|]; done.
Qed.
Lemma reshape_refuses h t r xs :
  h_ten h !! t = Some r -> Forall (fun n => 0 <= n) (shape r) -> size_prod (shape r) < 2 ^ 64 ->
  refuses xs (size_prod (shape r)) -> exec (OReshape (Some t) xs) h = (Throw RuntimeError, h).
Proof.
  intros Ht Hnn Hlt Hr. rewrite two64_pow in *. rewrite (exec_reshape h t r) by done.
  pose proof (size_prod_nonneg _ Hnn) as H0.
  destruct (regularize_throw xs (size_prod (shape r))) as [->|(ss & -> & Hne)]; [done..|].
  rewrite (reshape_sv_reject h t r ss); [done..|]. unfold lnumel. fold (shape r). by rewrite (numel_of_exact (shape r)).
Qed.
Lemma reshape_divides h t r xs :
  h_ten h !! t = Some r -> Forall (fun n => 0 <= n) (shape r) -> size_prod (shape r) < 2 ^ 64 ->
  wildcards xs = 1%nat -> given xs mod 2 ^ 64 = 0 -> exec (OReshape (Some t) xs) h = (UB DivByZero, h).
Proof.
  intros Ht Hnn Hlt Hw Hg. rewrite two64_pow in *. rewrite (exec_reshape h t r) by done. by rewrite regularize_div.
Qed.
Lemma reshape_throws h t r v xs e :
  tensor_at h t r v -> fits (t_dt r) (shape r) ->
  (exec (OReshape (Some t) xs) h).1 = Throw e <-> e = RuntimeError /\ refuses xs (size_prod (shape r)).
Proof.
  intros [Ht Hh] Hfit.
  pose proof (holds_allocable _ _ _ _ Hh Hfit) as Ha. pose proof (allocable_lt63 _ _ Ha) as Hlt.
  assert (Hnn : Forall (fun n => 0 <= n) (shape r)) by (by eapply holds_nonneg).
  pose proof (size_prod_nonneg _ Hnn) as H0. change (sizes (t_lay r)) with (shape r) in *.
  assert (size_prod (shape r) < two64) as Hlt' by (unfold two63, two64 in *; lia).
  split; [|intros [-> Hr]; by rewrite (reshape_refuses h t r)].
  intros E. assert (refuses xs (size_prod (shape r)) \/ ~ refuses xs (size_prod (shape r))) as [Hr|Hr].
  { unfold refuses. destruct (wildcards xs) as [|[|k]]; lia. }
  { split; [|done]. rewrite (reshape_refuses h t r) in E by done. cbn in E. congruence. }
  exfalso. rewrite (exec_reshape h t r) in E by done.
  assert ((wildcards xs = 1%nat /\ u64 (given xs) = 0) \/ ~ (wildcards xs = 1%nat /\ u64 (given xs) = 0)) as [[H1 H2]|Hd] by lia.
  { by rewrite regularize_div in E. }
  destruct (regularize_pass xs (size_prod (shape r)) (conj H0 Hlt') Hr Hd) as (ss & Hs & Hn). rewrite Hs in E.
  pose proof (sv_nothrow h t r v ss) as Hnt. unfold wp in Hnt.
  destruct (op_reshape_sv t ss h) as [[t'|e'|u|] h']; try done.
  cbn in E. eapply Hnt; [done|done| |done]. unfold lnumel. change (sizes (t_lay r)) with (shape r). by rewrite (numel_of_exact (shape r)).
Qed.

(** a tracked 0-dimensional tensor has no last stride to start from *)
Lemma scalar_sv h t r ss : reachable h -> h_ten h !! t = Some r -> shape r = [] -> t_rg r = true ->
  numel_of ss = 1 -> ss <> [] -> exists h', op_reshape_sv t ss h = (UB OutOfBounds, h').
Proof.
  intros Hr Ht Hsh Hrg Hn Hss.
  rewrite (op_reshape_sv_eq t ss h r) by (done || (unfold lnumel; by change (sizes (t_lay r)) with (shape r); rewrite Hsh)).
  rewrite Hn, Z.eqb_refl, Hrg. cbn [negb]. erewrite bind_ok by apply create_view_eq.
  assert (t < length (h_ten h))%nat as Hl by (by eapply lookup_lt_Some).
  unfold track. rewrite bind_assoc. erewrite bind_ok by (apply get_ten_ok, lookup_snoc).
  erewrite bind_ok by apply set_ten_eq.
  match goal with |- context [bind _ _ ?x] => set (h2 := x) end. set (rv := with_fn _ _) in h2.
  assert (h_ten h2 !! length (h_ten h) = Some rv) as Hv.
  { apply list_lookup_insert. simpl. rewrite app_length. simpl. lia. }
  assert (h_ten h2 !! t = Some r) as Hr2.
  { cbn [h2 h_ten]. rewrite list_lookup_insert_ne by lia. by apply lookup_app_l_Some. }
  destruct (share_from h2 (length (h_ten h)) t rv r) as (h3 & r3 & E & H3 & Hsd & Hrg3 & Hg3 & Hl3); [lia|done|done| |].
  { intros g Eg. assert (is_Some (h_ten h !! g)) as [x Hx] by (by eapply (reachable_grads_exist h Hr t r)). cbn [h2 h_ten]. apply lookup_lt_is_Some.
    rewrite insert_length. cbn [view_heap h_ten]. rewrite app_length. apply lookup_lt_Some in Hx. lia. }
  erewrite bind_ok by exact E. exists h3. unfold reshape_tail, ldim. change (sizes (t_lay r)) with (shape r). rewrite Hsh.
  destruct (strides (t_lay r)) as [|st sts]; cbn [length Nat.ltb Nat.leb]; [|done].
  rewrite bind_ret. cbn [isometry]. rewrite bind_lift. destruct ss; [done|]. done.
Qed.
Lemma reshape_scalar h t r xs ss : reachable h -> h_ten h !! t = Some r -> shape r = [] -> t_rg r = true ->
  asks_for xs 1 ss -> Forall in_ll xs -> xs <> [] -> (exec (OReshape (Some t) xs) h).1 = UB OutOfBounds.
Proof.
  intros Hr Ht Hsh Hrg Hask Hll Hne.
  destruct (regularize_ok xs 1 ss) as [Hreg Hss]; try done.
  { intros Hw. destruct Hask as (H2 & _ & Hn). destruct (one_wild _ _ Hw H2) as (q & Hq & -> & _).
    rewrite size_prod_fill, Hw, Z.pow_1_r in Hn. 
    assert (0 < given xs \/ given xs <= 0) as [Hp|] by lia; [|nia].
    destruct (Z.eq_mul_1_nonneg (given xs) q ltac:(lia) Hn) as [-> _]. done. }
  destruct (scalar_sv h t r ss) as [h' E]; try done.
  { destruct Hask as (_ & _ & Hn). rewrite numel_of_mod, Hn. done. }
  { intros ->. destruct Hask as [H2 _]. by inversion H2. }
  rewrite (exec_reshape h t r); [|done|by rewrite Hsh|by rewrite Hsh]. rewrite Hsh. cbn [size_prod]. by rewrite Hreg, E.
Qed.
Lemma reshape_as_scalar h t u r ru : reachable h -> h_ten h !! t = Some r -> shape r = [] -> t_rg r = true ->
  h_ten h !! u = Some ru -> shape ru <> [] -> size_prod (shape ru) = 1 ->
  (exec (OReshapeAs (Some t) (Some u)) h).1 = UB OutOfBounds.
Proof.
  intros Hr Ht Hsh Hrg Hu Hne Hp. destruct (scalar_sv h t r (shape ru)) as [h' E]; try done.
  { by rewrite numel_of_mod, Hp. }
  cbn [exec]. rewrite bin_some, new_handle_eq. unfold op_reshape_as.
  erewrite bind_ok by (by apply get_ten_ok). fold (shape ru). by rewrite E.
Qed.
End api.
