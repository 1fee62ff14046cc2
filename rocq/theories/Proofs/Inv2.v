(** The record invariant through the remaining operations and through histories. *)
From Verif.Proofs Require Export Inv.

Section with_fops.
Context {fo : FOps}.
Notation any := (fun _ _ => True).

Lemma tv_op_clone' t h r : tinv h -> h_ten h !! t = Some r ->
  tv (op_clone t) (fun u h' => krg h h' /\ ((t_rg r = false /\ fresh h (t_dt r) (contig (shape r)) u h') \/
         (t_rg r = true /\ is (fun x => t_rg x = true /\ t_fn x = Some (Gfn CloneBack [t] 0 0 0) /\
            t_dt x = t_dt r /\ t_lay x = contig (shape r) /\ t_grad x = None) u h' /\ h_ten h !! u = None))) h.
Proof.
  intros Hi Hr. unfold op_clone. apply tv_get; [done|]. intros x Hx. assert (x = r) as -> by congruence.
  apply (tv_copy (fun d => tensor_clone (t_dt r) (t_dt r) d r)); [done|done|intros; apply st_tensor_clone|].
  by apply (Hi t r).
Qed.
Lemma tv_op_clone t h : tinv h -> tv (op_clone t) (like t h) h.
Proof.
  intros Hi. destruct (h_ten h !! t) as [r|] eqn:Hr.
  - eapply tv_mono; [by apply tv_op_clone'|].
    intros u h' _ _ [_ Hor] x Hx. assert (x = r) as -> by congruence. destruct Hor as [[Hg Hf]|(Hg & (y & Hy & Hy1 & _) & _)].
    + rewrite Hg. by eapply fresh_is.
    + rewrite Hg. exists y. done.
  - unfold op_clone. apply tv_get; [done|]. intros r Hr'. congruence.
Qed.

Lemma like_track h t r u h' : tinv h -> h_ten h !! t = Some r -> t_rg r = true -> rgd true u h' -> like t h u h'.
Proof. intros _ Hr Hg H x Hx. assert (x = r) as -> by congruence. by rewrite Hg. Qed.
Lemma like_fresh h t r u h' : h_ten h !! t = Some r -> t_rg r = false -> rgd false u h' -> like t h u h'.
Proof. intros Hr Hg H x Hx. assert (x = r) as -> by congruence. by rewrite Hg. Qed.

Lemma tv_reduce (kernel : dtype -> dtype -> tensor -> tensor -> E unit) k t h : tinv h ->
  k = SumBack \/ k = MeanBack -> (forall T U d a, st (kernel T U d a)) ->
  tv (let! r := get_ten t in
      let! tf := zeros [] (reduce_ty (t_dt r)) in
      let! d := get_ten tf in
      kernel (reduce_ty (t_dt r)) (t_dt r) d r ;;;
      (if t_rg r then track tf k [t] else mret tt) ;;;
      mret tf) (like t h) h.
Proof.
  intros Hi Hk Hst. apply tv_get; [done|]. intros r Hr.
  eapply tv_bind; [by apply tv_zeros|]. intros u h1 Hi1 M1 Hf. apply tv_get; [done|]. intros d _.
  apply tv_kernel; [done|done|]. intros _ h2 Hi2 E. eapply fresh_same in Hf; [|exact E].
  destruct (t_rg r) eqn:Hg.
  - eapply tv_mono; [pose proof Hf as (_ & _ & s & Hs); eapply tv_track_ret; [done|exact Hs| | |]|].
    + simpl. pose proof (ok_rg _ _ _ (Hi t r Hr) Hg). by destruct (t_dt r).
    + apply Forall_cons_2; [exact (lookup_lt_fresh _ _ _ _ _ _ _ Hr Hf)|done].
    + assert (mono h h2) as M2 by (eapply mono_trans; [exact M1|by apply mono_eq]).
      destruct (mono_get _ _ _ _ M2 Hr) as (x & Hx & E1 & E2 & E3).
      destruct Hk as [-> | ->]; simpl; exists x; rewrite E1; done.
    + intros v h' _ _ H. by eapply like_track.
  - apply tv_read; [reads_tac|done|]. intros _ _. apply tv_ret; [done|]. eapply like_fresh; [done|done|]. by eapply fresh_is.
Qed.
Lemma tv_op_sum t h : tinv h -> tv (op_sum t) (like t h) h.
Proof. intros. apply (tv_reduce tensor_sum); [done|by left|intros; apply st_tensor_sum]. Qed.
Lemma tv_op_mean t h : tinv h -> tv (op_mean t) (like t h) h.
Proof. intros. apply (tv_reduce tensor_mean); [done|by right|intros; apply st_tensor_mean]. Qed.

Lemma tv_op_abs t h : tinv h -> tv (op_abs t) (like t h) h.
Proof.
  intros Hi. unfold op_abs. apply tv_get; [done|]. intros r Hr.
  eapply tv_bind; [by apply tv_create'|]. intros u h1 Hi1 M1 Hf. apply tv_get; [done|]. intros d _.
  destruct (t_rg r) eqn:Hg; simpl.
  - eapply tv_bind; [by apply tv_create|]. intros g h2 Hi2 M2 [-> [s2 E2]]. apply tv_get; [done|]. intros gr _.
    apply tv_kernel; [apply st_tensor_abs|done|]. intros _ h3 Hi3 E3.
    pose proof Hf as (Hn & _ & s & Hs).
    assert (h_ten h3 !! u = Some (Ten (t_dt r) (t_lay r) s None false false None)) as Hs3.
    { rewrite E3, E2. by apply lookup_app_l_Some. }
    eapply tv_mono; [eapply tv_track_ret; [done|exact Hs3| | |]|].
    + simpl. by apply (ok_rg _ _ _ (Hi t r Hr)).
    + apply Forall_cons_2; [exact (lookup_lt_fresh _ _ _ _ _ _ _ Hr Hf)|done].
    + assert (mono h h3) as M3 by (eapply mono_trans; [exact M1|]; eapply mono_trans; [exact M2|by apply mono_eq]).
      destruct (mono_get _ _ _ _ M3 Hr) as (x & Hx & X1 & X2 & X3).
      simpl. exists x. eexists. split; [exact Hx|]. rewrite E3, E2, lookup_snoc. split; [done|]. simpl.
      rewrite X1, X2. split; [done|]. split; [done|]. by left.
    + intros v h' _ _ H. by eapply like_track.
  - apply tv_kernel; [apply st_tensor_abs|done|]. intros _ h3 Hi3 E3. apply tv_ret; [done|].
    eapply like_fresh; [done|done|]. eapply fresh_is, fresh_same; [exact Hf|done].
Qed.
Lemma tv_zeros_like t h r : tinv h -> h_ten h !! t = Some r -> tv (zeros_like t) (fresh h (t_dt r) (contig (shape r))) h.
Proof.
  intros Hi Hr. unfold zeros_like. apply tv_get; [done|]. intros x Hx. assert (x = r) as -> by congruence.
  by apply tv_zeros.
Qed.
Lemma tv_ones_like t h r : tinv h -> h_ten h !! t = Some r -> tv (ones_like t) (fresh h (t_dt r) (contig (shape r))) h.
Proof.
  intros Hi Hr. unfold ones_like. apply tv_get; [done|]. intros x Hx. assert (x = r) as -> by congruence.
  by apply tv_ones.
Qed.
Lemma mono_fresh h0 dt lay t h h' : fresh h0 dt lay t h -> mono h h' ->
  is (fun r => t_dt r = dt /\ t_lay r = lay) t h'.
Proof. apply fresh_mono_r. Qed.
Lemma tv_op_extremum c t h : tinv h -> tv (op_extremum c t) (like t h) h.
Proof.
  intros Hi. unfold op_extremum. apply tv_get; [done|]. intros r Hr.
  eapply tv_bind; [by apply tv_zeros|]. intros u h1 Hi1 M1 Hf. apply tv_get; [done|]. intros d _.
  destruct (t_rg r) eqn:Hg; simpl.
  - destruct (mono_get _ _ _ _ M1 Hr) as (x & Hx & X1 & X2 & X3).
    eapply tv_bind; [by eapply tv_zeros_like|]. intros g h2 Hi2 M2 Hfg. apply tv_get; [done|]. intros gr _.
    apply tv_kernel; [apply st_tensor_extremum|done|]. intros _ h3 Hi3 E3.
    pose proof Hf as (Hn & _ & s & Hs).
    destruct (mono_get h1 h3 _ _ (mono_trans _ _ _ M2 (mono_eq _ _ E3)) Hs) as (y & Hy & Y1 & Y2 & Y3).
    eapply tv_mono; [eapply tv_track_ret; [done|exact Hy| | |]|].
    + rewrite Y1. simpl. by apply (ok_rg _ _ _ (Hi t r Hr)).
    + apply Forall_cons_2; [exact (lookup_lt_fresh _ _ _ _ _ _ _ Hr Hf)|done].
    + destruct (mono_get h1 h3 _ _ (mono_trans _ _ _ M2 (mono_eq _ _ E3)) Hx) as (z & Hz & Z1 & Z2 & Z3).
      pose proof Hfg as (_ & _ & sg & Hsg).
      simpl. exists z. eexists. split; [exact Hz|]. rewrite E3. split; [exact Hsg|]. simpl.
      rewrite Y1, Y2, Z1, X1. unfold shape. rewrite Z2, X2. simpl. auto.
    + intros v h' _ _ H. by eapply like_track.
  - apply tv_kernel; [apply st_tensor_extremum|done|]. intros _ h3 Hi3 E3. apply tv_ret; [done|].
    eapply like_fresh; [done|done|]. eapply fresh_is, fresh_same; [exact Hf|done].
Qed.

(** ** views *)
Lemma tv_set_grad t r g h : tinv h -> h_ten h !! t = Some r ->
  (forall x, g = Some x -> exists gr, h_ten h !! x = Some gr /\ t_dt gr = t_dt r /\ shape gr = shape r) ->
  tv (set_ten t (with_grad r g)) (fun _ h' => h' = Hp (h_sto h) (<[t := with_grad r g]> (h_ten h)) (h_ver h)) h.
Proof.
  intros Hi Hr Hg. eapply tv_set; [done|done|done|]. destruct (Hi t r Hr) as [H1 H2 H3]. split; [done|done|].
  intros f Hf. destruct (H3 f Hf) as (A & B & C). split; [done|]. split; [done|].
  eapply fn_fits_mono; [apply mono_refl| |exact C]. done.
Qed.
Lemma tv_share to from h : tinv h -> tv (share_grad_storage to from) (fun _ h' => krg h h') h.
Proof.
  intros Hi. unfold share_grad_storage. apply tv_get; [done|]. intros f Hf.
  eapply (tv_bind _ _ (fun _ h' => krg h h')).
  { destruct (t_grad f) eqn:Eg; [apply tv_ret; [done|apply krg_refl]|].
    eapply tv_bind; [by apply tv_create|]. intros g h1 Hi1 M1 [-> [s E1]].
    assert (h_ten h1 !! from = Some f) as Hf1 by (rewrite E1; by apply lookup_app_l_Some).
    eapply tv_mono; [apply tv_set_grad; [done|done|]|].
    - intros x [= <-]. eexists. rewrite E1, lookup_snoc. done.
    - intros ? h2 _ _ ->. eapply krg_trans; [by eapply krg_app|]. by eapply krg_set. }
  intros ? h1 Hi1 M1 K1. apply tv_get; [done|]. intros f' Hf'. destruct (t_grad f') as [fg|]; [|by apply tv_ub].
  apply tv_get; [done|]. intros fgr _. apply tv_get; [done|]. intros t Ht.
  eapply tv_bind; [by apply tv_create_view|]. intros g h2 Hi2 M2 [-> ->].
  apply tv_get; [done|]. intros t' Ht'. simpl in Ht'.
  rewrite lookup_app_l in Ht' by (by eapply lookup_lt_Some). assert (t' = t) as -> by congruence.
  eapply tv_mono; [apply tv_set_grad; [done| |]|].
  - simpl. by apply lookup_app_l_Some.
  - intros x [= <-]. eexists. simpl. rewrite lookup_snoc. done.
  - intros ? h2 _ _ ->. eapply krg_trans; [exact K1|]. eapply krg_trans.
    2: { eapply (krg_set (Hp (h_sto h1) (h_ten h1 ++ [Ten (t_dt t) (t_lay t) (t_sto fgr) None false false None]) (h_ver h1)) to t);
         [by apply lookup_app_l_Some|done|done]. }
    by eapply krg_app.
Qed.
(** track and share: the tail of the view operations *)
Lemma tv_track_share ret t r u h : tinv h -> h_ten h !! ret = Some r -> is_float (t_dt r) = true -> (t < ret)%nat ->
  (exists ra, h_ten h !! t = Some ra /\ t_dt r = t_dt ra /\ t_sto r = t_sto ra) -> u = ret ->
  tv (track ret NoBack [t] ;;; share_grad_storage ret t ;;; mret u) (rgd true) h.
Proof.
  intros Hi Hr Hf Hlt Hra ->. eapply tv_bind; [eapply tv_track; [done|done|done| |]|].
  - by apply Forall_cons_2.
  - exact Hra.
  - intros _ h1 Hi1 M1 ->. eapply tv_bind; [by apply tv_share|]. intros ? h2 Hi2 M2 K. apply tv_ret; [done|].
    eapply krg_rgd; [exact K|]. eexists. simpl. rewrite list_lookup_insert by (by eapply lookup_lt_Some). done.
Qed.
Lemma tv_finish_view t lay r h : tinv h -> h_ten h !! t = Some r ->
  tv (let! ret := create_view (t_dt r) lay (t_sto r) in finish_view ret t) (like t h) h.
Proof.
  intros Hi Hr. eapply tv_bind; [by apply tv_create_view|]. intros ret h1 Hi1 M1 [-> ->].
  unfold finish_view. apply tv_get; [done|]. intros x Hx. simpl in Hx.
  rewrite lookup_app_l in Hx by (by eapply lookup_lt_Some). assert (x = r) as -> by congruence.
  destruct (t_rg r) eqn:Hg; simpl.
  - eapply tv_mono; [eapply tv_track_share; [done|simpl; by rewrite lookup_snoc| | | |done]|].
    + simpl. by apply (ok_rg _ _ _ (Hi t r Hr)).
    + by eapply lookup_lt_Some.
    + exists r. simpl. rewrite lookup_app_l by (by eapply lookup_lt_Some). done.
    + intros v h' _ _ H. by eapply like_track.
  - apply tv_ret; [done|]. eapply like_fresh; [done|done|]. eexists. simpl. rewrite lookup_snoc. done.
Qed.
Lemma tv_slice t s h : tinv h -> tv (op_slice t s) (like t h) h.
Proof.
  intros Hi. unfold op_slice. apply tv_get; [done|]. intros r Hr. apply tv_read; [reads_tac|done|]. intros lay _.
  by apply tv_finish_view.
Qed.
Lemma tv_transpose t i j h : tinv h -> tv (op_transpose t i j) (like t h) h.
Proof.
  intros Hi. unfold op_transpose. apply tv_get; [done|]. intros r Hr.
  apply tv_read; [reads_tac|done|]. intros _ _. apply tv_read; [reads_tac|done|]. intros _ _.
  by apply tv_finish_view.
Qed.
Lemma tv_detach t h : tinv h -> tv (op_detach t) (rgd false) h.
Proof.
  intros Hi. unfold op_detach. apply tv_get; [done|]. intros r Hr. eapply tv_mono; [by apply tv_create_view|].
  intros u h' _ _ [-> ->]. eexists. simpl. rewrite lookup_snoc. done.
Qed.

Lemma tv_reshape_sv t ss h : tinv h -> tv (op_reshape_sv t ss) (like t h) h.
Proof.
  intros Hi. unfold op_reshape_sv. apply tv_get; [done|]. intros r Hr.
  apply tv_read; [reads_tac|done|]. intros _ _. cbv zeta.
  eapply (tv_bind _ _ (fun e h' => h_ten h !! t = Some r /\ (exists x, h_ten h' !! t = Some x /\ t_rg x = t_rg r /\
      t_dt x = t_dt r /\ t_sto x = t_sto r) /\
      forall u, e = Some u -> t_rg r = false /\ rgd false u h')).
  { destruct (numel_of ss =? 1).
    - eapply tv_bind; [by apply tv_create_view|]. intros tf h1 Hi1 M1 [-> ->].
      destruct (t_rg r) eqn:Hg; simpl.
      + eapply tv_bind; [eapply tv_track; [done|simpl; by rewrite lookup_snoc| | |]|].
        * simpl. by apply (ok_rg _ _ _ (Hi t r Hr)).
        * apply Forall_cons_2; [by eapply lookup_lt_Some|done].
        * exists r. simpl. rewrite lookup_app_l by (by eapply lookup_lt_Some). done.
        * intros _ h2 Hi2 M2 ->. eapply tv_bind; [by apply tv_share|]. intros ? h3 Hi3 M3 K. apply tv_ret; [done|].
          split; [done|]. split; [|done].
          assert (h_ten h !! t = Some r) as Hr2 by done.
          assert (h_ten (Hp (h_sto h) (<[length (h_ten h):=with_fn (with_rg (Ten (t_dt r) (Lay ss (map (λ _ : Z, 1) ss) (offset (t_lay r))) (t_sto r) None false false None) true) (Some (Gfn NoBack [t] 0 0 0))]>
                (h_ten h ++ [Ten (t_dt r) (Lay ss (map (λ _ : Z, 1) ss) (offset (t_lay r))) (t_sto r) None false false None])) (h_ver h)) !! t = Some r) as Hr3.
          { simpl. rewrite list_lookup_insert_ne by (apply lookup_lt_Some in Hr; lia).
            by apply lookup_app_l_Some. }
          destruct (K t r Hr3) as (y & Hy & Y1 & _). destruct (mono_get _ _ _ _ M3 Hr3) as (z & Hz & Z1 & Z2 & Z3).
          exists y. split; [done|]. split; [congruence|]. replace y with z by congruence. done.
      + apply tv_ret; [done|]. split; [done|]. split.
        * exists r. simpl. split; [by apply lookup_app_l_Some|]. done.
        * intros ? [= <-]. split; [done|]. eexists. simpl. rewrite lookup_snoc. done.
    - apply tv_ret; [done|]. split; [done|]. split; [by exists r|done]. }
  intros e h1 Hi1 M1 (_ & (x & Hx & X1 & X2 & X3) & He). destruct e as [u|].
  { apply tv_ret; [done|]. destruct (He u eq_refl). eapply like_fresh; done. }
  apply tv_read; [by case_match|done|]. intros _ _. apply tv_read; [reads_tac|done|]. intros iso _.
  eapply (tv_bind _ _ (fun p h' => (exists y, h_ten h' !! t = Some y /\ t_rg y = t_rg r) /\ rgd false p.1 h' /\
      exists y z, h_ten h' !! p.1 = Some y /\ h_ten h' !! p.2 = Some z /\ t_dt y = t_dt z /\ t_sto y = t_sto z /\ (p.2 < p.1)%nat /\
        t_dt y = t_dt r)).
  { destruct iso.
    - apply tv_read; [by repeat case_match|done|]. intros sts _.
      eapply tv_bind; [by apply tv_create_view|]. intros tf h2 Hi2 M2 [-> ->]. apply tv_ret; [done|]. simpl.
      split; [exists x; split; [by apply lookup_app_l_Some|done]|]. split; [eexists; simpl; rewrite lookup_snoc; done|].
      eexists _, x. simpl. rewrite lookup_snoc, lookup_app_l by (by eapply lookup_lt_Some).
      split; [done|]. split; [done|]. simpl. rewrite X2, X3. split; [done|]. split; [done|]. split; [|done]. by eapply lookup_lt_Some.
    - eapply tv_bind.
      { by eapply tv_op_clone'. }
      intros m h2 Hi2 M2 [K2 Hor].
      assert (exists z, h_ten h2 !! m = Some z /\ t_dt z = t_dt r) as (z & Hz & Z1).
      { destruct Hor as [[_ (_ & _ & s & Hs)]|(_ & (z & Hz & _ & _ & Z & _) & _)];
          [eexists; split; [exact Hs|done]|exists z; split; [done|congruence]]. } apply tv_get; [done|]. intros mr Hmr. assert (mr = z) as -> by congruence.
      eapply tv_bind; [by apply tv_create_view|]. intros tf h3 Hi3 M3 [-> ->]. apply tv_ret; [done|]. simpl.
      destruct (K2 t x Hx) as (y & Hy & Y1 & _).
      split; [exists y; split; [by apply lookup_app_l_Some|congruence]|]. split; [eexists; simpl; rewrite lookup_snoc; done|].
      eexists _, z. simpl. rewrite lookup_snoc, lookup_app_l by (by eapply lookup_lt_Some). simpl.
      split; [done|]. split; [done|]. rewrite Z1. split; [done|]. split; [done|]. split; [|done]. by eapply lookup_lt_Some. }
  intros [tf ln] h2 Hi2 M2 ((y & Hy & Y1) & Hrg & z & w & Hz & Hw & W1 & W2 & W3 & W4). simpl in *.
  apply tv_get; [done|]. intros i Hi'. assert (i = y) as -> by congruence. rewrite Y1.
  destruct (t_rg r) eqn:Hg; simpl.
  - eapply tv_mono; [eapply tv_track_share; [done|exact Hz| |done| |done]|].
    + rewrite W4. by apply (ok_rg _ _ _ (Hi t r Hr)).
    + exists w. done.
    + intros v h' _ _ H. by eapply like_track.
  - apply tv_ret; [done|]. by eapply like_fresh.
Qed.
End with_fops.
