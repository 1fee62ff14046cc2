(** Arguments of reshape; reshape through the public API. *)
From Verif.Proofs Require Export Reshape.
From Verif.Model Require Export Api.

Lemma two63_pow : 2 ^ 63 = two63. Proof. done. Qed.
Lemma two64_pow : 2 ^ 64 = two64. Proof. done. Qed.

Definition fillm (q x : Z) : Z := if x =? -1 then q else x.
Lemma minus_ones_eq xs : minus_ones xs = wildcards xs.
Proof.
  unfold minus_ones, wildcards. induction xs as [|x xs IH]; [done|].
  cbn [List.filter]. rewrite filter_cons. destruct (Z.eqb_spec (-1) x) as [<-|H].
  - rewrite decide_True by done. simpl. by rewrite IH.
  - rewrite decide_False by done. done.
Qed.
Lemma given_cons x xs : given (x :: xs) = if x =? -1 then given xs else x * given xs.
Proof.
  unfold given. rewrite filter_cons. destruct (Z.eqb_spec x (-1)) as [->|H].
  - by rewrite decide_False by (intros E; by apply E).
  - by rewrite decide_True.
Qed.
Lemma wildcards_cons x xs : wildcards (x :: xs) = (if x =? -1 then S (wildcards xs) else wildcards xs).
Proof.
  unfold wildcards. rewrite filter_cons. destruct (Z.eqb_spec x (-1)) as [->|H].
  - by rewrite decide_True. - by rewrite decide_False.
Qed.
Lemma given_fold xs a :
  fold_left (fun s z => if z =? -1 then s else u64 (s * z)) xs (u64 a) = u64 (a * given xs).
Proof.
  revert a. induction xs as [|x xs IH]; intros a.
  - simpl. unfold given. rewrite filter_nil. simpl. f_equal. lia.
  - cbn [fold_left]. rewrite given_cons. destruct (x =? -1); [apply IH|].
    assert (u64 (u64 a * x) = u64 (a * x)) as -> by (unfold u64; by rewrite Zmult_mod_idemp_l).
    rewrite IH. f_equal. ring.
Qed.
Lemma given_fold1 xs :
  fold_left (fun s z => if z =? -1 then s else u64 (s * z)) xs 1 = u64 (given xs).
Proof. change 1 with (u64 1) at 1. by rewrite given_fold, Z.mul_1_l. Qed.
Lemma size_prod_fill q xs : size_prod (map (fillm q) xs) = given xs * q ^ Z.of_nat (wildcards xs).
Proof.
  induction xs as [|x xs IH]; [unfold given, wildcards; rewrite !filter_nil; done|].
  cbn [map size_prod]. rewrite IH, given_cons, wildcards_cons. unfold fillm.
  destruct (x =? -1); [|ring]. rewrite Nat2Z.inj_succ, Z.pow_succ_r by lia. ring.
Qed.
Lemma no_wild xs ss : wildcards xs = 0%nat -> Forall2 (fun x s => 0 <= s /\ (x = s \/ x = -1)) xs ss ->
  ss = xs /\ given xs = size_prod xs /\ Forall (fun s => 0 <= s) xs.
Proof.
  intros Hw H. induction H as [|x s xs ss [Hs Hx] H IH]; [done|].
  rewrite wildcards_cons in Hw. rewrite given_cons.
  destruct (Z.eqb_spec x (-1)); [done|]. destruct (IH Hw) as (-> & -> & ?).
  destruct Hx as [->|]; [|done]. split; [done|]. split; [done|]. by constructor.
Qed.
Lemma one_wild xs ss : wildcards xs = 1%nat -> Forall2 (fun x s => 0 <= s /\ (x = s \/ x = -1)) xs ss ->
  exists q, 0 <= q /\ ss = map (fillm q) xs /\ q ∈ ss.
Proof.
  intros Hw H. induction H as [|x s xs ss [Hs Hx] H IH]; [done|].
  rewrite wildcards_cons in Hw. destruct (Z.eqb_spec x (-1)) as [->|Hne].
  - injection Hw as Hw. destruct (no_wild _ _ Hw H) as (-> & _ & Hp). exists s.
    split; [done|]. split; [|left]. cbn [map]. f_equal.
    clear -Hp. induction Hp as [|y l Hy Hp IH]; [done|]. cbn [map]. rewrite <- IH.
    unfold fillm. destruct (Z.eqb_spec y (-1)); [lia|done].
  - destruct (IH Hw) as (q & Hq & -> & Hin). destruct Hx as [->|]; [|done].
    exists q. split; [done|]. split; [|by right]. cbn [map]. f_equal. unfold fillm.
    by destruct (Z.eqb_spec s (-1)).
Qed.
Lemma fill_asks q xs : 0 <= q -> Forall (fun x => -1 <= x) xs ->
  Forall2 (fun x s => 0 <= s /\ (x = s \/ x = -1)) xs (map (fillm q) xs).
Proof.
  intros Hq H. induction H as [|x xs Hx H IH]; [apply Forall2_nil_2|]. cbn [map].
  apply Forall2_cons_2; [|done]. unfold fillm. destruct (Z.eqb_spec x (-1)); [|lia]. auto.
Qed.
Lemma given_nonneg xs : Forall (fun x => -1 <= x) xs -> 0 <= given xs.
Proof.
  induction 1 as [|x xs Hx H IH]; [done|]. rewrite given_cons. destruct (Z.eqb_spec x (-1)); nia.
Qed.

Definition good_wild (xs : list Z) : Prop := wildcards xs = 1%nat -> 0 < given xs < two64.

Lemma regularize_ok xs n ss :
  asks_for xs n ss -> Forall in_ll xs -> n < two63 -> good_wild xs ->
  regularize_size xs n = Ok ss /\ Forall (fun s => 0 <= s < two64) ss.
Proof.
  intros (H2 & Hw & Hn) Hll Hlt Hg. unfold regularize_size. rewrite minus_ones_eq.
  destruct xs as [|x0 xs0] eqn:Exs.
  { inversion H2; subst. simpl. done. }
  rewrite <- Exs in *. clear Exs x0 xs0.
  rewrite (proj2 (Nat.leb_le _ _) Hw). cbn [orun_expect obind].
  destruct (Nat.eqb_spec (wildcards xs) 1) as [E|E].
  - destruct (one_wild _ _ E H2) as (q & Hq & -> & Hin). destruct (Hg E) as [Hg1 Hg2].
    rewrite given_fold1, u64_id by lia.
    assert (Hprod : given xs * q = n).
    { rewrite <- Hn, size_prod_fill, E. simpl. rewrite Z.pow_1_r. done. }
    destruct (Z.eqb_spec (given xs) 0); [lia|].
    assert (n mod given xs = 0) as -> by (rewrite <- Hprod, Z.mul_comm; apply Z.mod_mul; lia).
    assert (n / given xs = q) as -> by (rewrite <- Hprod, Z.mul_comm; apply Z.div_mul; lia).
    cbn. assert (Hqlt : q < two63) by nia. 
    assert (Heq : Forall (fun x => (if x =? -1 then u64 (s64 q) else u64 x) = fillm q x /\ 0 <= fillm q x < two64) xs).
    { rewrite s64_id, (u64_id q) by (unfold two63, two64 in *; lia).
      clear -Hll H2 Hqlt Hq. unfold fillm in *. revert Hll. 
      remember (map (fun x => if x =? -1 then q else x) xs) as ss.
      revert Heqss. induction H2 as [|x s xs ss [Hs _] H2 IH]; intros Heq Hll; [constructor|].
      injection Heq as Hs' Heq. apply Forall_cons in Hll as [Hx Hll]. constructor; [|auto].
      destruct (Z.eqb_spec x (-1)). { unfold two63, two64 in *. lia. }
      unfold in_ll in Hx. rewrite two63_pow in Hx. rewrite u64_id; unfold two63, two64 in *; lia. }
    split.
    + f_equal. apply map_ext_in. intros x Hx%elem_of_list_In. rewrite Forall_forall in Heq.
      by apply Heq.
    + apply Forall_forall. intros s Hs%elem_of_list_In%in_map_iff. destruct Hs as (x & <- & Hx%elem_of_list_In).
      rewrite Forall_forall in Heq. by apply Heq.
  - assert (wildcards xs = 0%nat) as E0 by lia. destruct (no_wild _ _ E0 H2) as (-> & _ & Hp).
    assert (Forall (fun s => 0 <= s < two64) xs) as Hr.
    { apply Forall_forall. intros s Hs. rewrite Forall_forall in Hp, Hll.
      specialize (Hp s Hs). specialize (Hll s Hs). unfold in_ll in Hll. rewrite two63_pow in Hll.
      unfold two63, two64 in *. lia. }
    split; [|done]. f_equal. rewrite <- (map_id xs) at 2. apply map_ext_in.
    intros x Hx%elem_of_list_In. rewrite Forall_forall in Hr. apply u64_id. by apply Hr.
Qed.

(** what happens to arguments that do not ask for [n] elements *)
Lemma regularize_bad xs n :
  (forall ss, ~ asks_for xs n ss) -> Forall in_ll xs -> Forall (fun x => -1 <= x) xs ->
  0 <= n -> given xs < two64 -> good_wild xs ->
  regularize_size xs n = Throw RuntimeError \/
  exists ss, regularize_size xs n = Ok ss /\ Forall (fun s => 0 <= s < two64) ss /\
    size_prod ss < two64 /\ size_prod ss <> n.
Proof.
  intros Hbad Hll Hm1 Hn Hlt Hg. unfold regularize_size. rewrite minus_ones_eq.
  destruct xs as [|x0 xs0] eqn:Exs.
  { left. destruct (Z.eqb_spec n 1) as [->|]; [|done]. exfalso. apply (Hbad []).
    split; [constructor|]. split; [unfold wildcards; rewrite filter_nil; simpl; lia|done]. }
  rewrite <- Exs in *. clear Exs x0 xs0.
  destruct (Nat.leb_spec (wildcards xs) 1) as [Hw|Hw]; [|by left]. cbn [orun_expect obind].
  destruct (Nat.eqb_spec (wildcards xs) 1) as [E|E].
  - left. destruct (Hg E) as [Hg1 Hg2].
    rewrite given_fold1, u64_id by lia.
    destruct (Z.eqb_spec (given xs) 0); [lia|].
    destruct (Z.eqb_spec (n mod given xs) 0) as [Hmod|]; [|done]. exfalso.
    apply (Hbad (map (fillm (n / given xs)) xs)). split_and!; [|lia|].
    + apply fill_asks; [|done]. apply Z.div_pos; lia.
    + rewrite size_prod_fill, E. simpl. rewrite Z.pow_1_r.
      pose proof (Z.div_mod n (given xs)). lia.
  - right. assert (wildcards xs = 0%nat) as E0 by lia.
    assert (Hp : Forall2 (fun x s => 0 <= s /\ (x = s \/ x = -1)) xs xs).
    { clear -E0 Hm1. induction Hm1 as [|x xs Hx Hm1 IH]; [apply Forall2_nil_2|].
      rewrite wildcards_cons in E0. destruct (Z.eqb_spec x (-1)); [done|].
      apply Forall2_cons_2; [|auto]. split; [lia|auto]. }
    destruct (no_wild _ _ E0 Hp) as (_ & Hgv & Hpos).
    assert (Forall (fun s => 0 <= s < two64) xs) as Hr.
    { apply Forall_forall. intros s Hs. rewrite Forall_forall in Hpos, Hll.
      specialize (Hpos s Hs). specialize (Hll s Hs). unfold in_ll in Hll. rewrite two63_pow in Hll.
      unfold two63, two64 in *. lia. }
    exists xs. split.
    + f_equal. rewrite <- (map_id xs) at 2. apply map_ext_in.
      intros x Hx%elem_of_list_In. rewrite Forall_forall in Hr. apply u64_id. by apply Hr.
    + split; [done|]. split; [lia|]. intros Hs. apply (Hbad xs). done.
Qed.

Section with_fops.
Context {fo : FOps}.

Lemma plain_iso l : plain_lay l -> Forall (fun n => 0 <= n) (sizes l) ->
  length (strides l) = length (sizes l) /\ exists b, isometry (sizes l) (strides l) = Ok b.
Proof.
  unfold plain_lay. intros H Hpos. split; [by eapply Forall2_length|].
  remember (strides l) as st. remember (sizes l) as ss. clear Heqst Heqss.
  induction H as [|st0 n sts ss Hn H IH]; [by exists true|]. apply Forall_cons in Hpos as [Hn0 Hpos].
  destruct (IH Hpos) as [b Hb]. cbn [isometry].
  destruct H as [|st m sts ss [Hm1 Hm2] H]; [by exists true|].
  apply Forall_cons in Hpos as [Hm0 Hpos]. unfold in_ll in Hm1. rewrite two63_pow in *.
  rewrite (s64_id m) by (unfold two63 in *; lia). unfold schk, fits_s64.
  assert ((- two63 <=? st * m) && (st * m <? two63) = true) as -> by lia. cbn [obind].
  rewrite Hb. simpl. by eexists.
Qed.

Lemma resh_reshaped o h r v ss tf h' r' :
  mutates o = false -> Forall (fun n => 0 <= n < two64) ss -> Forall (fun n => 0 <= n) (shape r) ->
  size_prod ss = size_prod (shape r) ->
  exec o h = (Ok (RHandle (Some tf)), h') -> resh h h' r v tf ss r' ->
  reshaped h h' r v tf ss.
Proof.
  intros Hm Hss Hrs Hsp E (A1 & A2 & A3 & A4 & A5 & A6 & A7 & A8).
  pose proof (op_keeps_data h o Hm) as Hd. rewrite E in Hd. split; [done|].
  split; [by apply lookup_ge_None_2|]. eexists r', _. split_and!; try done.
  apply same_rank_sequence; [|done..]. eapply Forall_impl; [exact Hss|]. simpl. lia.
Qed.

Lemma reshape_new h t r v xs ss :
  reachable h -> tensor_at h t r v -> plain_lay (t_lay r) -> fits (t_dt r) (shape r) ->
  asks_for xs (size_prod (shape r)) ss -> Forall in_ll xs ->
  (wildcards xs = 1%nat -> 0 < given xs < 2 ^ 64) -> (t_rg r = true -> shape r = [] -> xs = []) ->
  exists t' h', exec (OReshape (Some t) xs) h = (Ok (RHandle (Some t')), h') /\
    reshaped h h' r v t' ss.
Proof.
  intros Hr [Ht Hh] Hpl Hfit Hask Hll Hg Hne.
  pose proof (holds_allocable _ _ _ _ Hh Hfit) as Ha. pose proof (allocable_lt63 _ _ Ha) as Hlt.
  assert (Hnn : Forall (fun n => 0 <= n) (shape r)) by (by eapply holds_nonneg).
  destruct (plain_iso _ Hpl Hnn) as (Hlen & b & Hiso).
  destruct (regularize_ok xs (size_prod (shape r)) ss Hask Hll Hlt Hg) as [Hreg Hss].
  destruct (reshape_sv_ok h t r v ss b) as (tf & h' & r' & E & R); try done.
  - intros g Hgr. by eapply (reachable_grads_exist h).
  - by destruct Hask as (_ & _ & ?).
  - intros H1 H2. rewrite (Hne H1 H2) in Hask. destruct Hask as [Hask _]. by inversion Hask.
  - assert (exec (OReshape (Some t) xs) h = (Ok (RHandle (Some tf)), h')) as Hex.
    { cbn [exec]. rewrite un_some, new_handle_eq. unfold op_reshape.
      erewrite bind_ok by (by apply get_ten_ok). unfold lnumel. fold (shape r).
      rewrite numel_of_exact by (done || (unfold two63, two64, shape in *; lia)).
      rewrite bind_lift, Hreg, E. done. }
    exists tf, h'. split; [done|]. eapply (resh_reshaped (OReshape (Some t) xs)); try done.
    by destruct Hask as (_ & _ & ?).
Qed.
Lemma reshape_as_new h t u r ru v :
  reachable h -> tensor_at h t r v -> plain_lay (t_lay r) -> fits (t_dt r) (shape r) ->
  h_ten h !! u = Some ru -> Forall (fun n => 0 <= n < two64) (shape ru) ->
  size_prod (shape ru) = size_prod (shape r) -> (t_rg r = true -> shape r = [] -> shape ru = []) ->
  exists t' h', exec (OReshapeAs (Some t) (Some u)) h = (Ok (RHandle (Some t')), h') /\
    reshaped h h' r v t' (shape ru).
Proof.
  intros Hr [Ht Hh] Hpl Hfit Hu Hss Hp Hne.
  assert (Hnn : Forall (fun n => 0 <= n) (shape r)) by (by eapply holds_nonneg).
  destruct (plain_iso _ Hpl Hnn) as (Hlen & b & Hiso).
  destruct (reshape_sv_ok h t r v (shape ru) b) as (tf & h' & r' & E & R); try done.
  - intros g Hgr. by eapply (reachable_grads_exist h Hr t r).
  - assert (exec (OReshapeAs (Some t) (Some u)) h = (Ok (RHandle (Some tf)), h')) as Hex.
    { cbn [exec]. rewrite bin_some, new_handle_eq. unfold op_reshape_as.
      erewrite bind_ok by (by apply get_ten_ok). fold (shape ru). rewrite E. done. }
    exists tf, h'. split; [done|]. by eapply (resh_reshaped (OReshapeAs (Some t) (Some u))).
Qed.

Lemma reshape_sv_reject h t r ss :
  h_ten h !! t = Some r -> numel_of ss <> lnumel (t_lay r) ->
  op_reshape_sv t ss h = (Throw RuntimeError, h).
Proof.
  intros Ht Hn. unfold op_reshape_sv. erewrite bind_ok by (by apply get_ten_ok).
  assert ((numel_of ss =? lnumel (t_lay r)) = false) as -> by lia. done.
Qed.
Lemma reshape_reject h t r xs :
  h_ten h !! t = Some r -> Forall (fun n => 0 <= n) (shape r) -> size_prod (shape r) < 2 ^ 64 ->
  (forall ss, ~ asks_for xs (size_prod (shape r)) ss) -> Forall in_ll xs ->
  Forall (fun x => -1 <= x) xs -> given xs < 2 ^ 64 -> (wildcards xs = 1%nat -> given xs <> 0) ->
  exec (OReshape (Some t) xs) h = (Throw RuntimeError, h).
Proof.
  intros Ht Hnn Hlt Hbad Hll Hm1 Hg Hw. rewrite two64_pow in *.
  cbn [exec]. rewrite un_some, new_handle_eq. unfold op_reshape.
  erewrite bind_ok by (by apply get_ten_ok). unfold lnumel. fold (shape r).
  rewrite numel_of_exact by done. rewrite bind_lift.
  pose proof (given_nonneg _ Hm1).
  destruct (regularize_bad xs (size_prod (shape r))) as [->|(ss & -> & H1 & H2 & H3)]; try done.
  - by apply size_prod_nonneg.
  - intros E. specialize (Hw E). lia.
  - rewrite (reshape_sv_reject h t r ss); [done..|]. unfold lnumel. fold (shape r).
    rewrite !numel_of_exact; try done. eapply Forall_impl; [exact H1|]. simpl. lia.
Qed.
Lemma reshape_as_reject h t u r ru :
  h_ten h !! t = Some r -> h_ten h !! u = Some ru ->
  Forall (fun n => 0 <= n) (shape r) -> Forall (fun n => 0 <= n) (shape ru) ->
  size_prod (shape r) < 2 ^ 64 -> size_prod (shape ru) < 2 ^ 64 ->
  size_prod (shape ru) <> size_prod (shape r) ->
  exec (OReshapeAs (Some t) (Some u)) h = (Throw RuntimeError, h).
Proof.
  intros Ht Hu H1 H2 H3 H4 Hne. rewrite two64_pow in *. cbn [exec]. rewrite bin_some, new_handle_eq.
  unfold op_reshape_as. erewrite bind_ok by (by apply get_ten_ok).
  rewrite (reshape_sv_reject h t r); [done..|]. unfold lnumel. fold (shape r) (shape ru).
  by rewrite !numel_of_exact.
Qed.
End with_fops.
