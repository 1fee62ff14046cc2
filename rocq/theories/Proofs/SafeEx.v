(** Checking by evaluation that calls are careful; examples. *)
From Verif.Proofs Require Export Safe10 Refute2.
From Verif.Model Require Export Api Ieee.

Section with_fops.
Context {fo : FOps}.
Definition compactb (r : tensor) : bool := bool_decide (t_lay r = contig (shape r)) && (size_prod (shape r) <? two63).
Definition fitsb (r : tensor) : bool := negb (t_rg r) || match t_grad r with Some _ => true | None => compactb r end.
Definition bytesb (dt : dtype) (ss : list Z) : bool := forallb (Z.leb 0) ss && (size_of dt * size_prod ss <? two64).
Definition with_rec (h : heap) (H : list nat) (a : handle) (k : nat -> tensor -> bool) : bool :=
  match a with
  | Some x => bool_decide (x ∈ H) && match h_ten h !! x with Some r => k x r | None => false end
  | None => false end.
Definition pairb (h : heap) (H : list nat) (a b : handle) : bool :=
  with_rec h H a (fun _ ra => with_rec h H b (fun _ rb => bytesb (dt_join (t_dt ra) (t_dt rb)) (max_shape (shape ra) (shape rb)))).
Definition bufferb (h : heap) (r : tensor) : bool :=
  match h_sto h !! t_sto r with Some x => match sto_blob x with Some _ => true | None => false end | None => false end.
(** the graph of [t]: its inputs, theirs, and so on, as far as [n] steps; and whether this is all *)
Fixpoint cone (h : heap) (n : nat) (l : list nat) : list nat :=
  match n with O => l | S m => cone h m (remove_dups (l ++ concat (map (inputs h) l))) end.
Definition closedb (h : heap) (l : list nat) : bool := forallb (fun x => forallb (fun y => bool_decide (y ∈ l)) (inputs h x)) l.
Definition recs (h : heap) (l : list nat) : list tensor := omap (fun x => h_ten h !! x) l.
Definition carefulb (h : heap) (H : list nat) (o : op) : bool :=
  let one (a : handle) (k : tensor -> bool) := with_rec h H a (fun _ r => k r) in
  match o with
  | OScalar _ _ => true
  | ONew ss dt | OZeros ss dt | OOnes ss dt | OFullInt ss _ dt | OFullDouble ss _ dt => bytesb dt ss
  | OInit (TLeaf dt xs) => (Z.of_nat (length xs) <? two64) && (size_of dt * size_prod [Z.of_nat (length xs)] <=? alloc_max)
  | OEye n m dt => bytesb dt [n; m]
  | OFromBlob d ss dt => bytesb dt ss && (size_prod ss <=? Z.of_nat (length d))
  | ORandn ss F32 _ => bytesb F32 ss
  | OZerosLike a | OOnesLike a | OPos a | OSum a | OMean a | OContiguous a | OClone a | ODetach a | OZeroGrad a
  | ORequires a true | ORetain a _ | QAll a | QSize a | QStride a | QNumel a | QType a | QRequires a | QRetain a | QContiguous a => one a (fun _ => true)
  | OAdd a b | OSub a b | OMul a b => pairb h H a b
  | ODiv a b => pairb h H a b && with_rec h H a (fun _ ra => with_rec h H b (fun _ rb =>
      implb (t_rg ra || t_rg rb) (t_rg ra && t_rg rb && bool_decide (shape rb = max_shape (shape ra) (shape rb)))))
  | ONeg a => one a (fun r => bytesb (dt_join I32 (t_dt r)) (shape r))
  | OAddEq a b => one a (fun _ => one b (fun _ => true))
  | OTypeTo a dt => one a (fun r => bytesb dt (shape r))
  | OSlice a _ | OTranspose a _ _ => one a fitsb
  | OReshape a xs => one a (fun r => fitsb r && (negb (t_rg r) || negb (bool_decide (shape r = [])))) && forallb (fun x => (-1 <=? x) && (x <? two63)) xs && (given xs <? two64)
  | OAbs a => one a compactb
  | OMax a | OMin a => one a (fun r => 0 <? size_prod (shape r))
  | OGrad a => one a (fun r => match t_grad r with Some g => match h_ten h !! g with Some gr => bufferb h gr | None => true end | None => true end)
  | OBackward a => with_rec h H a (fun t r =>
      let l := cone h (length (h_ten h)) [t] in
      bool_decide (t ∈ l) && closedb h l &&
      (forallb (fun q => negb (t_rg q) || compactb q) (recs h l) ||
       forallb (fun q => match t_fn q with Some f => t_rg q && (gf_acc f =? 0) | None => true end) (recs h l) && compactb r && forallb fitsb (recs h l)))
  | ORequires a false => with_rec h H a (fun x r => match t_fn r with None => true | Some _ => false end &&
      forallb (fun q => match t_fn q with Some f => match gf_kind f with DivBack => negb (bool_decide (x ∈ gf_in f)) | _ => true end | None => true end) (h_ten h))
  | QToString (Some a) => one (Some a) (fun _ => true)
  | QToString None => true
  | OCmp _ a b => one a (fun ra => one b (fun rb => bytesb I8 (max_shape (shape ra) (shape rb))))
  | OCat ts dim =>
      forallb (fun a => one a (fun _ => true)) ts &&
      match omap (fun a => match a with Some x => h_ten h !! x | None => None end) ts with
      | r0 :: rs => bytesb (cat_type r0 (r0 :: rs)) (cat_shape (Z.to_nat dim) r0 (r0 :: rs)) && (total_len (sizes_along (Z.to_nat dim) (r0 :: rs)) <? two64)
      | [] => false
      end
  | _ => false
  end.
Lemma handles_ok h H ts : forallb (fun a => with_rec h H a (fun _ _ => true)) ts = true ->
  exists xs, ts = map Some xs /\ Forall2 (holding h H) xs (omap (fun a => match a with Some x => h_ten h !! x | None => None end) ts).
Proof.
  induction ts as [|a ts IH]; cbn [forallb]; intros Hf; [exists []; split; [done|constructor]|]. apply andb_prop in Hf as [Ha Hf]. destruct (IH Hf) as (xs & -> & Hx).
  unfold with_rec in Ha. destruct a as [x|]; [|done]. apply andb_prop in Ha as [H1 H2]. apply bool_decide_eq_true in H1.
  destruct (h_ten h !! x) as [r|] eqn:E; [|done]. exists (x :: xs). split; [done|]. cbn. rewrite E. by constructor.
Qed.
Lemma compactb_ok r : nn (shape r) -> compactb r = true -> compact r.
Proof.
  intros Hn. unfold compactb. intros [H1 H2]%andb_prop. apply bool_decide_eq_true in H1. apply Z.ltb_lt in H2. unfold compact. rewrite H1. by apply contig_room.
Qed.
Lemma fitsb_ok r : nn (shape r) -> fitsb r = true -> grad_fits r.
Proof.
  intros Hn H Hrg. unfold fitsb in H. rewrite Hrg in H. cbn in H. destruct (t_grad r); [by left|right; by apply compactb_ok].
Qed.
Lemma bytesb_ok dt ss : bytesb dt ss = true -> bytes_ok dt ss.
Proof.
  unfold bytesb. intros [H1 H2]%andb_prop. apply Z.ltb_lt in H2. split; [|done]. apply Forall_forall. intros n Hn. rewrite forallb_forall in H1.
  apply elem_of_list_In in Hn. specialize (H1 n Hn). lia.
Qed.
Lemma with_rec_ok h H a k : with_rec h H a k = true -> exists x r, a = Some x /\ holding h H x r /\ k x r = true.
Proof.
  unfold with_rec. destruct a as [x|]; [|done]. intros [H1 H2]%andb_prop. apply bool_decide_eq_true in H1. destruct (h_ten h !! x) as [r|] eqn:E; [|done].
  by exists x, r.
Qed.
Lemma in_closed h t l : t ∈ l -> closedb h l = true -> forall u, below h t u -> u ∈ l.
Proof.
  intros Ht Hc u Hu. induction Hu as [|x y _ IH Hy]; [done|]. unfold closedb in Hc. rewrite forallb_forall in Hc. apply elem_of_list_In in IH. specialize (Hc x IH).
  cbn beta in Hc. rewrite forallb_forall in Hc. apply elem_of_list_In in Hy. specialize (Hc y Hy). by apply bool_decide_eq_true in Hc.
Qed.
Lemma taken h l (P : tensor -> bool) i x : forallb P (recs h l) = true -> h_ten h !! i = Some x -> i ∈ l -> P x = true.
Proof. intros Hf Hx Hi. rewrite forallb_forall in Hf. apply Hf. apply elem_of_list_In, elem_of_list_omap. by exists i. Qed.
Lemma carefulb_ok h H o : tinv h -> sized h -> carefulb h H o = true -> careful h H o.
Proof.
  intros Hi Hs Hc. destruct o; cbn [carefulb] in Hc; try done;
    try (apply with_rec_ok in Hc as (x & r & -> & Hh & Hk); pose proof (Hs _ _ (proj2 Hh)) as Hn).
  all: try (by econstructor; try done; auto using bytesb_ok, compactb_ok, fitsb_ok).
  - destruct t as [dt xs|]; [|done]. apply andb_prop in Hc as [H1 H2]. apply Z.ltb_lt in H1. apply Z.leb_le in H2. constructor; [constructor|].
    intros ss dt' Hr. inversion Hr; subst. split; [by repeat constructor|done].
  - apply andb_prop in Hc as [H1 H2]. apply Z.leb_le in H2. constructor; [by apply bytesb_ok|done].
  - destruct dt; try done. constructor. by apply bytesb_ok.
  - apply with_rec_ok in Hk as (y & rb & -> & Hb & Hk). eapply SAdd; [done|done|by apply bytesb_ok].
  - apply with_rec_ok in Hk as (y & rb & -> & Hb & Hk). eapply SSub; [done|done|by apply bytesb_ok].
  - apply with_rec_ok in Hk as (y & rb & -> & Hb & Hk). eapply SMul; [done|done|by apply bytesb_ok].
  - apply andb_prop in Hc as [H1 H2]. apply with_rec_ok in H1 as (x & ra & -> & Ha & H1). apply with_rec_ok in H1 as (y & rb & -> & Hb & H1).
    apply with_rec_ok in H2 as (x' & ra' & [= <-] & Ha' & H2). apply with_rec_ok in H2 as (y' & rb' & [= <-] & Hb' & H2).
    assert (ra' = ra) as -> by (pose proof (proj2 Ha); pose proof (proj2 Ha'); congruence).
    assert (rb' = rb) as -> by (pose proof (proj2 Hb); pose proof (proj2 Hb'); congruence).
    eapply SDiv; [done|done|by apply bytesb_ok|]. intros Ht. destruct (t_rg ra), (t_rg rb); cbn in H2; try done; [|by destruct Ht].
    apply bool_decide_eq_true in H2. done.
  - apply with_rec_ok in Hk as (y & rb & -> & Hb & Hk). eapply SCmp; [done|done|by apply bytesb_ok].
  - apply with_rec_ok in Hk as (y & rb & -> & Hb & _). by eapply SAddEq.
  - apply andb_prop in Hc as [Hc H3]. apply andb_prop in Hc as [Hc H2]. apply with_rec_ok in Hc as (x & r & -> & Hh & Hk). apply andb_prop in Hk as [Hk H4].
    eapply SReshape; [done|apply fitsb_ok; [exact (Hs _ _ (proj2 Hh))|done]| | | |].
    + intros Hrg. rewrite Hrg in H4. cbn in H4. by apply negb_true_iff, bool_decide_eq_false in H4.
    + apply Forall_forall. intros z Hz. rewrite forallb_forall in H2. apply elem_of_list_In in Hz. specialize (H2 z Hz). unfold in_ll, two63 in *. lia.
    + apply Forall_forall. intros z Hz. rewrite forallb_forall in H2. apply elem_of_list_In in Hz. specialize (H2 z Hz). lia.
    + by apply Z.ltb_lt in H3.
  - apply andb_prop in Hc as [Hc H2]. apply handles_ok in Hc as (xs & -> & Hx). destruct (omap _ _) as [|r0 rs]; [done|]. apply andb_prop in H2 as [H2 H3].
    apply Z.ltb_lt in H3. eapply SCat; [done|by apply bytesb_ok|done].
  - apply Z.ltb_lt in Hk. by eapply SMax.
  - apply Z.ltb_lt in Hk. by eapply SMin.
  - eapply SGrad; [done|]. intros g gr Hg Hgr. rewrite Hg, Hgr in Hk. unfold bufferb in Hk. destruct (h_sto h !! t_sto gr) as [y|] eqn:E1; [|done].
    destruct (sto_blob y) as [cs|] eqn:E2; [|done]. by exists y, cs.
  - eapply SBackward; [done|]. cbv zeta in Hk. apply andb_prop in Hk as [Hl Hk]. apply andb_prop in Hl as [Hl1 Hl2]. apply bool_decide_eq_true in Hl1.
    pose proof (in_closed h x _ Hl1 Hl2) as Hle.
    apply orb_prop in Hk as [Hk|Hk]; [left|right].
    + intros u q Hu Hq Hrg. pose proof (taken _ _ _ _ _ Hk Hq (Hle u Hu)) as Hb. cbn beta in Hb. rewrite Hrg in Hb. apply compactb_ok; [exact (Hs _ _ Hq)|done].
    + apply andb_prop in Hk as [Hk H3]. apply andb_prop in Hk as [H1 H2]. split; [|split].
      * intros u q f Hu Hq Hf. pose proof (taken _ _ _ _ _ H1 Hq (Hle u Hu)) as Hb. cbn beta in Hb. rewrite Hf in Hb. apply andb_prop in Hb as [Hb1 Hb2]. split; [done|lia].
      * by apply compactb_ok.
      * intros u q Hu Hq. pose proof (taken _ _ _ _ _ H3 Hq (Hle u Hu)) as Hb. apply fitsb_ok; [exact (Hs _ _ Hq)|done].
  - destruct b; apply with_rec_ok in Hc as (x & r & -> & Hh & Hk); [by eapply SRequires|]. apply andb_prop in Hk as [H1 H2]. eapply SForget; [done| |].
    + intros [f Hf]. unfold fn_of in Hf. rewrite (proj2 Hh) in Hf. by rewrite Hf in H1.
    + intros u f Hf Ek Hin. unfold fn_of in Hf. destruct (h_ten h !! u) as [q|] eqn:Eq; [|done]. rewrite forallb_forall in H2.
      assert (In q (h_ten h)) as Hq by (by eapply elem_of_list_In, elem_of_list_lookup_2). specialize (H2 q Hq). cbn beta in H2. rewrite Hf, Ek in H2.
      apply negb_true_iff, bool_decide_eq_false in H2. done.
  - destruct a as [a|]; [|by constructor]. apply with_rec_ok in Hc as (x & r & [= ->] & Hh & _). constructor. intros ? [= <-]. by exists r.
Qed.

(** the calls of [ops], except the one at position [k], are careful *)
Fixpoint careful_runb (k : option nat) (h : heap) (H : list nat) (ops : list op) : bool :=
  match ops with
  | [] => true
  | o :: rest =>
      match k with Some O => true | _ => carefulb h H o end &&
      let k' := match k with Some (S j) => Some j | _ => None end in
      match exec o h with
      | (Ok v, h') => careful_runb k' h' ((match k with None => obtained o v | Some _ => match v with RHandle (Some t) => [t] | _ => [] end end) ++ H) rest
      | (Throw _, h') => careful_runb k' h' H rest
      | _ => true
      end
  end.
Lemma careful_runb_ok ops : forall k h H ops0 rs0, Forall size_ok ops0 -> run empty_heap ops0 = (Ok rs0, h) ->
  (match k with Some _ => Forall size_ok ops | None => True end) -> careful_runb k h H ops = true ->
  match k with None => careful_run h H ops | Some k => careful_except k h H ops end.
Proof.
  induction ops as [|o ops IH]; intros k h H ops0 rs0 Hsz Hrun Hk Hc; [by destruct k|]. cbn [careful_runb] in Hc. apply andb_prop in Hc as [Ho Hc].
  assert (reachable h) as Hre by (by exists ops0, rs0). pose proof (sized_reached ops0 rs0 h Hsz Hrun) as Hs.
  assert (match k with Some O => True | _ => careful h H o end) as Hcar.
  { destruct k as [[|k]|]; [done|..]; (apply carefulb_ok; [by apply reachable_tinv|done|done]). }
  assert (size_ok o /\ match k with Some _ => Forall size_ok ops | None => True end) as [Hso Hk'].
  { destruct k as [k|]; [by apply Forall_cons in Hk as [? ?]|]. split; [|done]. by eapply careful_size. }
  assert (Forall size_ok (ops0 ++ [o])) as Hsz' by (apply Forall_app; split; [done|by constructor]).
  set (k' := match k with Some (S j) => Some j | _ => None end) in Hc.
  assert (forall x h' H', exec o h = (x, h') -> (forall u, x <> UB u) -> x <> Diverge -> careful_runb k' h' H' ops = true ->
    match k' with None => careful_run h' H' ops | Some k => careful_except k h' H' ops end) as Hnext.
  { intros x h' H' E Hu Hd Hcc. eapply (IH k' h' H' (ops0 ++ [o]) (rs0 ++ [x])); [done|by eapply run_more| |done]. subst k'. by destruct k as [[|?]|]. }
  destruct k as [[|k]|]; cbn [careful_except careful_run]; (split; [done|]); subst k'; cbn in Hnext, Hc; destruct (exec o h) as [[v|e|u|] h'] eqn:E; try done;
    by eapply Hnext.
Qed.
Lemma check_careful ops : careful_runb None empty_heap [] ops = true -> careful_run empty_heap [] ops.
Proof. intros Hc. exact (careful_runb_ok ops None empty_heap [] [] [] (Forall_nil_2 _) eq_refl I Hc). Qed.
Lemma check_except k ops : forallb (fun o => forallb (Z.leb 0) (size_args o)) ops = true -> careful_runb (Some k) empty_heap [] ops = true ->
  careful_except k empty_heap [] ops.
Proof.
  intros Hz Hc. refine (careful_runb_ok ops (Some k) empty_heap [] [] [] (Forall_nil_2 _) eq_refl _ Hc).
  apply Forall_forall. intros o Ho. rewrite forallb_forall in Hz. apply elem_of_list_In in Ho. specialize (Hz o Ho). cbn beta in Hz.
  apply Forall_forall. intros n Hn. rewrite forallb_forall in Hz. apply elem_of_list_In in Hn. specialize (Hz n Hn). lia.
Qed.
End with_fops.

#[local] Existing Instance Ieee.
#[local] Notation vec := Refute2.vec.
Definition ends_badly (ops : list (@op Ieee)) : Prop := exists u h, run empty_heap ops = (UB u, h) /\ memory_error u.
Definition ends_badlyb (ops : list (@op Ieee)) : bool :=
  match (run empty_heap ops).1 with UB (SignedOverflow | DivByZero | FloatRange | BadBool) => false | UB _ => true | _ => false end.
Lemma ends_badly_ok ops : ends_badlyb ops = true -> ends_badly ops.
Proof.
  unfold ends_badlyb, ends_badly. destruct (run empty_heap ops) as [[rs|e|u|] h]; cbn [fst]; intros Hb; try done. exists u, h. split; [done|]. by destruct u.
Qed.
(** Histories that end in a memory error because of one call that is not careful: (position
    of that call, calls). *)
Definition one_bad_call : list (nat * list (@op Ieee)) := [
  (* abs() of a tensor that is not compact *)
  (2%nat, [ivec [1; -2; 3]; OSlice #0 (chars "1:"); OAbs #1]);
  (* max() without elements *)
  (1%nat, [OZeros [0] F32; OMax #0]);
  (* a tracked tensor divided by one that is not *)
  (3%nat, [vec [1; 2]; ORequires #0 true; vec [3; 4]; ODiv #0 #1; OSum #2; OBackward #3]);
  (* the divisor is broadcast *)
  (4%nat, [vec [1; 2; 3]; ORequires #0 true; vec [4]; ORequires #1 true; ODiv #0 #1; OSum #2; OBackward #3]);
  (* views of a tracked slice, the gradient of which does not fit *)
  (3%nat, [vec [1; 2; 3]; OSlice #0 (chars "1:"); ORequires #1 true; OSlice #1 (chars "1:2"); OSum #2; OBackward #5]);
  (3%nat, [OFromBlob (map f64 [1; 2; 3; 4]) [2; 2] F64; OSlice #0 (chars "1:"); ORequires #1 true; OTranspose #1 0 1; OSum #2; OBackward #5]);
  (3%nat, [vec [1; 2; 3]; OSlice #0 (chars "1:"); ORequires #1 true; OReshape #1 [2; 1]; OSum #2; OBackward #5]);
  (* a tracked scalar is reshaped *)
  (2%nat, [OScalar F64 (f64 2); ORequires #0 true; OReshape #0 [1]]);
  (* requires_grad(false) on an intermediate, and on an operand of a quotient *)
  (5%nat, [vec [2; 3]; ORequires #0 true; OMul #0 #0; OSum #1; OBackward #2; ORequires #1 false; OBackward #2]);
  (6%nat, [vec [1; 2]; ORequires #0 true; vec [3; 4]; ORequires #1 true; ODiv #0 #1; OSum #2; ORequires #1 false; OBackward #3]);
  (* grad() when the gradient has no buffer yet *)
  (3%nat, [vec [1; 2; 3]; ORequires #0 true; OSlice #0 (chars "1:"); OGrad #0; QToString #2]);
  (* backward() over a leaf that is a slice; again through a slice *)
  (4%nat, [vec [1; 2; 3]; OSlice #0 (chars "1:"); ORequires #1 true; OSum #1; OBackward #2]);
  (5%nat, [vec [1; 2; 3]; ORequires #0 true; OSlice #0 (chars "1:"); OSum #1; OBackward #4; OBackward #4]);
  (* {{}, {}} *)
  (0%nat, [OInit (TNode [TNode []; TNode []])]);
  (* randn() for F64 *)
  (0%nat, [ORandn [3] F64 [f_zero; f_zero; f_zero]]);
  (* release() *)
  (1%nat, [vec [1]; ORelease #0; QToString #0]);
  (* from_blob() of too few values *)
  (0%nat, [OFromBlob [f64 1] [2] F64]);
  (* the number of bytes is 2^64 *)
  (0%nat, [OZeros [2 ^ 61] I64; OSlice #0 (chars "0"); QToString #1]);
  (* Tensor(sizes, dtype) read before it is written *)
  (0%nat, [ONew [2] F64; OClone #0]);
  (* a null tensor *)
  (0%nat, [OSum None])].
Lemma one_bad_call_matters : Forall (fun '(k, ops) => careful_except k empty_heap [] ops /\ ends_badly ops) one_bad_call.
Proof.
  assert (forallb (fun '(k, ops) => forallb (fun o => forallb (Z.leb 0) (size_args o)) ops && careful_runb (Some k) empty_heap [] ops && ends_badlyb ops) one_bad_call = true)
    as Hb by (vm_compute; reflexivity).
  apply Forall_forall. intros [k ops] Hin. rewrite forallb_forall in Hb. apply elem_of_list_In in Hin. specialize (Hb _ Hin). cbn beta iota in Hb.
  apply andb_prop in Hb as [Hb H3]. apply andb_prop in Hb as [H1 H2]. split; [by apply check_except|by apply ends_badly_ok].
Qed.
Lemma safe_refuted : ends_badly [ivec [1; -2; 3]; OSlice #0 (chars "1:"); OAbs #1] /\
  ends_badly [vec [1; 2]; ORequires #0 true; vec [3; 4]; ODiv #0 #1; OSum #2; OBackward #3] /\
  ends_badly [vec [1; 2; 3]; ORequires #0 true; OSlice #0 (chars "1:"); OSum #1; OBackward #4; OBackward #4].
Proof. split_and!; apply ends_badly_ok; vm_compute; reflexivity. Qed.

Definition careful_ops : list (@op Ieee) := [
  vec [1; 2; 3; 4; 5; 6]; ORequires #0 true; OReshape #0 [2; -1]; OSlice #1 (chars ":, ::-2"); OMul #4 #4; OSum #6; OBackward #7;
  OGrad #0; QToString #2; OAddEq #0 #2; ODetach #0; OAddEq #13 #2; OCat (#13 :: #2 :: nil) 0; OAbs #14; OMax #14;
  vec [2; 2; 2; 2; 2; 2]; ORequires #17 true; ODiv #0 #17; OSum #18; OBackward #19; OBackward #19; OZeroGrad #0; QToString #0;
  ORetain #18 true; OEye 2 3 I32; OCmp CGt #0 #13; QAll #4; OReshape #0 [4; 4]; vec [3]; ORequires #33 true; ORequires #33 false].
Lemma careful_example : careful_run empty_heap [] careful_ops /\
  match run empty_heap careful_ops with
  | (Ok rs, _) => rs !! 8%nat = Some (Ok (RString "[2.000000, 0.000000, 6.000000, 8.000000, 0.000000, 12.000000]")) /\
      rs !! 9%nat = Some (Throw RuntimeError) /\ rs !! 27%nat = Some (Throw RuntimeError)
  | _ => False
  end.
Proof.
  split; [apply check_careful; vm_compute; reflexivity|].
  assert (match (run empty_heap careful_ops).1 with
    | Ok rs => match rs !! 8%nat, rs !! 9%nat, rs !! 27%nat with
        | Some (Ok (RString s)), Some (Throw RuntimeError), Some (Throw RuntimeError) => String.eqb s "[2.000000, 0.000000, 6.000000, 8.000000, 0.000000, 12.000000]"
        | _, _, _ => false end
    | _ => false end = true) as Hb by (vm_compute; reflexivity).
  destruct (run empty_heap careful_ops) as [[rs|e|u|] h]; cbn [fst] in Hb; try done.
  destruct (rs !! 8%nat) as [[[]|?|?|]|]; try done. destruct (rs !! 9%nat) as [[?|[]|?|]|]; try done.
  destruct (rs !! 27%nat) as [[?|[]|?|]|]; try done. apply String.eqb_eq in Hb as ->. done.
Qed.
