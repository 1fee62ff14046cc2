(** Nested initializer lists. *)
From Verif.Spec Require Export Init.
From Verif.Proofs Require Export Sto.
From Verif.Proofs Require Import Api1.

Section with_fops.
Context {fo : FOps}.

Lemma tinit_nested_ind (P : tinit -> Prop) :
  (forall dt xs, P (TLeaf dt xs)) -> (forall ts, Forall P ts -> P (TNode ts)) -> forall t, P t.
Proof.
  intros Hl Hn. fix IH 1. intros [dt xs|ts]; [apply Hl|]. apply Hn.
  induction ts as [|t ts IHts]; constructor; [apply IH|exact IHts].
Qed.
Fixpoint specs (ts : list tinit) : outcome (list spec) :=
  match ts with
  | [] => Ok []
  | t :: r => let? s := tinit_spec t in let? ss := specs r in Ok (s :: ss)
  end.
Lemma tinit_spec_node ts : tinit_spec (TNode ts) = let? subs := specs ts in node_spec subs.
Proof.
  cbn [tinit_spec]. f_equal.
Qed.

(** a complete specification of shape [ss] *)
Definition full_spec (s : spec) (ss : list Z) (dt : dtype) : Prop :=
  sp_shape s = ss /\ sp_dt s = Some dt /\ Z.of_nat (length (sp_data s)) = size_prod ss /\
  Forall (fun n => 0 <= n) ss.

Lemma all_same_true first l ss dt : full_spec first ss dt ->
  Forall (fun s => exists ss dt, full_spec s ss dt) l ->
  (all_same first l = Ok true /\ Forall (fun s => full_spec s ss dt) l) \/
  (all_same first l = Ok false /\ Exists (fun s => ~ full_spec s ss dt) l).
Proof.
  intros (F1 & F2 & F3 & F4) Hl. induction Hl as [|x l (ss' & dt' & X1 & X2 & X3 & X4) Hl IH]; [by left|].
  cbn [all_same]. unfold is_same_spec. rewrite X1, F1, X2, F2.
  case_bool_decide as E1; cbn [obind].
  - case_bool_decide as E2.
    + subst. destruct IH as [[-> H]|[-> H]]; [left|right]; (split; [done|]).
      * constructor; [|done]. unfold full_spec. rewrite E1 in *. done.
      * by right.
    + right. split; [done|]. left. intros (_ & H & _). congruence.
  - right. split; [done|]. left. intros (H & _). congruence.
Qed.

Lemma tinit_spec_rect t ss dt : rectangular t ss dt ->
  exists s, tinit_spec t = Ok s /\ full_spec s ss dt.
Proof.
  revert ss. induction t as [dt' xs|ts IH] using tinit_nested_ind; intros ss Hr.
  - inversion Hr; subst. eexists. split; [done|]. split; [done|]. split; [done|].
    split; [simpl; lia|]. constructor; [lia|done].
  - inversion Hr as [|ts' ss' dt' Hne Hts]; subst. rewrite tinit_spec_node.
    assert (exists subs, specs ts = Ok subs /\ length subs = length ts /\ Forall (fun s => full_spec s ss' dt) subs)
      as (subs & -> & Hlen & Hsubs).
    { clear Hr Hne. induction Hts as [|t ts Ht Hts IHts].
      - exists []. done.
      - apply Forall_cons in IH as [IHt IH]. destruct (IHt _ Ht) as (s & Es & Hs).
        destruct (IHts IH) as (subs & E & Hl & Hsubs). exists (s :: subs). cbn [specs]. rewrite Es, E. simpl.
        split; [done|]. split; [by f_equal|]. by constructor. }
    cbn [obind]. unfold node_spec. destruct subs as [|first subs]; [by destruct ts|].
    pose proof Hsubs as [Hf _]%Forall_cons.
    assert (Forall (fun s => exists ss dt, full_spec s ss dt) (first :: subs)) as Hsome
      by (eapply Forall_impl; [exact Hsubs|]; intros ? H; by exists ss', dt).
    destruct (all_same_true first (first :: subs) ss' dt Hf Hsome) as [[-> _]|[_ Hex]].
    + cbn [obind]. eexists. split; [done|]. destruct Hf as (F1 & F2 & F3 & F4).
      split; [cbn [sp_shape]; by rewrite F1, Hlen|]. split; [done|].
      split; [|constructor; [lia|done]]. cbn [sp_data size_prod]. rewrite <- Hlen.
      clear -Hsubs. induction Hsubs as [|s subs' (_ & _ & Hs & _) Hsubs IH]; [done|].
      cbn [map List.concat]. rewrite app_length. cbn [length]. rewrite !Nat2Z.inj_add, !Nat2Z.inj_succ, Hs, IH. lia.
    + exfalso. apply Exists_exists in Hex as (s & Hs & Hn). rewrite Forall_forall in Hsubs. by apply Hn, Hsubs.
Qed.

(** the elements *)
Lemma spec_data t ss dt s : rectangular t ss dt -> tinit_spec t = Ok s ->
  forall idx v, in_range ss idx -> sp_data s !! Z.to_nat (row_major ss idx) = Some v -> leaf_at t idx v.
Proof.
  revert ss s. induction t as [dt' xs|ts IH] using tinit_nested_ind; intros ss s Hr Es idx v Hi Hv.
  - inversion Hr; subst. injection Es as <-. destruct idx as [|i idx]; [inversion Hi|].
    apply in_range_cons in Hi as [Hi1 Hi]. apply in_range_nil_inv in Hi as ->.
    simpl in Hv. rewrite Z.mul_1_r, Z.add_0_r in Hv. constructor; [lia|done].
  - inversion Hr as [|ts' ss' dt' Hne Hts]; subst. rewrite tinit_spec_node in Es.
    destruct idx as [|i idx]; [inversion Hi|]. apply in_range_cons in Hi as [Hi1 Hi].
    destruct (specs ts) as [subs| | |] eqn:Esp; try done. cbn [obind] in Es.
    assert (sp_data s = List.concat (map sp_data subs)) as Hd.
    { unfold node_spec in Es. destruct subs as [|first subs]; [|destruct (all_same first (first :: subs)) as [[]| | |]; try done; by injection Es as <-].
      by injection Es as <-. }
    rewrite Hd in Hv. clear Hd Es Hr Hne s. cbn [row_major] in Hv.
    pose proof (row_major_bounds _ _ Hi) as Hb.
    revert subs i Hi1 Esp Hv. induction Hts as [|t ts Ht Hts IHts]; intros subs i Hi1 Esp Hv; [simpl in Hi1; lia|].
    apply Forall_cons in IH as [IHt IH]. cbn [specs] in Esp.
    destruct (tinit_spec t) as [s| | |] eqn:Et; try done. cbn [obind] in Esp.
    destruct (specs ts) as [subs'| | |] eqn:Ets; try done. cbn [obind] in Esp. injection Esp as <-.
    destruct (tinit_spec_rect _ _ _ Ht) as (s' & Es' & Hf). assert (s' = s) as -> by congruence.
    destruct Hf as (_ & _ & Hl & _). cbn [map List.concat] in Hv.
    destruct (decide (i = 0)) as [->|Hi0].
    + rewrite Z.mul_0_l, Z.add_0_l in Hv. rewrite lookup_app_l in Hv by lia.
      econstructor; [lia|done|]. by eapply IHt.
    + rewrite lookup_app_r in Hv by nia.
      assert (leaf_at (TNode ts) (i - 1 :: idx) v) as Hrec.
      { apply (IHts IH subs'); [cbn [length] in Hi1; lia|done|]. rewrite <- Hv. f_equal. nia. }
      inversion Hrec as [|? ? u ? ? H0 Hu Hat]; subst. econstructor; [lia| |exact Hat].
      replace (Z.to_nat i) with (S (Z.to_nat (i - 1))) by lia. exact Hu.
Qed.
Lemma spec_typed t s : typed t -> tinit_spec t = Ok s ->
  match sp_dt s with Some dt => Forall (has_ty dt) (sp_data s) | None => sp_data s = [] end.
Proof.
  revert s. induction t as [dt' xs|ts IH] using tinit_nested_ind; intros s Ht Es.
  - inversion Ht; subst. by injection Es as <-.
  - inversion Ht as [|? Hts]; subst. rewrite tinit_spec_node in Es.
    destruct (specs ts) as [subs| | |] eqn:Esp; try done. cbn [obind] in Es.
    assert (Hall : Forall (fun s => match sp_dt s with Some dt => Forall (has_ty dt) (sp_data s) | None => sp_data s = [] end) subs).
    { clear Es Ht. revert subs Esp. induction Hts as [|t ts Ht Hts IHts]; intros subs Esp; [by injection Esp as <-|].
      apply Forall_cons in IH as [IHt IH]. cbn [specs] in Esp.
      destruct (tinit_spec t) as [s'| | |] eqn:Et; try done. cbn [obind] in Esp.
      destruct (specs ts) as [subs'| | |] eqn:Ets; try done. cbn [obind] in Esp. injection Esp as <-.
      constructor; [by apply IHt|by apply IHts]. }
    unfold node_spec in Es. destruct subs as [|first subs]; [by injection Es as <-|].
    destruct (all_same first (first :: subs)) as [[]| | |] eqn:Ea; try done. injection Es as <-. cbn [sp_dt sp_data].
    assert (Forall (fun s => sp_dt s = sp_dt first /\ is_Some (sp_dt first)) (first :: subs)) as Hdt.
    { clear Hall. revert Ea. generalize (first :: subs) as l. induction l as [|x l IHl]; intros Ea; [done|].
      cbn [all_same] in Ea. unfold is_same_spec in Ea. case_bool_decide; [|done].
      destruct (sp_dt x) as [a|] eqn:Ex, (sp_dt first) as [b|] eqn:Ef; try done. case_bool_decide; [|done]. subst.
      cbn [obind] in Ea. constructor; [done|]. by apply IHl. }
    pose proof Hdt as [[_ [dt Hfd]] _]%Forall_cons. rewrite Hfd.
    clear Ea. assert (forall l, Forall (fun s => sp_dt s = sp_dt first /\ is_Some (sp_dt first)) l ->
      Forall (fun s => match sp_dt s with Some dt => Forall (has_ty dt) (sp_data s) | None => sp_data s = [] end) l ->
      Forall (has_ty dt) (List.concat (map sp_data l))) as Hc; [|by apply (Hc (first :: subs))].
    intros l H1 H2. induction H1 as [|x l [Hx _] H1 IHl]; [constructor|]. apply Forall_cons in H2 as [H2 H3].
    cbn [map List.concat]. apply Forall_app. split; [|auto]. by rewrite Hx, Hfd in H2.
Qed.

Lemma create_impl_ok h s ss dt : full_spec s ss dt -> ss <> [] ->
  Forall (fun n => n < two64) ss -> fits dt ss ->
  create_impl s h =
    (Ok (Some (length (h_ten h))),
     alloc_heap h dt (contig ss) (map Some (sp_data s)) false None).
Proof.
  intros (F1 & F2 & F3 & F4) Hne H64 Hfit.
  assert (allocable dt ss) as Ha.
  { split; [|done]. apply Forall_forall. intros n Hn. rewrite Forall_forall in F4, H64. split; [by apply F4|by apply H64]. }
  unfold create_impl. rewrite F1. destruct ss as [|n ss]; [done|]. set (ss' := n :: ss) in *.
  rewrite F2. rewrite bind_lift. cbn [lift].
  erewrite bind_ok by apply create_noalloc.
  erewrite bind_ok by (apply get_ten_ok; cbn [h_ten]; by rewrite lookup_app_r, Nat.sub_diag).
  erewrite bind_ok by (apply get_sto_ok; cbn [h_sto t_sto]; by rewrite lookup_app_r, Nat.sub_diag).
  cbn [t_sto sto_ty sto_bytes]. erewrite bind_ok by done.
  unfold mret. f_equal. unfold alloc_heap. simpl.
  rewrite insert_app_r_alt, Nat.sub_diag by lia. cbn [insert list_insert]. repeat f_equal.
  unfold lnumel. change (sizes (contig ss')) with ss'. rewrite (allocable_numel _ _ Ha).
  pose proof (allocable_prod _ _ Ha). pose proof (size_of_pos dt). destruct Ha as [_ Ha].
  assert (0 <= size_of dt * size_prod ss') by nia.
  apply u64_id. change (n * size_prod ss) with (size_prod ss'). split; [done|]. clear -Ha. unfold alloc_max, two64 in *. lia.
Qed.

Lemma init_new h t ss dt : rectangular t ss dt -> typed t ->
  Forall (fun n => n < two64) ss -> fits dt ss ->
  exists t' h' w, exec (OInit t) h = (Ok (RHandle (Some t')), h') /\
    new_tensor h h' t' dt ss false w /\ forall idx, in_range ss idx -> leaf_at t idx (w idx).
Proof.
  intros Hr Hty H64 Hfit. destruct (tinit_spec_rect _ _ _ Hr) as (s & Es & Hf).
  pose proof Hf as (F1 & F2 & F3 & F4).
  assert (allocable dt ss) as Ha.
  { split; [|done]. apply Forall_forall. intros n Hn. rewrite Forall_forall in F4, H64. split; [by apply F4|by apply H64]. }
  set (w := fun idx => nth (Z.to_nat (row_major ss idx)) (sp_data s) (VI 0)).
  exists (length (h_ten h)), (alloc_heap h dt (contig ss) (rm_cells ss w) false None), w.
  assert (Hw : forall idx, in_range ss idx -> sp_data s !! Z.to_nat (row_major ss idx) = Some (w idx)).
  { intros idx Hi. pose proof (row_major_bounds _ _ Hi).
    destruct (lookup_lt_is_Some_2 (sp_data s) (Z.to_nat (row_major ss idx))) as [v Hv]; [lia|].
    unfold w. by rewrite (nth_lookup_Some _ _ (VI 0) v Hv). }
  pose proof (spec_typed _ _ Hty Es) as Hts. rewrite F2, Forall_lookup in Hts.
  split; [|split].
  - cbn [exec]. rewrite bind_lift, Es. cbn [lift]. erewrite bind_ok.
    2:{ apply create_impl_ok; [done| |done|done]. by inversion Hr. }
    unfold mret. do 2 f_equal. unfold w. rewrite <- map_nth_rm by (done || lia).
    rewrite firstn_all2 by lia. done.
  - apply alloc_new_tensor; [done|]. intros idx Hi. eapply Hts. by apply Hw.
  - intros idx Hi. eapply spec_data; try done. by apply Hw.
Qed.

Lemma ragged_spec t : no_empty_node t ->
  (exists ss dt, rectangular t ss dt) \/ tinit_spec t = Throw InvalidArgument.
Proof.
  induction t as [dt xs|ts IH] using tinit_nested_ind; intros Hn.
  - left. eexists _, _. constructor.
  - inversion Hn as [|? Hne Hts]; subst. rewrite tinit_spec_node.
    assert (specs ts = Throw InvalidArgument \/
      exists subs, specs ts = Ok subs /\ Forall2 (fun t s => exists ss dt, rectangular t ss dt /\ full_spec s ss dt) ts subs)
      as [->|(subs & -> & Hsubs)].
    { clear Hn Hne. induction Hts as [|t ts Ht Hts IHts]; [right; by exists []|].
      apply Forall_cons in IH as [IHt IH]. cbn [specs]. destruct (IHt Ht) as [(ss & dt & Hr)| ->]; [|by left].
      destruct (tinit_spec_rect _ _ _ Hr) as (s & -> & Hf). cbn [obind].
      destruct (IHts IH) as [->|(subs & -> & H)]; [by left|]. right. eexists. split; [done|]. constructor; eauto. }
    + by right.
    + destruct Hsubs as [|t s ts subs (ss & dt & Hr & Hf) Hsubs]; [done|]. cbn [obind]. unfold node_spec.
      assert (Forall (fun s => exists ss dt, full_spec s ss dt) (s :: subs)) as Hall.
      { constructor; [eauto|]. clear -Hsubs. induction Hsubs as [|???? (?&?&?&?)]; constructor; eauto. }
      destruct (all_same_true s (s :: subs) ss dt Hf Hall) as [[-> Hs]|[-> _]]; [|by right].
      left. eexists _, dt. apply RectNode; [done|]. constructor; [exact Hr|].
      apply Forall_cons in Hs as [_ Hs]. clear -Hsubs Hs.
      induction Hsubs as [|t s ts subs (ss' & dt' & H1 & H2) Hsubs IH]; [done|].
      apply Forall_cons in Hs as [H3 Hs]. constructor; [|auto].
      destruct H2 as (E1 & E2 & _), H3 as (E3 & E4 & _). congruence.
Qed.
Lemma init_ragged h t : no_empty_node t -> (forall ss dt, ~ rectangular t ss dt) ->
  exec (OInit t) h = (Throw InvalidArgument, h).
Proof.
  intros Hn Hr. destruct (ragged_spec t Hn) as [(ss & dt & H)|E]; [by apply Hr in H|].
  cbn [exec]. rewrite bind_lift, E. done.
Qed.

(** every successful specification is complete or that of the empty list *)
Lemma spec_full t s : tinit_spec t = Ok s ->
  (s = Spec [] None []) \/ exists ss dt, ss <> [] /\ full_spec s ss dt.
Proof.
  revert s. induction t as [dt xs|ts IH] using tinit_nested_ind; intros s Es.
  - injection Es as <-. right. eexists _, dt. split; [|split; [done|]]; [done|]. cbn [sp_dt sp_data sp_shape].
    split; [done|]. split; [simpl; lia|]. constructor; [lia|done].
  - rewrite tinit_spec_node in Es. destruct (specs ts) as [subs| | |] eqn:Esp; try done. cbn [obind] in Es.
    assert (Forall (fun s => s = Spec [] None [] \/ exists ss dt, ss <> [] /\ full_spec s ss dt) subs) as Hall.
    { clear Es. revert subs Esp. induction IH as [|t ts Ht IH IHts]; intros subs Esp; [by injection Esp as <-|].
      cbn [specs] in Esp. destruct (tinit_spec t) as [s'| | |] eqn:Et; try done. cbn [obind] in Esp.
      destruct (specs ts) as [subs'| | |] eqn:Ets; try done. cbn [obind] in Esp. injection Esp as <-.
      constructor; [by apply Ht|by apply IHts]. }
    unfold node_spec in Es. destruct subs as [|first subs]; [left; by injection Es as <-|]. right.
    destruct (all_same first (first :: subs)) as [[]| | |] eqn:Ea; try done. injection Es as <-.
    assert (Forall (fun s => sp_shape s = sp_shape first /\ sp_dt s = sp_dt first /\ is_Some (sp_dt first)) (first :: subs)) as Hdt.
    { clear Hall. revert Ea. generalize (first :: subs) as l. induction l as [|x l IHl]; intros Ea; [done|].
      cbn [all_same] in Ea. unfold is_same_spec in Ea. case_bool_decide; [|done].
      destruct (sp_dt x) as [a|] eqn:Ex, (sp_dt first) as [b|] eqn:Ef; try done. case_bool_decide; [|done]. subst.
      cbn [obind] in Ea. constructor; [by rewrite Ex|]. by apply IHl. }
    pose proof Hdt as [(_ & _ & [dt Hfd]) _]%Forall_cons.
    assert (Hall' : Forall (fun s => full_spec s (sp_shape first) dt) (first :: subs)).
    { revert Hall Hdt. generalize (first :: subs) as l. clear Ea. induction l as [|x l IHl]; intros Hall Hdt; [done|].
      apply Forall_cons in Hall as [H1 H2]. apply Forall_cons in Hdt as [(H3 & H4 & _) H5]. constructor; [|auto].
      destruct H1 as [->|(ss & dt' & _ & F)]; [simpl in H4; congruence|].
      destruct F as (E1 & E2 & E3 & E4). rewrite <- H3, E1. split; [done|]. split; [congruence|done]. }
    pose proof Hall' as [(_ & _ & _ & Hn) _]%Forall_cons.
    exists (Z.of_nat (S (length subs)) :: sp_shape first), dt. split; [done|]. split; [done|].
    split; [exact Hfd|]. split; [|constructor; [lia|done]].
    change (Z.of_nat (length (List.concat (map sp_data (first :: subs)))) =
      Z.of_nat (length (first :: subs)) * size_prod (sp_shape first)).
    revert Hall'. clear. generalize (sp_shape first) as ss. generalize (first :: subs) as l. intros l ss.
    induction 1 as [|s l (_ & _ & Hs & _) _ IH]; [done|].
    cbn [map List.concat]. rewrite app_length. cbn [length].
    rewrite !Nat2Z.inj_add, !Nat2Z.inj_succ, Hs, IH. lia.
Qed.

(** ** what every nesting does *)
Definition empty_spec : spec := Spec [] None [].
Lemma built_spec t : built t -> exists s, tinit_spec t = Ok s /\ (t = TNode [] /\ s = empty_spec \/ exists ss dt, rectangular t ss dt /\ full_spec s ss dt /\ ss <> []).
Proof.
  intros [->|(ss & dt & Hr)].
  - exists empty_spec. split; [done|]. by left.
  - destruct (tinit_spec_rect _ _ _ Hr) as (s & Es & Hf). exists s. split; [done|]. right. exists ss, dt. split; [done|]. split; [done|]. by inversion Hr.
Qed.
Lemma specs_built ts : Forall built ts -> exists subs, specs ts = Ok subs /\
  Forall2 (fun t s => t = TNode [] /\ s = empty_spec \/ exists ss dt, rectangular t ss dt /\ full_spec s ss dt /\ ss <> []) ts subs.
Proof.
  induction 1 as [|t ts Ht _ IH]; [by exists []|]. destruct (built_spec t Ht) as (s & Es & Hs). destruct IH as (subs & El & Hl).
  exists (s :: subs). cbn [specs]. rewrite Es. cbn [obind]. rewrite El. split; [done|]. by constructor.
Qed.
Lemma specs_stop ts t ts' o : Forall built ts -> tinit_spec t = o -> (forall s, o <> Ok s) ->
  specs (ts ++ t :: ts') = match o with Ok _ => Ok [] | Throw e => Throw e | UB u => UB u | Diverge => Diverge end.
Proof.
  intros Hts Et Hn. induction Hts as [|x ts Hx _ IH]; cbn [app specs].
  - rewrite Et. destruct o as [s|?|?|]; try done. by destruct (Hn s).
  - destruct (built_spec x Hx) as (s & -> & _). cbn [obind]. rewrite IH. destruct o as [s'|?|?|]; try done. by destruct (Hn s').
Qed.
Lemma rect_unique t ss dt ss' dt' : rectangular t ss dt -> rectangular t ss' dt' -> ss = ss' /\ dt = dt'.
Proof.
  intros H H'. destruct (tinit_spec_rect _ _ _ H) as (s & E & F1 & F2 & _). destruct (tinit_spec_rect _ _ _ H') as (s' & E' & F1' & F2' & _).
  assert (s' = s) as -> by congruence. split; congruence.
Qed.
(** comparing the parts with a rectangular first one *)
Lemma all_same_built first ss dt ts subs : full_spec first ss dt -> ss <> [] ->
  Forall2 (fun t s => t = TNode [] /\ s = empty_spec \/ exists ss dt, rectangular t ss dt /\ full_spec s ss dt /\ ss <> []) ts subs ->
  (all_same first subs = Ok true /\ Forall (fun t => rectangular t ss dt) ts) \/
  (all_same first subs = Ok false /\ Exists (fun t => ~ rectangular t ss dt) ts).
Proof.
  intros (F1 & F2 & F3 & F4) Hss. induction 1 as [|t s ts subs Hs _ IH]; [by left|]. cbn [all_same]. unfold is_same_spec.
  destruct Hs as [[-> ->]|(ss' & dt' & Hr & (S1 & S2 & _) & _)].
  - right. cbn [sp_shape empty_spec]. rewrite F1. rewrite bool_decide_eq_false_2 by (intros <-; done). split; [done|]. left. inversion 1. done.
  - rewrite S1, F1, S2, F2. case_bool_decide as E1; cbn [obind].
    + case_bool_decide as E2.
      * destruct IH as [[-> H]|[-> H]]; [left|right]; (split; [done|]); [|by right]. constructor; [by rewrite <- E1, <- E2|done].
      * right. split; [done|]. left. intros H. destruct (rect_unique _ _ _ _ _ Hr H). done.
    + right. split; [done|]. left. intros H. destruct (rect_unique _ _ _ _ _ Hr H). done.
Qed.
Lemma mismatched_spec t : mismatched t -> tinit_spec t = Throw InvalidArgument.
Proof.
  induction 1 as [t ts ss dt Hr Hts Hex|ts t ts' Hts _ IH]; rewrite tinit_spec_node.
  - destruct (specs_built (t :: ts)) as (subs & -> & Hs); [constructor; [right; by exists ss, dt|done]|]. cbn [obind].
    inversion Hs as [|? s ? subs' Hs1 Hs2]; subst. unfold node_spec.
    destruct Hs1 as [[-> _]|(ss' & dt' & Hr' & Hf & Hne)]; [by inversion Hr|]. destruct (rect_unique _ _ _ _ _ Hr Hr') as [<- <-].
    destruct (all_same_built s ss dt (t :: ts) (s :: subs') Hf Hne) as [[_ Hall]|[-> _]]; [| |done].
    + constructor; [|done]. right. by exists ss, dt.
    + exfalso. apply Forall_cons in Hall as [_ Hall]. apply Exists_exists in Hex as (u & Hu & Hn). rewrite Forall_forall in Hall. by apply Hn, Hall.
  - erewrite specs_stop by (done || exact IH). done.
Qed.
Lemma unassigned_spec t : unassigned t -> tinit_spec t = UB Uninit.
Proof.
  induction 1 as [ts Hts|ts t ts' Hts _ IH]; rewrite tinit_spec_node.
  - destruct (specs_built (TNode [] :: ts)) as (subs & -> & Hs); [constructor; [by left|done]|]. cbn [obind].
    inversion Hs as [|? s ? subs' Hs1 Hs2]; subst. destruct Hs1 as [[_ ->]|(ss' & dt' & Hr' & _)]; [done|by inversion Hr'].
  - erewrite specs_stop by (done || exact IH). done.
Qed.
(** every nesting is empty, rectangular, mismatched or has an unassigned type *)
Lemma init_cases t : built t \/ mismatched t \/ unassigned t.
Proof.
  induction t as [dt xs|ts IH] using tinit_nested_ind; [left; right; eexists _, _; constructor|].
  assert (Forall built ts \/ exists l t l', ts = l ++ t :: l' /\ Forall built l /\ (mismatched t \/ unassigned t)) as [Hall|(l & t & l' & -> & Hl & Ht)].
  { induction IH as [|t ts Ht _ IHts]; [by left|]. destruct Ht as [Ht|Ht]; [|right; by exists [], t, ts].
    destruct IHts as [?|(l & u & l' & -> & Hl & Hu)]; [left; by constructor|]. right. exists (t :: l), u, l'. split; [done|]. split; [by constructor|done]. }
  2:{ right. destruct Ht; [left|right]; by constructor. }
  destruct ts as [|t ts]; [left; by left|]. apply Forall_cons in Hall as [Ht Hts]. destruct Ht as [->|(ss & dt & Hr)]; [right; right; by constructor|].
  destruct (specs_built (t :: ts)) as (subs & Es & Hs); [constructor; [right; by exists ss, dt|done]|].
  inversion Hs as [|? s ? subs' Hs1 Hs2]; subst. destruct Hs1 as [[-> _]|(ss' & dt' & Hr' & Hf & Hne)]; [by inversion Hr|].
  destruct (rect_unique _ _ _ _ _ Hr Hr') as [<- <-]. destruct (all_same_built s ss dt ts subs' Hf Hne Hs2) as [[_ Hall]|[_ Hex]].
  - left. right. eexists _, dt. apply RectNode; [done|]. by constructor.
  - right. left. by eapply MisHere.
Qed.
Lemma init_rect h t ss dt : rectangular t ss dt -> exists x h', exec (OInit t) h = (Ok (RHandle (Some x)), h').
Proof.
  intros Hr. destruct (tinit_spec_rect _ _ _ Hr) as (s & Es & F1 & F2 & _). assert (ss <> []) as Hne by (by inversion Hr).
  cbn [exec]. rewrite bind_lift, Es. cbn [lift]. unfold create_impl. rewrite F1, F2. destruct ss as [|n ss]; [done|].
  eexists _, _. erewrite bind_ok; [reflexivity|]. rewrite bind_lift. cbn [lift]. erewrite bind_ok by apply create_noalloc.
  erewrite bind_ok by (apply get_ten_ok; cbn [h_ten]; by rewrite lookup_app_r, Nat.sub_diag).
  erewrite bind_ok by (apply get_sto_ok; cbn [h_sto t_sto]; by rewrite lookup_app_r, Nat.sub_diag). reflexivity.
Qed.
Lemma init_null h : exec (OInit (TNode [])) h = (Ok (RHandle None), h).
Proof. done. Qed.
Lemma init_mis h t : mismatched t -> exec (OInit t) h = (Throw InvalidArgument, h).
Proof. intros H. cbn [exec]. rewrite bind_lift, mismatched_spec by done. done. Qed.
Lemma init_un h t : unassigned t -> exec (OInit t) h = (UB Uninit, h).
Proof. intros H. cbn [exec]. rewrite bind_lift, unassigned_spec by done. done. Qed.
Lemma init_outcome h t :
  (t = TNode [] <-> exec (OInit t) h = (Ok (RHandle None), h)) /\
  ((exists ss dt, rectangular t ss dt) <-> exists x h', exec (OInit t) h = (Ok (RHandle (Some x)), h')) /\
  (mismatched t <-> exec (OInit t) h = (Throw InvalidArgument, h)) /\
  (unassigned t <-> exec (OInit t) h = (UB Uninit, h)) /\
  (t = TNode [] \/ (exists ss dt, rectangular t ss dt) \/ mismatched t \/ unassigned t).
Proof.
  assert (t = TNode [] \/ (exists ss dt, rectangular t ss dt) \/ mismatched t \/ unassigned t) as Hc.
  { destruct (init_cases t) as [[?|?]|[?|?]]; auto. }
  destruct Hc as [->|[(ss & dt & Hr)|[Hm|Hu]]].
  - pose proof (init_null h) as E. split; [done|]. split; [|split; [|split; [|by left]]]; split.
    + intros (ss & dt & Hr). by inversion Hr.
    + intros (x & h' & E'). congruence.
    + intros H%(init_mis h). congruence.
    + intros E'. congruence.
    + intros H%(init_un h). congruence.
    + intros E'. congruence.
  - destruct (init_rect h t ss dt Hr) as (x & h' & E). split; [|split; [|split; [|split]]].
    + split; [intros ->; by inversion Hr|intros E'; congruence].
    + split; [by exists x, h'|by exists ss, dt].
    + split; [intros H%(init_mis h); congruence|intros E'; congruence].
    + split; [intros H%(init_un h); congruence|intros E'; congruence].
    + right. left. by exists ss, dt.
  - pose proof (init_mis h t Hm) as E. split; [|split; [|split; [|split]]].
    + split; [intros ->; by rewrite init_null in E|intros E'; congruence].
    + split; [intros (ss & dt & Hr); destruct (init_rect h t ss dt Hr) as (x & h' & E')|intros (x & h' & E')]; congruence.
    + done.
    + split; [intros H%(init_un h)|intros E']; congruence.
    + right. right. by left.
  - pose proof (init_un h t Hu) as E. split; [|split; [|split; [|split]]].
    + split; [intros ->; by rewrite init_null in E|intros E'; congruence].
    + split; [intros (ss & dt & Hr); destruct (init_rect h t ss dt Hr) as (x & h' & E')|intros (x & h' & E')]; congruence.
    + split; [intros H%(init_mis h)|intros E']; congruence.
    + done.
    + right. right. by right.
Qed.
End with_fops.
