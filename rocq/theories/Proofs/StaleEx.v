(** Examples for passes over graphs that were walked or cut before. *)
From Verif.Proofs Require Export Wide.
From Verif.Spec Require Export Stale.
From Verif.Model Require Export Api Ieee.

(** ** decision procedures *)
Section with_fops.
Context {fo : FOps}.
Definition memb (x : nat) (l : list nat) : bool := existsb (Nat.eqb x) l.
Definition nodeb (h : heap) (x : nat) : bool := match fn_of h x with Some _ => true | None => false end.
Fixpoint fromb (h : heap) (t : nat) (seen l : list nat) : bool :=
  match l with
  | [] => true
  | x :: l => negb (memb x seen) && nodeb h x && ((x =? t)%nat || existsb (fun c => memb x (inputs h c)) seen) && fromb h t (x :: seen) l
  end.
(** [l] lists the nodes below [t], consumers first *)
Definition nodesb (h : heap) (t : nat) (l : list nat) : bool :=
  match l with x :: _ => (x =? t)%nat | [] => false end && fromb h t [] l &&
  forallb (fun x => forallb (fun y => negb (nodeb h y) || memb y l) (inputs h x)) l.
Lemma memb_ok x l : memb x l = true <-> x ∈ l.
Proof.
  unfold memb. rewrite existsb_exists. setoid_rewrite <- elem_of_list_In. split.
  - intros (y & Hy & ->%Nat.eqb_eq). done.
  - intros H. exists x. split; [done|]. apply Nat.eqb_refl.
Qed.
Lemma nodeb_ok h x : nodeb h x = true <-> is_node h x.
Proof. unfold nodeb, is_node. destruct (fn_of h x); split; try done. by intros []. Qed.
Lemma fromb_ok h t l : forall seen, (forall x, x ∈ seen -> below h t x) -> fromb h t seen l = true ->
  NoDup l /\ (forall x, x ∈ l -> x ∉ seen /\ below h t x /\ is_node h x).
Proof.
  induction l as [|x l IH]; intros seen Hs H; [split; [constructor|by intros x ?%elem_of_nil]|]. cbn [fromb] in H.
  rewrite !andb_true_iff, orb_true_iff, negb_true_iff in H. destruct H as (((H1 & H2) & H3) & H4).
  assert (x ∉ seen) as Hx. { intros Hx%memb_ok. congruence. }
  assert (below h t x) as Hb.
  { destruct H3 as [->%Nat.eqb_eq|H3]; [constructor|]. apply existsb_exists in H3 as (c & Hc & Hxc). apply memb_ok in Hxc.
    eapply below_in; [|exact Hxc]. apply Hs. by apply elem_of_list_In. }
  destruct (IH (x :: seen)) as [Hd Hl]; [|done|].
  { intros y [->|?]%elem_of_cons; auto. }
  split.
  - constructor; [|done]. intros Hxl. destruct (Hl x Hxl) as [Hn _]. apply Hn. by left.
  - intros y [->|Hy]%elem_of_cons; [split; [done|]; split; [done|by apply nodeb_ok]|]. destruct (Hl y Hy) as (Hn & ? & ?).
    split; [|done]. intros Hy'. apply Hn. by right.
Qed.
Lemma nodesb_ok h t l : nodesb h t l = true -> nodes_below h t l.
Proof.
  unfold nodesb. rewrite !andb_true_iff. intros ((H1 & H2) & H3).
  destruct (fromb_ok h t l []) as [Hd Hl]; [by intros x ?%elem_of_nil|done|]. split; [done|]. intros x. split; [intros Hx; by destruct (Hl x Hx)|].
  intros [Hb Hn]. revert Hn. induction Hb as [|c y Hc IH Hy]; intros Hn.
  - destruct l as [|z l]; [done|]. apply Nat.eqb_eq in H1 as ->. by left.
  - assert (c ∈ l) as Hcl by (apply IH; by eapply node_of_input). rewrite forallb_forall in H3. specialize (H3 c (proj1 (elem_of_list_In _ _) Hcl)).
    rewrite forallb_forall in H3. specialize (H3 y (proj1 (elem_of_list_In _ _) Hy)). apply orb_true_iff in H3 as [H3|H3]; [|by apply memb_ok].
    apply negb_true_iff in H3. apply nodeb_ok in Hn. congruence.
Qed.
Definition accb (h : heap) (x : nat) (p : tensor -> Z -> bool) : bool :=
  match h_ten h !! x with Some r => match t_fn r with Some f => p r (gf_acc f) | None => false end | None => false end.
Definition unpassedb (h : heap) (x : nat) : bool := accb h x (fun r n => t_rg r && (n =? 0)).
Definition stoppedb (h : heap) (l : list nat) (x : nat) : bool :=
  accb h x (fun r n => if t_rg r then times h l x <=? n else negb (n =? times h l x)).
Lemma accb_ok h x p : accb h x p = true <-> exists r f, h_ten h !! x = Some r /\ t_fn r = Some f /\ p r (gf_acc f) = true.
Proof.
  unfold accb. split.
  - destruct (h_ten h !! x) as [r|]; [|done]. destruct (t_fn r) as [f|] eqn:E; [|done]. intros H. by exists r, f.
  - by intros (r & f & -> & -> & ->).
Qed.
Lemma unpassedb_ok h x : unpassedb h x = true <-> unpassed h x.
Proof.
  unfold unpassedb. rewrite accb_ok. split; intros (r & f & H1 & H2 & H3); exists r, f.
  - apply andb_true_iff in H3 as [? ?%Z.eqb_eq]. done.
  - destruct H3 as [-> ->]. done.
Qed.
Lemma stoppedb_ok h t l x : nodes_below h t l -> stoppedb h l x = true -> stopped h t x.
Proof.
  intros Hl H. apply accb_ok in H as (r & f & H1 & H2 & H3). exists r, f, l. split; [done|]. split; [done|]. split; [done|].
  destruct (t_rg r); [by apply Z.leb_le in H3|]. apply negb_true_iff in H3. by apply Z.eqb_neq in H3.
Qed.
Lemma settled_check h t l : nodesb h t l = true -> forallb (fun x => (x =? t)%nat || unpassedb h x || stoppedb h l x) l = true -> settled h t.
Proof.
  intros Hl%nodesb_ok H x Hb Hn Hne. rewrite forallb_forall in H. assert (x ∈ l) as Hx by (by apply Hl).
  specialize (H x (proj1 (elem_of_list_In _ _) Hx)). rewrite !orb_true_iff in H. destruct H as [[->%Nat.eqb_eq|H]|H]; [done| |].
  - left. by apply unpassedb_ok.
  - right. by eapply stoppedb_ok.
Qed.
(** [A] contains [x] and all consumers of its elements *)
Lemma open_check h t l A x : nodesb h t l = true -> memb x A && memb x l &&
  forallb (fun a => forallb (fun c => negb (memb a (inputs h c)) || memb c A) l) A &&
  forallb (fun c => (c =? t)%nat || unpassedb h c) A = true -> open h t x.
Proof.
  intros Hl%nodesb_ok. rewrite !andb_true_iff. intros (((Hx & Hxl) & HA) & H). apply memb_ok in Hx, Hxl.
  apply Hl in Hxl as [Hb Hn]. split; [done|]. split; [done|]. intros c Hbc Hcx Hct.
  assert (c ∈ A) as Hc.
  { clear Hb Hn. induction Hcx as [|d x Hd IH Hxd]; [done|]. apply IH.
    assert (d ∈ l) as Hdl. { apply Hl. split; [by eapply below_trans|by eapply node_of_input]. }
    rewrite forallb_forall in HA. specialize (HA x (proj1 (elem_of_list_In _ _) Hx)). rewrite forallb_forall in HA.
    specialize (HA d (proj1 (elem_of_list_In _ _) Hdl)). apply orb_true_iff in HA as [HA|HA]; [|by apply memb_ok].
    apply negb_true_iff in HA. apply memb_ok in Hxd. congruence. }
  rewrite forallb_forall in H. specialize (H c (proj1 (elem_of_list_In _ _) Hc)). apply orb_true_iff in H as [->%Nat.eqb_eq|H]; [done|]. by apply unpassedb_ok.
Qed.
Lemma start_check h t : match h_ten h !! t with Some r => t_rg r && match t_fn r with Some _ => true | None => false end && (size_prod (shape r) =? 1) | None => false end = true -> may_start h t.
Proof.
  destruct (h_ten h !! t) as [r|] eqn:E; [|done]. rewrite !andb_true_iff. intros [[H1 H2] H3%Z.eqb_eq]. exists r. split; [done|]. split; [done|].
  split; [|done]. unfold is_node, fn_of. rewrite E. destruct (t_fn r); [by eexists|done].
Qed.
End with_fops.

#[local] Existing Instance Ieee.
Lemma ran ops : match (run empty_heap ops).1 with Ok _ => true | _ => false end = true -> exists rs, run empty_heap ops = (Ok rs, after ops).
Proof. unfold after. destruct (run empty_heap ops) as [[rs| | |] h]; intros H; try discriminate. by exists rs. Qed.

(** x = (1,2) (0), y = x*x (1), sum y (2), w = x + x (3), q = y + w (4), sum q (5); then a pass
    from 2, which counts at y *)
Definition walk_ops : list op :=
  [Refute2.vec [1; 2]; ORequires (#0) true; OMul (#0) (#0); OSum (#1); OAdd (#0) (#0); OAdd (#1) (#3); OSum (#4); OBackward (#2)].
Lemma walk_size : Forall size_ok walk_ops.
Proof. repeat constructor; simpl; lia. Qed.
Lemma walk_run : exists rs, run empty_heap walk_ops = (Ok rs, after walk_ops).
Proof. apply ran. vm. Qed.
Lemma walk_start : may_start (after walk_ops) 5.
Proof. apply start_check. vm. Qed.
Lemma walk_settled : settled (after walk_ops) 5.
Proof. apply (settled_check _ _ [5; 4; 3; 1]%nat); vm. Qed.
Lemma walk_open : open (after walk_ops) 5 3.
Proof. apply (open_check _ _ [5; 4; 3; 1]%nat [3; 4; 5]%nat); vm. Qed.
Lemma walk_closed : ~ open (after walk_ops) 5 1.
Proof.
  intros (Hb & _ & Ho). specialize (Ho 1%nat Hb (below_root _ _) ltac:(lia)). apply unpassedb_ok in Ho.
  assert (unpassedb (after walk_ops) 1 = false) as E by vm. congruence.
Qed.

(** x = 3 (0), y = clone x (1), z = clone y (2), w = y * z (3), v = 5 (4), root w + v (5);
    z.requires_grad(false) *)
Definition cut_ops : list op :=
  [Refute2.vec [3]; ORequires (#0) true; OClone (#0); OClone (#1); OMul (#1) (#2); Refute2.vec [5]; ORequires (#4) true; OAdd (#3) (#4); ORequires (#2) false].
Lemma cut_size : Forall size_ok cut_ops.
Proof. repeat constructor; simpl; lia. Qed.
Lemma cut_run : exists rs, run empty_heap cut_ops = (Ok rs, after cut_ops).
Proof. apply ran. vm. Qed.
Lemma cut_free u : OBackward u ∉ cut_ops.
Proof. unfold cut_ops, Refute2.vec. rewrite !elem_of_cons, elem_of_nil. intuition discriminate. Qed.
Lemma cut_unwalked : unwalked (after cut_ops) 5.
Proof. destruct cut_run as [rs E]. exact (nobackward_unwalked _ _ _ 5 cut_free E). Qed.
Lemma below_by {fo : FOps} h t l x : foldr (fun y (k : nat -> bool) z => memb y (inputs h z) && k y) (fun z => (z =? x)%nat) l t = true -> below h t x.
Proof.
  assert (forall l z, below h t z -> foldr (fun y (k : nat -> bool) z => memb y (inputs h z) && k y) (fun z => (z =? x)%nat) l z = true -> below h t x) as K.
  { clear. induction l as [|y l IH]; intros z Hz E; cbn [foldr] in E.
    - apply Nat.eqb_eq in E as <-. done.
    - apply andb_true_iff in E as [E1 E2]. apply memb_ok in E1. eapply IH; [|exact E2]. by eapply below_in. }
  apply K. constructor.
Qed.
Lemma cut_path : cut_above (after cut_ops) 5 1.
Proof.
  exists 2%nat. split; [apply (below_by _ _ [3; 2]%nat); vm|]. split; [apply (below_by _ _ [1]%nat); vm|]. split; [lia|].
  exists (rec_of (after cut_ops) 2). split; vm.
Qed.
Lemma uncut_path : ~ cut_above (after cut_ops) 5 5.
Proof.
  intros (c & H1 & H2 & Hne & _). assert (tinv (after cut_ops)) as Hi. { apply reachable_tinv. destruct cut_run as [rs E]. by exists cut_ops, rs. }
  pose proof (below_le _ _ Hi _ H1). pose proof (below_le _ _ Hi _ H2). lia.
Qed.
(** x / constant *)
Definition const_ops : list op := [Refute2.vec [1; 2]; ORequires (#0) true; Refute2.vec [4; 8]; ODiv (#0) (#1); OSum (#2)].
Lemma const_size : Forall size_ok const_ops.
Proof. repeat constructor; simpl; lia. Qed.
Lemma const_run : exists rs, run empty_heap const_ops = (Ok rs, after const_ops).
Proof. apply ran. vm. Qed.
Lemma const_settled : settled (after const_ops) 3.
Proof. apply (settled_check _ _ [3; 2]%nat); vm. Qed.
Lemma const_open : open (after const_ops) 3 2.
Proof. apply (open_check _ _ [3; 2]%nat [2; 3]%nat); vm. Qed.
(** vector / tracked 0-dimensional tensor *)
Definition rank_ops : list op := [Refute2.vec [1; 2]; ORequires (#0) true; OFullInt [] 4 F64; ORequires (#2) true; ODiv (#0) (#2); OSum (#3)].
Lemma rank_size : Forall size_ok rank_ops.
Proof. repeat constructor; simpl; lia. Qed.
Lemma rank_run : exists rs, run empty_heap rank_ops = (Ok rs, after rank_ops).
Proof. apply ran. vm. Qed.
Lemma rank_settled : settled (after rank_ops) 4.
Proof. apply (settled_check _ _ [4; 3]%nat); vm. Qed.
Lemma rank_open : open (after rank_ops) 4 3.
Proof. apply (open_check _ _ [4; 3]%nat [3; 4]%nat); vm. Qed.
(** {{3, 3}, {3, 3}} / {{4, 4}}, both tracked *)
Definition wide_ops : list op :=
  [OFullInt [2; 2] 3 F64; ORequires (#1) true; OFullInt [1; 2] 4 F64; ORequires (#3) true; ODiv (#1) (#3); OSum (#4)].
Lemma wide_size : Forall size_ok wide_ops.
Proof. repeat constructor; simpl; lia. Qed.
Lemma wide_run : exists rs, run empty_heap wide_ops = (Ok rs, after wide_ops).
Proof. apply ran. vm. Qed.
Lemma wide_settled : settled (after wide_ops) 5.
Proof. apply (settled_check _ _ [5; 4]%nat); vm. Qed.
Lemma wide_open : open (after wide_ops) 5 4.
Proof. apply (open_check _ _ [5; 4]%nat [4; 5]%nat); vm. Qed.
Lemma wide_sole y : open (after wide_ops) 5 y -> 3%nat ∈ inputs (after wide_ops) y -> y = 4%nat.
Proof.
  intros (Hb & Hn & _) Hin. assert (nodes_below (after wide_ops) 5 [5; 4]%nat) as [_ H] by (apply nodesb_ok; vm).
  assert (y ∈ [5; 4]%nat) as Hy by (apply H; split; assumption). apply elem_of_cons in Hy as [->|Hy]; [|by apply elem_of_list_singleton in Hy].
  exfalso. replace (inputs (after wide_ops) 5) with [4]%nat in Hin by vm. by apply elem_of_list_singleton in Hin.
Qed.
