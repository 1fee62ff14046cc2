(** Examples for the agreement of IEEE and exact arithmetic. *)
From Coq Require Import QArith Qcanon Floats.SpecFloat.
From Verif.Proofs Require Export Watch2 ProgEx.
From Verif.Spec Require Import Watch.
From Verif.Model Require Import Ieee Exact Api.

(** ** checking the hypotheses *)
Definition proper_check (o : @op Ieee) : bool :=
  forallb (fun p : dtype * @val Ieee => match p.2 with VI _ => is_int p.1 | VF x => negb (is_int p.1) && valid_binary (precision (fty_of p.1)) (exp_limit (fty_of p.1)) x end) (lits o).
Lemma proper_ok ops : forallb proper_check ops = true -> forall o, o ∈ ops -> proper o.
Proof.
  intros H o Ho t v Hv. rewrite forallb_forall in H. specialize (H o). rewrite <- elem_of_list_In in H. specialize (H Ho).
  unfold proper_check in H. rewrite forallb_forall in H. specialize (H (t, v)). rewrite <- elem_of_list_In in H. specialize (H Hv). cbn in H.
  destruct v; [done|]. apply andb_true_iff in H as [H1 H2]. by apply negb_true_iff in H1.
Qed.
Definition exact_check (h : @heap Watch) (a : handle) : bool :=
  match a with
  | Some x => match h_ten h !! x with
              | Some r => match h_sto h !! t_sto r with
                          | Some s => match sto_blob s with
                                      | Some cs => forallb (fun c : option (@val Watch) => match c with Some (VF (_, None)) => false | _ => true end) cs
                                      | None => true end
                          | None => true end
              | None => true end
  | None => true
  end.
Lemma exact_ok h a : exact_check h a = true -> all_exact h a.
Proof.
  intros H x r s cs v -> Hr Hs Hc Hv. cbn in H. rewrite Hr, Hs, Hc in H. rewrite forallb_forall in H. specialize (H (Some (VF v))). rewrite <- elem_of_list_In in H. specialize (H Hv).
  destruct v as [x' [q|]]; done.
Qed.
Definition types_check (h : @heap Watch) (a b : handle) : bool :=
  match a, b with
  | Some x, Some y => match h_ten h !! x, h_ten h !! y with Some r, Some s => bool_decide (t_dt r = t_dt s) | _, _ => true end
  | _, _ => true
  end.
Lemma types_ok h a b : types_check h a b = true -> same_type h a b.
Proof. intros H x r y s -> Hr -> Hs. cbn in H. rewrite Hr, Hs in H. by apply bool_decide_eq_true in H. Qed.
Definition compares_check (h : @heap Watch) (o : @op Ieee) : bool :=
  match o with
  | OAbs a | OMax a | OMin a => exact_check h a
  | OCmp _ a b => types_check h a b && exact_check h a && exact_check h b
  | QAll _ => false
  | _ => true
  end.
Fixpoint compares_checks (h : @heap Watch) (ops : list (@op Ieee)) : bool :=
  match ops with [] => true | o :: rest => compares_check h o && compares_checks (exec (watched o) h).2 rest end.
Lemma compares_ok ops h : compares_checks h ops = true -> compares_all h ops.
Proof.
  revert h. induction ops as [|o ops IH]; intros h; [done|]. cbn [compares_checks compares_all]. intros [H1 H2]%andb_true_iff. split; [|by apply IH]. clear H2 IH.
  destruct o; cbn in H1 |- *; try done; try (by apply exact_ok). right. apply andb_true_iff in H1 as [[H1 H2]%andb_true_iff H3].
  split; [by apply types_ok|]. split; by apply exact_ok.
Qed.
Definition succeeds {A} (o : outcome A) : bool := match o with Ok _ => true | _ => false end.
Lemma succeeds_run {fo : FOps} ops : succeeds (run empty_heap ops).1 = true -> exists rs, run empty_heap ops = (Ok rs, (run empty_heap ops).2).
Proof. destruct (run empty_heap ops) as [[rs|?|?|] h]; cbn; intros E; try discriminate E. by exists rs. Qed.

(** ** the program of C45's example with doubles: x = (1, 2, -3), y = x * x, v = x reversed, c = abs(x),
    w = v / c, sum(y * w + y). The quotient 1 / 3 is rounded. *)
Definition dbl (n : Z) : @val Ieee := @VF Ieee (ieee_of_Z FT64 n).
Definition w_leaf : list (@op Ieee) := [OFromBlob [dbl 1; dbl 2; dbl (-3)] [3] F64; ORequires (Some 0%nat) true].
Definition w_10 : list (@op Ieee) := w_leaf ++
  [OMul (Some 0%nat) (Some 0%nat); OSlice (Some 0%nat) (chars "::-1"); OAbs (Some 0%nat); ODiv (Some 2%nat) (Some 5%nat);
   OMul (Some 1%nat) (Some 7%nat); OAdd (Some 8%nat) (Some 1%nat); OSum (Some 9%nat)].
Definition w_back := w_10 ++ [OBackward (Some 10%nat)].
Definition w_heap : @heap Watch := (@run Watch empty_heap (map watched w_back)).2.
Lemma w_exactly : map exactly w_10 = ex_10.
Proof.
  unfold w_10, ex_10, ex_9, ex_8, ex_7, ex_5, ex_2, ex_1, ex_leaf, ex_make, w_leaf. cbn [map app exactly map_op map_val dbl]. do 2 f_equal. unfold row, q. cbn [map].
  do 2 (f_equal; [do 1 f_equal; apply Qc_is_canon; vm_compute; reflexivity|]). f_equal. f_equal. apply Qc_is_canon. vm_compute. reflexivity.
Qed.
(** the exact values that were kept of the elements of a gradient *)
Definition kept_of (v : option (@val Watch)) : option (Z * positive) :=
  match v with Some (VF (_, Some q)) => Some (Qnum q, Qden q) | _ => None end.
Definition dbits (v : option (@val Ieee)) : option Z := match v with Some (VF x) => Some (ieee_bits FT64 x) | _ => None end.
