(** Views as gradient leaves, in exact arithmetic. *)
From Verif.Proofs Require Export Leaf Prog10.
From Verif.Spec Require Import Program.
From Verif.Model Require Import Api.
Import Verif.Proofs.Reduce.
#[local] Existing Instance Exact.

Lemma requires_ok h a r : h_ten h !! a = Some r -> floating (t_dt r) = true ->
  exec (ORequires (Some a) true) h = (Ok RUnit, Hp (h_sto h) (<[a := with_rg r true]> (h_ten h)) (h_ver h)).
Proof.
  intros Ha Hf. cbn [exec deref]. rewrite bind_ret. unfold no_result, set_requires_grad. rewrite bind_assoc. erewrite bind_ok by (by apply get_ten_ok).
  rewrite is_float_floating, Hf. done.
Qed.
Lemma below_sum h t a f x : fn_of h t = Some f -> gf_in f = [a] -> fn_of h a = None -> below h t x -> x = t \/ x = a.
Proof.
  intros Ft Fi Fa Hb. assert (inputs h t = [a]) as It by (unfold inputs; by rewrite Ft). assert (inputs h a = []) as Ia by (unfold inputs; by rewrite Fa).
  induction Hb as [|x y Hb IH Hy]; [by left|]. right. destruct IH as [->| ->].
  - rewrite It in Hy. by apply elem_of_list_singleton in Hy.
  - rewrite Ia in Hy. by apply elem_of_nil in Hy.
Qed.
Lemma sum_derivative h t a f i : fn_of h t = Some f -> gf_kind f = SumBack -> gf_in f = [a] -> fn_of h a = None -> tracked h a -> tracked h t ->
  shape_of h t = [] -> Forall (fun n => 0 <= n) (shape_of h a) -> in_range (shape_of h a) i -> derivative h t a i 1%Qc.
Proof.
  intros Ft Fk Fi Fa Ta Tt St Hn Hi. assert (a <> t) as Nat by congruence.
  exists (fun x idx => if decide (x = t) then 1%Qc else if decide (x = a /\ idx = i) then 1%Qc else 0%Qc). split_and!.
  - split.
    + intros x g Hb Hg. destruct (below_sum h t a f x Ft Fi Fa Hb) as [->| ->]; [|congruence].
      assert (g = f) as -> by congruence. rewrite Fk, Fi. cbn [rule]. rewrite decide_True by done. symmetry. unfold sum_over. rewrite (sumq_one _ _ i).
      * rewrite decide_False by done. by rewrite decide_True by done.
      * by apply NoDup_indices.
      * by apply elem_of_indices.
      * intros y _ Hy. rewrite decide_False by done. rewrite decide_False by naive_solver. done.
    + intros x idx Hb Hx. destruct (below_sum h t a f x Ft Fi Fa Hb) as [->| ->]; done.
  - intros x idx Hb Hx _. destruct (below_sum h t a f x Ft Fi Fa Hb) as [->| ->]; [destruct Hx; by exists f|]. by rewrite decide_False by done.
  - by rewrite decide_True by done.
Qed.
Lemma leaf_sum ops H T h a r : program ops H T h -> at_hand h H a r -> t_rg r = false -> floating (t_dt r) = true ->
  exists h1 t h2, exec (ORequires (Some a) true) h = (Ok RUnit, h1) /\ exec (OSum (Some a)) h1 = (Ok (RHandle (Some t)), h2) /\
    ((forall idx, in_range (shape r) idx -> pos (t_lay r) idx < size_prod (shape r)) ->
     program (ops ++ [ORequires (Some a) true]) H T h1 /\
     exists h3, exec (OBackward (Some t)) h2 = (Ok RUnit, h3) /\ forall idx, in_range (shape r) idx -> grad_value h3 a idx = 1%Qc) /\
    ((exists idx, in_range (shape r) idx /\ size_prod (shape r) <= pos (t_lay r) idx) ->
     exists h3, exec (OBackward (Some t)) h2 = (UB OutOfBounds, h3)).
Proof.
  intros Hpg [HaH Ha] Rg Fl. destruct (program_GI _ _ _ _ Hpg) as (D & G & HD). destruct (g_rec _ _ _ G a (HD a HaH)) as (r' & Hr' & Hh & Hf & Hinj).
  assert (r' = r) as -> by congruence. destruct (g_const _ _ _ G a r (HD a HaH) Ha Rg) as [Fn Gr].
  assert (~ is_node h a) as Nn. { intros (f & Hfn). unfold fn_of in Hfn. rewrite Ha in Hfn. congruence. }
  pose proof (requires_ok h a r Ha Fl) as E1. set (h1 := Hp _ _ _) in E1. set (r1 := with_rg r true) in *.
  assert (h_ten h1 !! a = Some r1) as Ha1 by (apply list_lookup_insert; by eapply lookup_lt_Some).
  assert (holds h1 r1 (contents h r)) as Hh1 by (apply (holds_same h1 r); [done|]; by apply (holds_sto h)).
  pose proof (holds_allocable _ _ _ _ Hh Hf) as Hal. pose proof (allocable_prod _ _ Hal) as Hn. pose proof alloc_max_lt.
  pose proof (sum_ok h1 a r1 (contents h r) Ha1 Hh1 ltac:(cbn; unfold shape in *; lia)) as Hs. unfold array_sum in Hs. cbn [t_dt r1 with_rg] in Hs. rewrite Fl in Hs. destruct Hs as [Es Ty].
  cbn [t_rg r1 with_rg] in Es. fold r1 in Es. set (b := VF _) in *. set (t := length (h_ten h1)) in *.
  set (h2 := scal _ _ _ _ _) in Es.
  assert (exec (OSum (Some a)) h1 = (Ok (RHandle (Some t)), h2)) as E2. { cbn [exec]. by rewrite un_some, new_handle_eq, Es. }
  exists h1, t, h2. split; [done|]. split; [done|]. split.
  - intros Hd. assert (dense (t_lay r)) as Hdn.
    { split; [|done]. intros idx Hi. split; [|by apply Hd]. destruct Hh as [(cs & Hb) _]. destruct (backed_idx _ _ _ idx Hb Hi). lia. }
    assert (program (ops ++ [ORequires (Some a) true]) H T h1) as Hp1 by (by eapply PRequires).
    split; [done|].
    assert (program ((ops ++ [ORequires (Some a) true]) ++ [OSum (Some a)]) (t :: H) T h2) as Hp2 by (eapply PCall; [done|by eapply (CSum _ _ _ r1)|done]).
    assert (h_ten h2 !! t = Some (scal_rec h1 (sum_type (t_dt r)) true (red_fn SumBack true a))) as Ht2 by apply alloc_ten.
    assert (h_ten h2 !! a = Some r1) as Ha2 by (by apply alloc_ten_old).
    assert (fn_of h2 t = Some (Gfn SumBack [a] 0 0 0)) as Ft by (unfold fn_of; by rewrite Ht2).
    assert (fn_of h2 a = None) as Fa by (unfold fn_of; by rewrite Ha2).
    assert (shape_of h2 t = []) as St by (unfold shape_of, lay_of; by rewrite Ht2).
    assert (shape_of h2 a = shape r) as Sa by (unfold shape_of, lay_of; by rewrite Ha2).
    clearbody h2.
    assert (may_backward h2 (t :: H) T t) as Hmb.
    { split; [split|].
      - left.
      - by eexists.
      - intros (f & Hf' & Hk). rewrite Ft in Hf'. by injection Hf' as <-.
      - by rewrite St.
      - unfold shape_of. unfold lay_of. by rewrite Ht2.
      - intros x Hb Hx HT. destruct (below_sum _ _ _ _ _ Ft eq_refl Fa Hb) as [->| ->]; [done|]. by apply (g_sub _ _ _ G) in HT as [_ ?].
      - intros x f Hb Hfx Hk. destruct (below_sum _ _ _ _ _ Ft eq_refl Fa Hb) as [->| ->]; [done|congruence]. }
    destruct (program_backward _ _ _ _ _ Hp2 Hmb) as (h3 & E3 & _ & Hg). exists h3. split; [done|]. intros idx Hi.
    destruct (Hg a idx) as (q & _ & Hu & ->).
    + eapply below_in; [constructor|]. unfold inputs. rewrite Ft. left.
    + intros (f & Hfx). congruence.
    + by exists r1.
    + by rewrite Sa.
    + rewrite <- (Hu 1%Qc).
      * unfold grad_value. rewrite Ha2. cbn [t_grad r1 with_rg]. rewrite Gr. ring.
      * eapply sum_derivative; try done; [by exists r1|by eexists|..]; rewrite Sa; [exact (holds_nonneg _ _ _ Hh)|done].
  - intros Hex. destruct (leaf_outside h1 a r1 (contents h r)) as (t' & h1' & h3 & E & E'); try done.
    rewrite E2 in E. injection E as <- <-. eauto.
Qed.
