(** Corollaries used by the property files: result shapes, comparison laws, negation. *)
From Verif.Proofs Require Export Api2.

Section with_fops.
Context {fo : FOps}.

(** C05 *)
Lemma arith_shape o h a b ra rb va vb t h' :
  f_commutative fo ->
  tensor_at h a ra va -> tensor_at h b rb vb ->
  compatible (shape ra) (shape rb) -> no_zero_one (shape ra) (shape rb) ->
  fits (dt_join (t_dt ra) (t_dt rb)) (bshape (shape ra) (shape rb)) ->
  exec (exec_arith o (Some a) (Some b)) h = (Ok (RHandle (Some t)), h') ->
  exists r, h_ten h' !! t = Some r /\ shape r = bshape (shape ra) (shape rb) /\
    shape r = bshape (shape rb) (shape ra) /\ t_dt r = dt_join (t_dt ra) (t_dt rb).
Proof.
  intros Hcm Ha Hb Hc Hz Hf He.
  destruct (arith_new o h a b (fun _ => Hcm) ra rb va vb Ha Hb Hc Hz Hf) as [HOk HUb].
  destruct (all_defined_or (fun idx => cpp_arith o (t_dt ra) (t_dt rb) (dt_join (t_dt ra) (t_dt rb))
    (va (bidx (shape ra) idx)) (vb (bidx (shape rb) idx))) (bshape (shape ra) (shape rb)))
    as [[w Hw]|Hn].
  - destruct (HOk w Hw) as (t' & h1 & E & _ & _ & r & Hr & _ & Hd & Hs & _).
    rewrite He in E. simplify_eq. exists r. rewrite <- (bshape_comm (shape ra)) by done. done.
  - destruct (HUb Hn) as (u & h1 & E & _). rewrite He in E. done.
Qed.
Lemma cmp_shape c h a b ra rb va vb t h' :
  tensor_at h a ra va -> tensor_at h b rb vb ->
  compatible (shape ra) (shape rb) -> no_zero_one (shape ra) (shape rb) ->
  fits I8 (bshape (shape ra) (shape rb)) ->
  exec (OCmp c (Some a) (Some b)) h = (Ok (RHandle (Some t)), h') ->
  exists r, h_ten h' !! t = Some r /\ shape r = bshape (shape ra) (shape rb) /\
    shape r = bshape (shape rb) (shape ra) /\ t_dt r = I8.
Proof.
  intros Ha Hb Hc Hz Hf He.
  destruct (cmp_new c h a b ra rb va vb Ha Hb Hc Hz Hf) as (t' & h1 & E & _ & _ & r & Hr & _ & Hd & Hs & _).
  rewrite He in E. simplify_eq. exists r. rewrite <- (bshape_comm (shape ra)) by done. done.
Qed.

(** C12 *)
Lemma dt_join_lattice a b c :
  dt_join a b = dt_join b a /\ dt_join a (dt_join b c) = dt_join (dt_join a b) c /\
  dt_join a a = a /\ floating (dt_join a b) = floating a || floating b /\
  rank a <= rank (dt_join a b) /\ rank b <= rank (dt_join a b).
Proof. destruct a, b, c; vm_compute; repeat split; congruence. Qed.

Lemma arith_no_bad_type o h a b ra rb va vb :
  f_commutative fo ->
  tensor_at h a ra va -> tensor_at h b rb vb ->
  compatible (shape ra) (shape rb) -> no_zero_one (shape ra) (shape rb) ->
  fits (dt_join (t_dt ra) (t_dt rb)) (bshape (shape ra) (shape rb)) ->
  match exec (exec_arith o (Some a) (Some b)) h with
  | (Ok (RHandle (Some t)), h') =>
      exists r b cs, h_ten h' !! t = Some r /\ t_dt r = dt_join (t_dt ra) (t_dt rb) /\
        h_sto h' !! t_sto r = Some (Sto (dt_join (t_dt ra) (t_dt rb)) b (Some cs)) /\
        forall c, c ∈ cs -> exists v, c = Some v /\ has_ty (dt_join (t_dt ra) (t_dt rb)) v
  | (UB u, _) => arith_ub u
  | _ => False
  end.
Proof.
  intros Hcm Ha Hb Hc Hz Hf. set (D := dt_join _ _) in *. set (ss := bshape _ _) in *.
  destruct (op_arith_spec o h a b ra rb va vb (proj1 Ha) (proj1 Hb) (proj2 Ha) (proj2 Hb) Hc Hz Hf (fun _ => Hcm)) as [HOk HUb].
  rewrite exec_arith_eq, new_handle_eq.
  destruct (all_defined_or (fun idx => arith_elem o D ra rb va vb idx) ss) as [[w Hw]|Hn].
  - rewrite (HOk w Hw). eexists _, _, _. split; [apply alloc_ten|]. split; [done|].
    split; [apply alloc_sto|]. intros c Hin. unfold rm_cells in Hin.
    apply elem_of_list_fmap in Hin as (idx & -> & Hi). apply elem_of_indices in Hi.
    exists (w idx). split; [done|].
    pose proof (binop_cpp o (t_dt ra) (t_dt rb) D (va (bidx (shape ra) idx)) (vb (bidx (shape rb) idx))) as Hx.
    specialize (Hw idx Hi). unfold arith_elem in Hw. unfold shape in Hx. rewrite Hw in Hx. apply Hx.
    + eapply holds_ty; [apply Ha|]. by eapply bidx_in_l.
    + eapply holds_ty; [apply Hb|]. by eapply bidx_in_r.
    + apply dt_join_floating.
  - destruct (HUb Hn) as (u & cs & -> & Hu). done.
Qed.

(** C13 *)
Definition neg_elem (T : dtype) (v : val) : option val :=
  match v with
  | VI x => if in_width (width (dt_join I32 T)) (- x) then Some (VI (- x)) else None
  | VF x => let p := fmt T in Some (VF (f_sub p (f_of_Z p 0) x))
  end.
Lemma neg_elem_cpp T v :
  has_ty T v -> cpp_arith ASub I32 T (dt_join I32 T) (VI 0) v = neg_elem T v.
Proof.
  intros Hv. unfold cpp_arith, neg_elem. cbn [floating orb]. destruct v as [x|x].
  - apply has_ty_int in Hv as [Hf Hx]. rewrite Hf. cbn [zop]. replace (0 - x) with (- x) by lia.
    assert (common_width I32 T = width (dt_join I32 T)) as -> by (by destruct T).
    destruct (in_width (width _) (- x)) eqn:E; [|done]. rewrite reduce_id; [done|apply width_pos|exact E].
  - apply has_ty_float in Hv. rewrite Hv. by destruct T.
Qed.
Lemma neg_new' h a ra va :
  tensor_at h a ra va -> fits (dt_join I32 (t_dt ra)) (shape ra) ->
  (forall w, (forall idx, in_range (shape ra) idx -> neg_elem (t_dt ra) (va idx) = Some (w idx)) ->
     exists t h', exec (ONeg (Some a)) h = (Ok (RHandle (Some t)), h') /\
       new_tensor h h' t (dt_join I32 (t_dt ra)) (shape ra) (t_rg ra) w) /\
  ((exists idx, in_range (shape ra) idx /\ neg_elem (t_dt ra) (va idx) = None) ->
     exists u h', exec (ONeg (Some a)) h = (UB u, h') /\ arith_ub u).
Proof.
  intros Ha Hf. destruct (neg_new h a ra va Ha Hf) as [HOk HUb].
  assert (forall idx, in_range (shape ra) idx ->
    cpp_arith ASub I32 (t_dt ra) (dt_join I32 (t_dt ra)) (VI 0) (va idx) = neg_elem (t_dt ra) (va idx)) as Hn.
  { intros idx Hi. apply neg_elem_cpp. by apply Ha. }
  split.
  - intros w Hw. apply HOk. intros idx Hi. rewrite Hn by done. by apply Hw.
  - intros (idx & Hi & He). apply HUb. exists idx. split; [done|]. by rewrite Hn.
Qed.

(** C14 *)
Lemma cpp_cmp_ne L R x y :
  has_ty L x -> has_ty R y -> cpp_cmp CNe L R x y = negb (cpp_cmp CEq L R x y).
Proof.
  intros Hx Hy. unfold cpp_cmp. destruct (floating L || floating R) eqn:Hf; [done|].
  apply orb_false_elim in Hf as [H1 H2].
  destruct x; [|apply has_ty_float in Hx; congruence].
  destruct y; [done|apply has_ty_float in Hy; congruence].
Qed.
Lemma cpp_cmp_swap L R x y :
  cpp_cmp CGt L R x y = cpp_cmp CLt R L y x /\ cpp_cmp CGe L R x y = cpp_cmp CLe R L y x.
Proof.
  unfold cpp_cmp. rewrite (orb_comm (floating R)).
  assert (common_float R L = common_float L R) as -> by (by destruct L, R).
  destruct (floating L || floating R); [done|]. by destruct x, y.
Qed.
Lemma cpp_cmp_ge_int L R x y :
  floating L = false -> floating R = false -> has_ty L x -> has_ty R y ->
  cpp_cmp CGe L R x y = negb (cpp_cmp CLt L R x y) /\
  cpp_cmp CLe L R x y = negb (cpp_cmp CGt L R x y).
Proof.
  intros H1 H2 Hx Hy. unfold cpp_cmp. rewrite H1, H2. simpl.
  destruct x; [|apply has_ty_float in Hx; congruence].
  destruct y; [|apply has_ty_float in Hy; congruence]. cbn [zcmp].
  rewrite (Z.leb_antisym z0 z), (Z.leb_antisym z z0). done.
Qed.

Lemma cmp_laws h a b ra rb va vb :
  tensor_at h a ra va -> tensor_at h b rb vb ->
  compatible (shape ra) (shape rb) -> no_zero_one (shape ra) (shape rb) ->
  fits I8 (bshape (shape ra) (shape rb)) ->
  exists lt gt le ge eq ne,
    let result c x y w := exists t h', exec (OCmp c (Some x) (Some y)) h = (Ok (RHandle (Some t)), h') /\
      new_tensor h h' t I8 (bshape (shape ra) (shape rb)) false
        (fun idx => VI (if w idx : bool then 1 else 0)) in
    result CLt a b lt /\ result CGt a b gt /\ result CLe a b le /\ result CGe a b ge /\
    result CEq a b eq /\ result CNe a b ne /\ result CGt b a lt /\ result CGe b a le /\
    forall idx, in_range (bshape (shape ra) (shape rb)) idx ->
      ne idx = negb (eq idx) /\
      (floating (t_dt ra) = false -> floating (t_dt rb) = false ->
       ge idx = negb (lt idx) /\ le idx = negb (gt idx)).
Proof.
  intros Ha Hb Hc Hz Hf.
  set (w c idx := cpp_cmp c (t_dt ra) (t_dt rb) (va (bidx (shape ra) idx)) (vb (bidx (shape rb) idx))).
  exists (w CLt), (w CGt), (w CLe), (w CGe), (w CEq), (w CNe). intros result.
  assert (forall c, result c a b (w c)) as H1 by (intros c; by apply cmp_new).
  assert (forall c c', (forall L R x y, cpp_cmp c R L y x = cpp_cmp c' L R x y) -> result c b a (w c')) as H2.
  { intros c c' Hsw. destruct (cmp_new c h b a rb ra vb va Hb Ha) as (t & h' & E & N).
    { by apply compatible_sym. } { by apply no_zero_one_sym. } { by rewrite <- bshape_comm. }
    exists t, h'. split; [done|]. rewrite <- (bshape_comm (shape ra)) in N by done.
    eapply new_tensor_ext; [|exact N]. intros idx _. cbv beta. unfold w. by rewrite Hsw. }
  do 6 (split; [apply H1|]).
  split; [apply H2; intros; apply cpp_cmp_swap|].
  split; [apply H2; intros; apply cpp_cmp_swap|].
  intros idx Hi. pose proof (bidx_in_l _ _ _ Hi) as Hl. pose proof (bidx_in_r _ _ _ Hc Hi) as Hr.
  assert (has_ty (t_dt ra) (va (bidx (shape ra) idx))) by (by eapply holds_ty; [apply Ha|]).
  assert (has_ty (t_dt rb) (vb (bidx (shape rb) idx))) by (by eapply holds_ty; [apply Hb|]).
  split; [by apply cpp_cmp_ne|]. intros. by apply cpp_cmp_ge_int.
Qed.

(** C15 *)
Lemma eq_all h a b ra rb va vb :
  tensor_at h a ra va -> tensor_at h b rb vb ->
  compatible (shape ra) (shape rb) -> no_zero_one (shape ra) (shape rb) ->
  fits I8 (bshape (shape ra) (shape rb)) ->
  exists t h' r, exec (OCmp CEq (Some a) (Some b)) h = (Ok (RHandle (Some t)), h') /\
    exec (QAll (Some t)) h' = (Ok (RBool r), h') /\
    (r = true <-> forall idx, in_range (bshape (shape ra) (shape rb)) idx ->
       cpp_cmp CEq (t_dt ra) (t_dt rb) (va (bidx (shape ra) idx)) (vb (bidx (shape rb) idx)) = true).
Proof.
  intros Ha Hb Hc Hz Hf.
  destruct (cmp_new CEq h a b ra rb va vb Ha Hb Hc Hz Hf)
    as (t & h' & E & _ & _ & r & Hr & _ & Hd & Hs & _ & _ & _ & Hh).
  destruct (all_i8 h' t r _ (conj Hr Hh) Hd) as (x & Ex & Hx).
  { intros idx Hi. cbv beta. match goal with |- context [if ?b then _ else _] => destruct b end; auto. }
  exists t, h', x. split; [done|]. split; [done|]. rewrite Hx. unfold shape at 1. rewrite Hs.
  split; intros H idx Hi; specialize (H idx Hi).
  - destruct (cpp_cmp _ _ _ _ _); [done|]. discriminate.
  - by rewrite H.
Qed.
End with_fops.

Lemma arith_reject' {fo : FOps} o h a b ra rb va vb :
  tensor_at h a ra va -> tensor_at h b rb vb ->
  Forall (fun n => 0 < n) (shape ra) -> Forall (fun n => 0 < n) (shape rb) ->
  ~ compatible (shape ra) (shape rb) ->
  fits (dt_join (t_dt ra) (t_dt rb)) (max_shape (shape ra) (shape rb)) ->
  exists x h', exec (exec_arith o (Some a) (Some b)) h = (x, h') /\ extends h h' /\
    (x = Throw RuntimeError \/
     floating (t_dt ra) = false /\ floating (t_dt rb) = false /\ exists u, x = UB u /\ arith_ub u).
Proof. intros Ha Hb Pa Pb Hc Hf. rewrite max_shape_bmax in Hf by done. eapply arith_reject; [done..| |done]. by apply incompatible_index. Qed.
Lemma cmp_reject' {fo : FOps} c h a b ra rb va vb :
  tensor_at h a ra va -> tensor_at h b rb vb ->
  Forall (fun n => 0 < n) (shape ra) -> Forall (fun n => 0 < n) (shape rb) ->
  ~ compatible (shape ra) (shape rb) ->
  fits I8 (max_shape (shape ra) (shape rb)) ->
  exists h', exec (OCmp c (Some a) (Some b)) h = (Throw RuntimeError, h') /\ extends h h'.
Proof. intros Ha Hb Pa Pb Hc Hf. rewrite max_shape_bmax in Hf by done. eapply cmp_reject; [done..| |done]. by apply incompatible_index. Qed.
