(** Formulas over tensors. *)
From Verif.Spec Require Export Formula.
From Verif.Proofs Require Export Prog9 Step Calculus Bsteps.
From Verif.Model Require Export Exact Api.
#[local] Existing Instance Exact.

(** ** what a written formula leaves behind *)
Fixpoint made (h0 h : heap) (e : formula) (x : nat) : Prop :=
  (exists r, h_ten h !! x = Some r /\ holds h r (contents h r) /\ shape r = form h0 e /\ floating (t_dt r) = true /\ (t_rg r = true <-> moving h0 e)) /\
  match e with
  | Var a => x = a /\ fn_of h x = None
  | Bin o p q => exists y z, made h0 h p y /\ made h0 h q z /\ h_ten h0 !! x = None /\
      (forall i, in_range (form h0 e) i -> value h x i = calc o (value h y (bidx (form h0 p) i)) (value h z (bidx (form h0 q) i))) /\
      (tracked h x -> exists f, fn_of h x = Some f /\ gf_kind f = back_of o /\ gf_in f = [y; z]) /\ (~ tracked h x -> fn_of h x = None)
  end.
Lemma made_here h0 h e x : made h0 h e x ->
  exists r, h_ten h !! x = Some r /\ holds h r (contents h r) /\ shape r = form h0 e /\ floating (t_dt r) = true /\ (t_rg r = true <-> moving h0 e).
Proof. destruct e; intros [H _]; exact H. Qed.
Lemma made_shape h0 h e x : made h0 h e x -> shape_of h x = form h0 e.
Proof. intros (r & Hr & _ & <- & _)%made_here. by apply shape_rec. Qed.
Lemma made_tracked h0 h e x : made h0 h e x -> tracked h x <-> moving h0 e.
Proof. intros (r & Hr & _ & _ & _ & <-)%made_here. split; [intros (r' & ? & ?); congruence|intros ?; by exists r]. Qed.
Lemma made_kept h0 h h' e x : extends h h' -> made h0 h e x -> Prog.kept h h' x.
Proof. intros Hext (r & Hr & Hh & _)%made_here. by eapply kept_ext. Qed.
Lemma made_extends h0 h h' e : extends h h' -> forall x, made h0 h e x -> made h0 h' e x.
Proof.
  intros Hext. induction e as [a|o p IHp q IHq]; intros x Hx; pose proof (made_kept _ _ _ _ _ Hext Hx) as Kx; pose proof (made_here _ _ _ _ Hx) as (r & Hr & Hh & H1 & H2 & H3);
    pose proof (proj2 Hext x r Hr) as Hr'; destruct Hx as [_ Hx].
  - split.
    + exists r. split; [done|]. split; [|done]. eapply holds_extends in Hh; [|done]. destruct Hh as [Hb Hh]. split; [done|]. intros idx Hi. destruct (Hh idx Hi) as [E1 E2].
      split; [unfold contents; by rewrite E1|]. unfold contents at 1. by rewrite E1.
    + destruct Hx as [-> Hx]. split; [done|]. unfold fn_of in *. by rewrite Hr' , Hr in *.
  - destruct Hx as (y & z & My & Mz & N & V & F1 & F2). split.
    + exists r. split; [done|]. split; [|done]. eapply holds_extends in Hh; [|done]. destruct Hh as [Hb Hh]. split; [done|]. intros idx Hi. destruct (Hh idx Hi) as [E1 E2].
      split; [unfold contents; by rewrite E1|]. unfold contents at 1. by rewrite E1.
    + exists y, z. split; [by apply IHp|]. split; [by apply IHq|]. split; [done|]. split; [|split].
      * intros i Hi. rewrite (kept_value h h' x _ Kx), (kept_value h h' y _ (made_kept _ _ _ _ _ Hext My)), (kept_value h h' z _ (made_kept _ _ _ _ _ Hext Mz)). by apply V.
      * intros (r' & Hr'' & Et). destruct F1 as (f & Hf & ?); [exists r; split; [done|congruence]|]. exists f. split; [|done]. unfold fn_of in *. by rewrite Hr', Hr in *.
      * intros Hn. unfold fn_of in *. rewrite Hr'. rewrite Hr in F2. apply F2. intros (r' & Hr'' & Et). apply Hn. exists r. split; [done|congruence].
Qed.
Lemma join_size a b : floating a = true -> floating b = true -> 0 < size_of (dt_join a b) <= size_of F64.
Proof. by destruct a, b. Qed.
Lemma tracked_em h x : tracked h x \/ ~ tracked h x.
Proof.
  unfold tracked. destruct (h_ten h !! x) as [r|]; [|right; by intros (? & ? & _)]. destruct (t_rg r) eqn:E; [left; by exists r|right; intros (? & ? & ?); congruence].
Qed.
Lemma write_ok h0 H0 e : may_write h0 H0 e -> forall ops H T h, program ops H T h -> extends h0 h -> (forall a, a ∈ H0 -> a ∈ H) ->
  exists l x h' H', written h e l x h' /\ program (ops ++ l) H' T h' /\ (forall a, a ∈ H -> a ∈ H') /\ x ∈ H' /\ extends h h' /\ made h0 h' e x.
Proof.
  induction e as [a|o p IHp q IHq]; intros Hm ops H T h Hp Hext HH.
  - destruct Hm as (r & [Ha Hr] & Hn & Hf). exists [], a, h, H. split; [constructor|]. rewrite app_nil_r. split; [done|]. split; [done|]. split; [by apply HH|]. split; [apply extends_refl|].
    destruct (program_GI _ _ _ _ Hp) as (D & G & HD). pose proof (proj2 Hext _ _ Hr) as Hr'. destruct (hand_at D T h H G HD a r) as (_ & [_ Hh] & _); [split; [by apply HH|done]|].
    split; [exists r|].
    + split; [done|]. split; [done|]. cbn [form]. rewrite (shape_rec h0 a r Hr). split; [done|]. split; [done|]. split.
      * intros Et. exists a. split; [done|by exists r].
      * intros (b & -> & r' & ? & ?). congruence.
    + split; [done|]. unfold fn_of. rewrite Hr'. destruct (t_fn r) as [f|] eqn:Ef; [|done]. destruct Hn. exists f. unfold fn_of. by rewrite Hr.
  - destruct Hm as (M1 & M2 & Hc & Hz & Hfit & Hdiv).
    destruct (IHp M1 ops H T h Hp Hext HH) as (l1 & y & h1 & H1 & W1 & P1 & S1 & Y1 & E1 & K1).
    destruct (IHq M2 _ H1 T h1 P1) as (l2 & z & h2 & H2 & W2 & P2 & S2 & Z2 & E2 & K2); [by eapply extends_trans|auto|].
    apply (made_extends h0 h1 h2 p E2) in K1. pose proof (made_here _ _ _ _ K1) as (ry & Ry & Vy & Sy & Fy & Ty). pose proof (made_here _ _ _ _ K2) as (rz & Rz & Vz & Sz & Fz & Tz).
    set (dt := dt_join (t_dt ry) (t_dt rz)). pose proof (join_size _ _ Fy Fz) as Hsz. fold dt in Hsz.
    assert (Forall (fun n => 0 <= n) (bshape (shape ry) (shape rz))) as Hnn. { apply bshape_Forall; by eapply holds_nonneg. }
    assert (fits dt (bshape (shape ry) (shape rz))) as Hfit'.
    { unfold fits in *. rewrite <- Sy, <- Sz in Hfit. pose proof (size_prod_nonneg _ Hnn). nia. }
    destruct (op_arith_spec o h2 y z ry rz _ _ Ry Rz Vy Vz) as [Hok _]; [by rewrite <- Sy, <- Sz in Hc|by rewrite <- Sy, <- Sz in Hz|done|intros; apply qc_comm|].
    fold (shape ry) (shape rz) dt in Hok.
    destruct (all_defined_or (arith_elem o dt ry rz (contents h2 ry) (contents h2 rz)) (bshape (shape ry) (shape rz))) as [[w Hw]|(idx & _ & Hn)].
    2:{ exfalso. unfold arith_elem, cpp_arith in Hn. by rewrite Fy in Hn. }
    specialize (Hok w Hw). set (h3 := alloc_heap _ _ _ _ _ _) in Hok. set (x := length (h_ten h2)) in *.
    assert (exec (exec_arith o (Some y) (Some z)) h2 = (Ok (RHandle (Some x)), h3)) as Ex by (by rewrite exec_arith_eq, new_handle_eq, Hok).
    exists (l1 ++ l2 ++ [exec_arith o (Some y) (Some z)]), x, h3, (x :: H2).
    split; [by eapply WBin|]. split.
    { rewrite !app_assoc. eapply PCall; [rewrite app_assoc in P2 || idtac; exact P2| |exact Ex]. eapply (CArith _ _ _ _ _ ry rz); [split; auto|split; auto|by rewrite Sy, Sz|by rewrite Sy, Sz|done|].
      intros Ho Et. rewrite Sy, Sz. rewrite Ty, Tz. apply Hdiv; [done|]. rewrite <- Ty, <- Tz. by apply orb_true_iff in Et. }
    assert (extends h2 h3) as E3 by apply alloc_extends.
    split; [intros a Ha; apply elem_of_cons; right; auto|]. split; [apply elem_of_list_here|]. split; [eapply extends_trans; [exact E1|]; by eapply extends_trans|].
    assert (h_ten h3 !! x = Some (fresh_rec h2 dt (contig (bshape (shape ry) (shape rz))) (t_rg ry || t_rg rz) (if t_rg ry || t_rg rz then Some (Gfn (back_of o) [y; z] 0 0 0) else None))) as Rx by apply alloc_ten.
    assert (allocable dt (bshape (shape ry) (shape rz))) as Hal. { split; [|done]. apply bshape_Forall; by eapply holds_shape. }
    destruct (program_GI _ _ _ _ P2) as (D & G & HD).
    assert (forall idx, in_range (bshape (shape ry) (shape rz)) idx -> has_ty dt (w idx)) as Hty.
    { intros idx Hi. specialize (Hw idx Hi). unfold arith_elem in Hw.
      pose proof (binop_cpp o (t_dt ry) (t_dt rz) dt (contents h2 ry (bidx (shape ry) idx)) (contents h2 rz (bidx (shape rz) idx))) as Hx.
      unfold shape in Hx. rewrite Hw in Hx. apply Hx.
      - eapply holds_ty; [done|]. by eapply bidx_in_l.
      - eapply holds_ty; [done|]. eapply bidx_in_r; [|done]. by rewrite <- Sy, <- Sz in Hc.
      - apply dt_join_floating. }
    assert (tracked h3 x <-> t_rg ry || t_rg rz = true) as Tx. { split; [intros (r' & Hr' & Ht')|intros ?; by eexists]. rewrite Rx in Hr'. apply (inj Some) in Hr' as <-. exact Ht'. }
    split.
    + eexists. split; [exact Rx|]. split; [eapply holds_contents; by apply alloc_holds|]. split; [cbn [form]; by rewrite <- Sy, <- Sz|]. split; [cbn [fresh_rec t_dt]; unfold dt; by rewrite dt_join_floating, Fy|].
      cbn [fresh_rec t_rg]. rewrite orb_true_iff, Ty, Tz. clear. unfold moving. cbn [mentions]. split; [intros [(a & ? & ?)|(a & ? & ?)]; exists a; auto|intros (a & [?|?] & ?); [left|right]; by exists a].
    + exists y, z. split; [by apply (made_extends h0 h2 h3)|]. split; [by apply (made_extends h0 h2 h3)|]. split.
      { destruct (h_ten h0 !! x) as [r0|] eqn:E0; [|done]. assert (h_ten h2 !! x = Some r0) as E' by (apply E2, E1, Hext; done). apply lookup_lt_Some in E'. unfold x in E'. lia. }
      split.
      { cbn [form]. rewrite <- Sy, <- Sz. intros i Hi. unfold x, h3. rewrite alloc_value by done. fold h3. rewrite (kept_value h2 h3 y _ (kept_ext _ _ _ _ _ E3 Ry Vy)), (kept_value h2 h3 z _ (kept_ext _ _ _ _ _ E3 Rz Vz)).
        rewrite (value_rec h2 y ry _ Ry), (value_rec h2 z rz _ Rz). specialize (Hw i Hi). apply arith_num in Hw; [|by rewrite Fy]. rewrite Hw. by destruct o. }
      split; intros Tr; rewrite Tx in Tr; unfold fn_of; rewrite Rx; cbn [fresh_rec t_fn].
      * rewrite Tr. eexists. split; [done|]. done.
      * by destruct (t_rg ry || t_rg rz).
Qed.
(** ** values *)
Lemma form_in h0 H e idx : may_write h0 H e -> (length (form h0 e) <= length idx)%nat -> in_range (form h0 e) (bidx (form h0 e) idx) ->
  match e with
  | Var _ => True
  | Bin _ p q => (length (form h0 p) <= length idx)%nat /\ in_range (form h0 p) (bidx (form h0 p) idx) /\ bidx (form h0 p) (bidx (form h0 e) idx) = bidx (form h0 p) idx /\
                 (length (form h0 q) <= length idx)%nat /\ in_range (form h0 q) (bidx (form h0 q) idx) /\ bidx (form h0 q) (bidx (form h0 e) idx) = bidx (form h0 q) idx
  end.
Proof.
  destruct e as [|o p q]; [done|]. intros (_ & _ & Hc & _) Hl Hi. cbn [form] in *. rewrite bshape_length in Hl.
  assert (bidx (form h0 p) (bidx (bshape (form h0 p) (form h0 q)) idx) = bidx (form h0 p) idx) as E1 by (apply bidx_two; [apply into_l|rewrite bshape_length; lia]).
  assert (bidx (form h0 q) (bidx (bshape (form h0 p) (form h0 q)) idx) = bidx (form h0 q) idx) as E2 by (apply bidx_two; [by apply into_r|rewrite bshape_length; lia]).
  split; [lia|]. split; [rewrite <- E1; by eapply bidx_in_l|]. split; [done|]. split; [lia|]. split; [rewrite <- E2; by eapply bidx_in_r|done].
Qed.
Lemma made_eval h0 H h e : may_write h0 H e -> (forall a, mentions e a -> forall i, value h a i = value h0 a i) -> forall x, made h0 h e x ->
  forall idx, (length (form h0 e) <= length idx)%nat -> in_range (form h0 e) (bidx (form h0 e) idx) -> value h x (bidx (form h0 e) idx) = eval (Spec.Formula.reads h0 idx) e.
Proof.
  induction e as [a|o p IHp q IHq]; intros Hm Hv x Hx idx Hl Hi.
  - destruct Hx as (_ & -> & _). cbn [eval form]. by apply Hv.
  - destruct (form_in h0 H (Bin o p q) idx Hm Hl Hi) as (L1 & I1 & E1 & L2 & I2 & E2). destruct Hx as (_ & y & z & My & Mz & _ & V & _).
    rewrite (V _ Hi), E1, E2. destruct Hm as (M1 & M2 & _). cbn [eval]. rewrite (IHp M1) by (done || (intros; apply Hv; by left)). by rewrite (IHq M2) by (done || (intros; apply Hv; by right)).
Qed.
(** ** the graph *)
Lemma made_below h0 h e x : made h0 h e x -> forall y, below h x y -> exists p, made h0 h p y /\ forall a, mentions p a -> mentions e a.
Proof.
  intros Hx y Hy. induction Hy as [|y z Hy (p & Mp & Hsub) Hz]; [by exists e|]. destruct p as [b|o p q].
  - destruct Mp as (_ & -> & E). unfold inputs in Hz. rewrite E in Hz. by apply elem_of_nil in Hz.
  - destruct Mp as (_ & u & w & Mu & Mw & _ & _ & F1 & F2). unfold inputs in Hz. destruct (tracked_em h y) as [Ht|Ht]; [|rewrite (F2 Ht) in Hz; by apply elem_of_nil in Hz].
    destruct (F1 Ht) as (f & Ef & _ & Ei). rewrite Ef, Ei in Hz. apply elem_of_cons in Hz as [->|Hz]; [|apply elem_of_list_singleton in Hz as ->].
    + exists p. split; [done|]. intros a Ha. apply Hsub. by left.
    + exists q. split; [done|]. intros a Ha. apply Hsub. by right.
Qed.
Lemma below_step h x y z : y ∈ inputs h x -> below h y z -> below h x z.
Proof. intros Hy Hz. induction Hz; [by eapply below_in; [constructor|]|by eapply below_in]. Qed.
Lemma made_mentions h0 h e a : tracked h0 a -> mentions e a -> forall x, made h0 h e x -> below h x a.
Proof.
  intros Ha. induction e as [b|o p IHp q IHq]; intros Hm x Hx.
  - cbn in Hm. subst b. destruct Hx as (_ & -> & _). constructor.
  - assert (tracked h x) as Tx. { apply (made_tracked h0 h (Bin o p q)); [done|]. by exists a. }
    destruct Hx as (_ & u & w & Mu & Mw & _ & _ & F1 & _). destruct (F1 Tx) as (f & Hf & _ & Ei).
    assert (inputs h x = [u; w]) as E by (unfold inputs; by rewrite Hf). destruct Hm as [Hm|Hm].
    + apply (below_step h x u); [rewrite E; mem|by apply IHp].
    + apply (below_step h x w); [rewrite E; mem|by apply IHq].
Qed.
(** ** rates *)
Lemma rate_none v a e : ~ mentions e a -> rate v a e = 0%Qc.
Proof.
  induction e as [b|o p IHp q IHq]; cbn [rate mentions]; intros Hn.
  - by case_decide.
  - rewrite IHp, IHq by tauto. destruct o; unfold Qcdiv; ring.
Qed.
Lemma made_rate h0 H h e t a i (d : tangent) : may_write h0 H e -> tracked h0 a -> (forall b, mentions e b -> forall j, value h b j = value h0 b j) ->
  obeys h t d -> (forall x j, below h t x -> ~ is_node h x -> tracked h x -> d x j = if decide (x = a /\ j = i) then 1%Qc else 0%Qc) ->
  forall x, made h0 h e x -> below h t x -> forall idx, (length (form h0 e) <= length idx)%nat -> in_range (form h0 e) (bidx (form h0 e) idx) ->
    d x (bidx (form h0 e) idx) = if decide (bidx (shape_of h0 a) idx = i) then rate (Spec.Formula.reads h0 idx) a e else 0%Qc.
Proof.
  intros Hm Ha Hv [Hd1 Hd2] Hl. induction e as [b|o p IHp q IHq]; intros x Hx Hb idx Hlen Hi.
  - pose proof (made_tracked _ _ _ _ Hx) as Ht. destruct Hx as (_ & -> & Hn). cbn [rate form]. destruct (tracked_em h b) as [Tb|Tb].
    + rewrite Hl; [|done|by intros [f Hf]; congruence|done]. destruct (decide (b = a)) as [->|Hne]; repeat case_decide; try done; naive_solver.
    + rewrite Hd2 by done. destruct (decide (b = a)) as [->|Hne]; [|by case_decide]. destruct Tb. apply Ht. by exists a.
  - destruct (form_in h0 H (Bin o p q) idx Hm Hlen Hi) as (L1 & I1 & E1 & L2 & I2 & E2).
    destruct (tracked_em h x) as [Tx|Tx].
    2:{ rewrite Hd2 by done. case_decide; [|done]. symmetry. apply rate_none. intros Hma. apply Tx, (made_tracked h0 h (Bin o p q)); [done|]. by exists a. }
    pose proof (made_shape _ _ _ _ Hx) as Sx. destruct Hx as (_ & y & z & My & Mz & _ & _ & F1 & _). destruct (F1 Tx) as (f & Hf & Hk & Hin). pose proof (Hd1 x f Hb Hf) as R. rewrite Hk, Hin in R.
    assert (inputs h x = [y; z]) as Ein by (unfold inputs; by rewrite Hf).
    destruct Hm as (M1 & M2 & _).
    assert (forall b, mentions p b -> forall j, value h b j = value h0 b j) as Hv1 by (intros; apply Hv; by left).
    assert (forall b, mentions q b -> forall j, value h b j = value h0 b j) as Hv2 by (intros; apply Hv; by right).
    specialize (IHp M1 Hv1 y My ltac:(eapply below_in; [done|rewrite Ein; mem]) idx L1 I1). specialize (IHq M2 Hv2 z Mz ltac:(eapply below_in; [done|rewrite Ein; mem]) idx L2 I2).
    pose proof (made_eval h0 H h p M1 Hv1 y My idx L1 I1) as Vy. pose proof (made_eval h0 H h q M2 Hv2 z Mz idx L2 I2) as Vz.
    destruct o; cbn [back_of rule] in R; rewrite Sx, (made_shape _ _ _ _ My), (made_shape _ _ _ _ Mz) in R; specialize (R _ Hi); rewrite E1, E2 in R; rewrite R, ?IHp, ?IHq, ?Vy, ?Vz; cbn [rate];
      case_decide; try ring.
    + destruct (Qcanon.Qc_eq_dec (eval (Spec.Formula.reads h0 idx) q) 0) as [E|E]; [rewrite E; unfold Qcdiv; change (/ 0)%Qc with 0%Qc; replace (0 * 0)%Qc with 0%Qc by ring; change (/ 0)%Qc with 0%Qc; ring|by field].
    + unfold Qcdiv. ring.
Qed.
(** ** the whole program *)
Lemma value_ext h h' g gr i : extends h h' -> h_ten h !! g = Some gr -> is_Some (h_sto h !! t_sto gr) -> value h' g i = value h g i.
Proof.
  intros [H1 H2] Hg [s Hs]. unfold value. rewrite (H2 _ _ Hg), Hg. unfold contents, elem, cells. by rewrite Hs, (H1 _ _ Hs).
Qed.
Lemma grad_ext D T h h' a i : GI D T h -> D a -> ~ is_node h a -> tracked h a -> extends h h' -> grad_value h' a i = grad_value h a i.
Proof.
  intros G Da Hn Ta Hext. assert (~ T a) as HT by (intros Tx; by destruct (g_sub _ _ _ G a Tx)).
  assert (~ is_view h a) as Hv. { intros (f & Hf & _). apply Hn. by exists f. }
  pose proof Ta as (r & Hr & _). unfold grad_value. rewrite (proj2 Hext _ _ Hr), Hr.
  destruct (g_grad _ _ _ G a r Da HT Ta Hv Hr) as [->|(s & (r' & g & gr & Hr' & Hg & Hgr & Hdt & Hlay & _ & Hs) & Hb)]; [done|].
  assert (r' = r) as -> by congruence. rewrite Hg. eapply value_ext; [done|done|]. rewrite Hs. destruct Hb as [Hb|(_ & qs & Hb & _)]; rewrite Hb; by eexists.
Qed.
Lemma formula_loss ops H T h e : program ops H T h -> may_write h H e -> moving h e ->
  exists l x h1 t h2 H2, written h e l x h1 /\ exec (OSum (Some x)) h1 = (Ok (RHandle (Some t)), h2) /\
    value h2 t [] = sum_over (form h e) (fun idx => eval (Spec.Formula.reads h idx) e) /\
    program (ops ++ l ++ [OSum (Some x)]) H2 T h2 /\ (forall a, a ∈ H -> a ∈ H2) /\ extends h h2 /\ may_backward h2 H2 T t /\
    (forall a, mentions e a -> tracked h a -> below h2 t a) /\
    forall a i q, tracked h a -> derivative h2 t a i q ->
      q = sum_over (form h e) (fun idx => if decide (bidx (shape_of h a) idx = i) then rate (Spec.Formula.reads h idx) a e else 0%Qc).
Proof.
  intros Hp Hm Hmv. destruct (write_ok h H e Hm ops H T h Hp ltac:(apply extends_refl) ltac:(done)) as (l & x & h1 & H1 & W & P1 & S1 & X1 & E1 & M1).
  destruct (program_GI _ _ _ _ Hp) as (D0 & G0 & HD0). destruct (program_GI _ _ _ _ P1) as (D1 & G1 & HD1).
  pose proof (made_here _ _ _ _ M1) as (rx & Rx & Vx & Sx & Fx & Tx).
  destruct (hand_at D1 T h1 H1 G1 HD1 x rx) as (Dx & _ & Hfx & _); [done|].
  pose proof (allocable_lt63 _ _ (holds_allocable _ _ _ _ Vx Hfx)) as Hlt. fold (shape rx) in Hlt.
  pose proof (sum_ok h1 x rx _ Rx Vx Hlt) as Es. fold (shape rx) in Es. destruct (array_sum (t_dt rx) (shape rx) (contents h1 rx)) as [v|] eqn:Ea; [|by unfold array_sum in Ea; rewrite Fx in Ea].
  destruct Es as [Es Hty]. set (t := length (h_ten h1)) in Es. set (h2 := scal _ _ _ _ _) in Es.
  assert (t_rg rx = true) as Erg by (by apply Tx). 
  assert (exec (OSum (Some x)) h1 = (Ok (RHandle (Some t)), h2)) as Ex by (cbn [exec]; by rewrite un_some, new_handle_eq, Es).
  assert (program ((ops ++ l) ++ [OSum (Some x)]) (t :: H1) T h2) as P2 by (eapply PCall; [done|by eapply (CSum _ _ _ rx)|done]).
  assert (extends h1 h2) as E2 by apply alloc_extends. assert (extends h h2) as E02 by (by eapply extends_trans).
  pose proof (made_extends h h1 h2 e E2 x M1) as M2.
  assert (h_ten h2 !! t = Some (scal_rec h1 (sum_type (t_dt rx)) (t_rg rx) (red_fn SumBack (t_rg rx) x))) as Rt by apply alloc_ten.
  assert (fn_of h2 t = Some (Gfn SumBack [x] 0 0 0)) as Ft. { unfold fn_of. rewrite Rt. cbn [scal_rec fresh_rec t_fn]. unfold red_fn. by rewrite Erg. }
  assert (inputs h2 t = [x]) as It by (unfold inputs; by rewrite Ft).
  assert (shape_of h2 t = []) as St. { by rewrite (shape_rec _ _ _ Rt). }
  assert (below h2 t x) as Bx by (eapply below_in; [constructor|rewrite It; mem]).
  assert (forall y, below h2 t y -> y = t \/ below h2 x y) as Bt.
  { intros y Hy. induction Hy as [|y z Hy [->|IH] Hz]; [by left| |].
    - rewrite It in Hz. apply elem_of_list_singleton in Hz as ->. right. constructor.
    - right. by eapply below_in. }
  assert (forall b, mentions e b -> b ∈ H /\ ~ is_node h b) as Hment.
  { clear - Hm. induction e as [c|o p IHp q IHq]; cbn [may_write mentions] in *; intros b Hb.
    - subst c. destruct Hm as (r & [? _] & ? & _). done.
    - destruct Hm as (? & ? & _), Hb; auto. }
  assert (forall b, mentions e b -> forall j, value h2 b j = value h b j) as Hval. { intros b Hb j. apply (old_value D0 T h h2 G0 E02), HD0. by apply Hment. }
  assert (may_backward h2 (t :: H1) T t) as Hmay.
  { split; [split|].
    - mem.
    - by eexists.
    - intros (f & Hf & Hk). rewrite Ft in Hf. injection Hf as <-. done.
    - by rewrite St.
    - rewrite St. unfold lay_of. by rewrite Rt.
    - intros y Hy Hne HT. destruct (Bt y Hy) as [->|Hy']; [done|]. destruct (g_sub _ _ _ G0 y HT) as [_ [f Hf]].
      unfold fn_of in Hf. destruct (h_ten h !! y) as [r|] eqn:Er; [|done]. destruct (made_below h h2 e x M2 y Hy') as ([b|o p q] & Mp & _).
      + destruct Mp as (_ & _ & Hn). unfold fn_of in Hn. rewrite (proj2 E02 _ _ Er) in Hn. congruence.
      + destruct Mp as (_ & ? & ? & _ & _ & Hn & _). congruence.
    - intros y f Hy Hf Hk. destruct (Bt y Hy) as [->|Hy']; [done|]. destruct (made_below h h2 e x M2 y Hy') as ([b|o p q] & Mp & _).
      + destruct Mp as (_ & _ & Hn). congruence.
      + destruct Mp as (_ & ? & ? & _ & _ & _ & _ & F1 & F2). destruct (tracked_em h2 y) as [Ty|Ty]; [|rewrite (F2 Ty) in Hf; done].
        destruct (F1 Ty) as (g & Hg & Hgk & _). assert (g = f) as -> by congruence. rewrite Hgk in Hk. by destruct o. }
  assert (forall idx, in_range (form h e) idx -> (length (form h e) <= length idx)%nat /\ bidx (form h e) idx = idx) as Hidx.
  { intros idx Hi. split; [by rewrite (in_range_length _ _ Hi)|by apply Binary.bidx_self]. }
  exists l, x, h1, t, h2, (t :: H1). split; [done|]. split; [done|]. split.
  { unfold h2, t, scal. rewrite (alloc_value h1 (sum_type (t_dt rx)) [] (fun _ => v)); [|apply allocable_nil|done|constructor].
    rewrite (sum_num _ _ _ _ Fx Ea). rewrite Sx. apply sum_over_ext. intros idx Hi. destruct (Hidx idx Hi) as [L I].
    rewrite <- (value_rec h1 x rx idx Rx). rewrite <- I at 1. apply (made_eval h H h1); [done| |done|done|by rewrite I].
    intros b Hb j. apply (old_value D0 T h h1 G0 E1), HD0. by apply Hment. }
  split; [by rewrite app_assoc|]. split; [intros; apply elem_of_list_further; auto|]. split; [done|]. split; [done|]. split.
  { intros a Ha Ta. apply (below_step h2 t x); [rewrite It; mem|]. by apply (made_mentions h h2 e a Ta Ha). }
  intros a i q Ta (d & Hd & Hl & ->). rewrite St. cbn [map].
  pose proof (proj1 Hd t _ ltac:(constructor) Ft) as R. cbn [gf_kind gf_in rule] in R. rewrite R, (made_shape _ _ _ _ M2). apply sum_over_ext. intros idx Hi'.
  destruct (Hidx idx Hi') as [L I]. rewrite <- I at 1. apply (made_rate h H h2 e t a i d); try done. by rewrite I.
Qed.
Lemma formula_gradient ops H T h e : program ops H T h -> may_write h H e -> moving h e ->
  exists l x h1 t h2 h3, written h e l x h1 /\ exec (OSum (Some x)) h1 = (Ok (RHandle (Some t)), h2) /\
    value h2 t [] = sum_over (form h e) (fun idx => eval (Spec.Formula.reads h idx) e) /\
    exec (OBackward (Some t)) h2 = (Ok RUnit, h3) /\
    (exists H' T', program (ops ++ l ++ [OSum (Some x); OBackward (Some t)]) H' T' h3 /\ forall a, a ∈ H -> a ∈ H') /\
    forall a i, a ∈ H -> ~ is_node h a -> tracked h a -> in_range (shape_of h a) i ->
      grad_value h3 a i = (grad_value h a i + sum_over (form h e) (fun idx =>
        if decide (bidx (shape_of h a) idx = i) then rate (Spec.Formula.reads h idx) a e else 0))%Qc.
Proof.
  intros Hp Hm Hmv. destruct (formula_loss ops H T h e Hp Hm Hmv) as (l & x & h1 & t & h2 & H2 & W & Ex & Ev & P2 & S2 & E02 & Hmay & Hbel & Hder).
  destruct (program_GI _ _ _ _ Hp) as (D0 & G0 & HD0).
  destruct (program_backward _ _ _ _ _ P2 Hmay) as (h3 & E3 & P3 & K3).
  exists l, x, h1, t, h2, h3. split; [done|]. split; [done|]. split; [done|]. split; [done|]. split.
  { eexists _, _. split; [|exact S2]. rewrite <- !app_assoc in P3. exact P3. }
  intros a i Ha Hn Ta Hi.
  assert (grad_value h2 a i = grad_value h a i) as Eg by (eapply grad_ext; [exact G0|by apply HD0|done|done|done]).
  assert (~ is_node h2 a) as Hn2. { destruct Ta as (r & Hr & _). intros [f Hf]. apply Hn. exists f. unfold fn_of in *. by rewrite (proj2 E02 _ _ Hr), Hr in *. }
  assert (tracked h2 a) as Ta2. { destruct Ta as (r & Hr & ?). exists r. split; [by apply E02|done]. }
  assert (shape_of h2 a = shape_of h a) as Sa by (apply (old_shape D0 T h h2 G0 E02); by apply HD0).
  rewrite <- Eg. destruct (below_em h2 t a) as [Hb|Hb]; [by destruct (program_facts _ _ _ _ P2)|by destruct (program_facts _ _ _ _ P2) as (_ & ? & _)|by destruct Hmay as [[? ? ?] _]| |].
  - destruct (K3 a i Hb Hn2 Ta2) as (q & Hq & _ & ->); [by rewrite Sa|]. by rewrite (Hder a i q Ta Hq).
  - rewrite (program_other _ _ _ _ _ _ a i P2 Hmay E3); [|auto|done|done].
    unfold sum_over. rewrite sumq_zero; [ring|]. intros idx _. case_decide; [|done]. apply rate_none. intros Hma. apply Hb. by apply Hbel.
Qed.

(** ** the rates are limits of difference quotients *)
Lemma eval_ext v w e : (forall b, mentions e b -> v b = w b) -> eval v e = eval w e.
Proof. induction e as [b|o p IHp q IHq]; cbn [eval mentions]; intros H; [by apply H|]. rewrite IHp, IHq by auto. done. Qed.
Lemma rate_fd v a e : divides v e -> fd (fun s => eval (fun b => (v b + if decide (b = a) then s else 0)%Qc) e) (rate v a e).
Proof.
  assert (forall p, eval (fun b => (v b + if decide (b = a) then 0 else 0)%Qc) p = eval v p) as E0. { intros p. apply eval_ext. intros b _. case_decide; ring. }
  induction e as [b|o p IHp q IHq]; cbn [divides eval rate]; intros Hd.
  - case_decide.
    + eapply fd_ext; [|apply (fd_move (v b) 1)]. apply near_all. intros s. ring.
    + eapply fd_ext; [|apply (fd_const (v b))]. apply near_all. intros s. ring.
  - destruct Hd as (D1 & D2 & D3). specialize (IHp D1). specialize (IHq D2). destruct o; cbn [calc].
    + by apply fd_add.
    + by apply fd_sub.
    + pose proof (fd_mul _ _ _ _ IHp IHq) as K. cbn beta in K. by rewrite !E0 in K.
    + specialize (D3 eq_refl). pose proof (fd_div _ _ _ _ IHp IHq) as K. cbn beta in K. rewrite !E0 in K. specialize (K D3).
      replace ((rate v a p * eval v q - eval v p * rate v a q) / (eval v q * eval v q))%Qc with (rate v a p / eval v q - eval v p * rate v a q / (eval v q * eval v q))%Qc by (by field). exact K.
Qed.
Lemma rate_slope v a e : divides v e -> slope (fun s => eval (fun b => (v b + if decide (b = a) then s else 0)%Qc) e) (rate v a e).
Proof. intros H. by apply fd_slope, rate_fd. Qed.
