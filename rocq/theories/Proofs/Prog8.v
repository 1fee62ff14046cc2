(** Every program of Spec/Program.v keeps the invariant of Prog.v, so its backward() calls add
    the derivative to the gradients of the leaves. *)
From Verif.Proofs Require Export Prog7 ProgW ZeroGrad Tangent Vroot.
From Verif.Model Require Export Exact Api.
#[local] Existing Instance Exact.
#[local] Existing Instance is_view_dec.

(** ** zero_grad() *)
Lemma GI_zero D T h a r h' : tinv h -> GI D T h -> D a -> h_ten h !! a = Some r -> ~ is_node h a ->
  exec (OZeroGrad (Some a)) h = (Ok RUnit, h') -> GI D T h'.
Proof.
  intros Hinv G Da Ha Hn E. assert (~ T a) as Ta by (intros [_ ?]%(g_sub _ _ _ G); done).
  assert (~ is_view h a) as Va by (intros (f & ? & _); apply Hn; by exists f).
  destruct (t_grad r) as [g|] eqn:Eg. 2:{ rewrite (zero_grad_none h a r Ha Eg) in E. by injection E as <-. }
  destruct (t_rg r) eqn:Erg; [|destruct (g_const _ _ _ G a r Da Ha Erg); congruence].
  destruct (g_grad _ _ _ G a r Da Ta ltac:(by exists r) Va Ha) as [?|(s & Hs & Hb)]; [congruence|].
  pose proof Hs as (r1 & g1 & gr & L1 & L2 & L3 & L4 & L5 & L6 & L7). assert (r1 = r) as -> by congruence. assert (g1 = g) as -> by congruence.
  cbn [exec] in E. unfold deref, no_result, zero_grad in E. rewrite bind_ret, bind_assoc in E. erewrite bind_ok in E by (by apply get_ten_ok). rewrite Eg in E.
  rewrite bind_assoc in E. erewrite bind_ok in E by (by apply get_ten_ok). rewrite L7 in E.
  destruct Hb as [Hb|(_ & qs & Hb & Hl)].
  - assert (sto_zero s h = (Ok tt, h)) as Ez. { unfold sto_zero. erewrite bind_ok by (by apply get_sto_ok). done. }
    erewrite bind_ok in E by exact Ez. by injection E as <-.
  - assert (floating (t_dt r) = true) as Hfl. { pose proof (ok_rg _ _ _ (Hinv a r Ha) Erg) as Hf. by destruct (t_dt r). }
    erewrite bind_ok in E by (by eapply sto_zero_at). injection E as <-. set (h' := put _ _ _).
    assert (forall s', s' <> s -> h_sto h' !! s' = h_sto h !! s') as Hne by (intros; unfold h'; by rewrite put_lookup_ne).
    apply (GI_soft D T h h' G).
    + intros x rx Hx. exists rx. split; [done|]. split; [done|]. split; [done|]. split; [done|]. by left.
    + intros s' x Hd Hs'. rewrite Hne; [done|]. intros ->. by apply (g_apart _ _ _ G a s Da Ta Va Hs).
    + intros x rx s' Dx Tx Vx Hx Hs' Hbx. destruct (decide (s' = s)) as [->|Hss].
      * assert (x = a) as -> by (by apply (g_sep _ _ _ G x a s)). assert (rx = r) as -> by congruence. right. split; [exact Hn|].
        exists (replicate (length (map (fun q : Qc => Some (@VF Exact q)) qs)) 0%Qc). split; [unfold h'; by eapply put_lookup|]. by rewrite replicate_length, map_length.
      * destruct Hbx as [Hbx|(Hnx & qs' & Hbx & Hlx)]; [left; unfold raw_buffer; by rewrite Hne|right]. split; [exact Hnx|].
        exists qs'. split; [by rewrite Hne|done].
Qed.

(** ** all calls *)
Lemma may_call_keeps D T h H o : tinv h -> GI D T h -> (forall x, x ∈ H -> D x) -> may_call h H o -> keeps_GI D T h o.
Proof.
  intros Hinv G HD Hc. destruct Hc.
  - by eapply Prog5.keeps_scalar.
  - by eapply Prog5.keeps_init.
  - by eapply Prog5.keeps_zeros.
  - by eapply Prog5.keeps_ones.
  - by eapply Prog5.keeps_zeros_like.
  - by eapply Prog5.keeps_ones_like.
  - by eapply Prog5.keeps_full_int.
  - by eapply Prog5.keeps_full_double.
  - by eapply Prog5.keeps_eye.
  - by eapply Prog5.keeps_blob.
  - by eapply Prog5.keeps_arith.
  - by eapply Prog6.keeps_neg.
  - by eapply Prog5.keeps_pos.
  - by eapply Prog5.keeps_cmp.
  - by eapply Prog5.keeps_type.
  - eapply Prog5.keeps_clone; [done..|by left].
  - eapply Prog5.keeps_clone; [done..|by right].
  - by eapply Prog5.keeps_sum.
  - by eapply Prog5.keeps_mean.
  - by eapply Prog6.keeps_abs.
  - eapply (Prog6.keeps_ext D T h H Hinv G HD CGe); [by left|done..].
  - eapply (Prog6.keeps_ext D T h H Hinv G HD CLe); [by right|done..].
  - by eapply Prog6.keeps_cat.
  - by eapply Prog7.keeps_slice.
  - by eapply Prog7.keeps_transpose.
  - by eapply Prog7.keeps_reshape.
  - by eapply (Prog7.keeps_reshape_as D T h H).
  - by eapply Prog7.keeps_detach.
Qed.
Lemma may_call_size h H o : may_call h H o -> size_ok o.
Proof.
  assert (forall dt ss, shape_fits dt ss -> Forall (fun n => 0 <= n) ss) as Hs.
  { intros dt ss [K _]. eapply Forall_impl; [exact K|]. simpl. lia. }
  intros Hc. destruct Hc; try (by constructor); try (unfold size_ok, size_args; by eapply Hs). destruct o; constructor.
Qed.
Lemma run_snoc ops : forall h rs h1 o x h2, run h ops = (Ok rs, h1) -> exec o h1 = (x, h2) -> (forall u, x <> UB u) -> x <> Diverge ->
  run h (ops ++ [o]) = (Ok (rs ++ [x]), h2).
Proof.
  induction ops as [|p ops IH]; intros h rs h1 o x h2 E1 E2 Hu Hd.
  - cbn [run] in E1. injection E1 as <- <-. cbn [run app]. rewrite E2. destruct x as [?|?|u|]; [done|done|by destruct (Hu u)|done].
  - cbn [run app] in *. destruct (exec p h) as [[?|?|?|] h'] eqn:Ep; try done;
      (destruct (run h' ops) as [[rs'|?|?|] h''] eqn:Er; try done; injection E1 as <- <-; by rewrite (IH _ _ _ _ _ _ Er E2 Hu Hd)).
Qed.

Lemma no_result_handle (m : E unit) h x h' : no_result m h <> (Ok (RHandle x), h').
Proof. unfold no_result, bind. by destruct (m h) as [[?|?|?|] ?]. Qed.

Lemma program_run ops H T h : program ops H T h -> Forall size_ok ops /\ exists rs, run empty_heap ops = (Ok rs, h).
Proof.
  assert (forall ops h o x h', size_ok o -> exec o h = (x, h') -> (forall u, x <> UB u) -> x <> Diverge ->
    Forall size_ok ops /\ (exists rs, run empty_heap ops = (Ok rs, h)) -> Forall size_ok (ops ++ [o]) /\ exists rs, run empty_heap (ops ++ [o]) = (Ok rs, h')) as Hone.
  { clear. intros ops h o x h' Ho E Hu Hd [Hs [rs Hr]]. split; [apply Forall_app; split; [done|by constructor]|]. exists (rs ++ [x]). by eapply run_snoc. }
  induction 1 as [|ops H T h o x h' Hp IH Hc E|ops H T h o x dt ss w h' Hp IH Hs E Hnew Hfit|ops H T h o x h' Hp IH Hs E He Hu Hd|
    ops H T h a r h' Hp IH Ha Hn Hd E|ops H T h a r b h' Hp IH Ha E|
    ops H T h a r h' Hp IH Ha Hn E|ops H T h t h' Hp IH Hb E|ops H T h o y a r w h' Hp IH Hs Ha E Hw HH HT|ops H T h H' T' Hp IH Hsub HT].
  - split; [constructor|]. by exists [].
  - eapply Hone; [by eapply may_call_size|exact E|done|done|done].
  - by eapply Hone.
  - by eapply Hone.
  - eapply Hone; [constructor|exact E|done|done|done].
  - eapply Hone; [constructor|exact E|done|done|done].
  - eapply Hone; [constructor|exact E|done|done|done].
  - eapply Hone; [constructor|exact E|done|done|done].
  - by eapply Hone.
  - done.
Qed.
Lemma program_facts ops H T h : program ops H T h -> tinv h /\ vinv h /\ sized h.
Proof.
  intros [Hs [rs Hr]]%program_run. assert (reachable h) as Hre by (by exists ops, rs).
  split; [by apply reachable_tinv|]. split; [by apply reachable_vinv|]. by eapply sized_reached.
Qed.

(** ** the derivative a backward() adds *)
Lemma leaves_exist h t : tinv h -> vinv h -> is_node h t -> exists ls, leaves h t ls.
Proof.
  intros Hinv Hver [f Hf]. pose proof (fn_of_lt h t f Hf) as Hlt.
  assert (forall n, exists ls, NoDup ls /\ forall x, x ∈ ls <-> (x < n)%nat /\ below h t x /\ ~ is_node h x /\ tracked h x) as Hn.
  { induction n as [|n (ls & Hnd & Hls)].
    - exists []. split; [constructor|]. intros x. split; [intros []%elem_of_nil|lia].
    - assert ((below h t n /\ ~ is_node h n /\ tracked h n) \/ ~ (below h t n /\ ~ is_node h n /\ tracked h n)) as [Hy|Hy].
      { destruct (below_em h t n Hinv Hver ltac:(by exists f)) as [Hb|Hb]; [|right; tauto].
        destruct (fn_of h n) as [f'|] eqn:Ef; [right; intros (_ & K & _); apply K; by exists f'|].
        destruct (h_ten h !! n) as [r|] eqn:Er; [|right; intros (_ & _ & (r & ? & _)); congruence].
        destruct (t_rg r) eqn:Eg; [left|right; intros (_ & _ & (r' & ? & ?)); congruence].
        split; [done|]. split; [intros [f' ?]; congruence|]. by exists r. }
      + exists (n :: ls). split.
        * constructor; [|done]. rewrite Hls. lia.
        * intros x. rewrite elem_of_cons, Hls. split.
          -- intros [->|[? ?]]; [split; [lia|done]|split; [lia|done]].
          -- intros [Hx Hr]. destruct (decide (x = n)) as [->|]; [by left|right]. split; [lia|done].
      + exists ls. split; [done|]. intros x. rewrite Hls. split; intros [Hx Hr]; (split; [|done]); [lia|].
        destruct (decide (x = n)) as [->|]; [done|lia]. }
  destruct (Hn (length (h_ten h))) as (ls & Hnd & Hls). exists ls. split; [done|]. intros x. rewrite Hls. split; [by intros [_ ?]|].
  intros Hx. split; [|done]. destruct Hx as (_ & _ & (r & Hr & _)). by eapply lookup_lt_Some.
Qed.

Lemma mean_below_dec h t x : tinv h -> vinv h -> is_node h t -> mean_below h t x \/ ~ mean_below h t x.
Proof.
  intros Hinv Hver Ht. destruct (below_em h t x Hinv Hver Ht) as [Hb|Hb]; [|right; by intros [? _]].
  destruct (decide (x <> t /\ is_mean h x)) as [Hm|Hm]; [left|right; by intros [_ ?]]. by split.
Qed.
Lemma means_exist h t : tinv h -> vinv h -> is_node h t -> exists ms, means h t ms.
Proof.
  intros Hinv Hver Ht.
  assert (forall n, exists ms, NoDup ms /\ forall x, x ∈ ms <-> (x < n)%nat /\ mean_below h t x) as Hn.
  { induction n as [|n (ms & Hnd & Hms)].
    - exists []. split; [constructor|]. intros x. split; [intros []%elem_of_nil|lia].
    - destruct (mean_below_dec h t n Hinv Hver Ht) as [Hy|Hy].
      + exists (n :: ms). split.
        * constructor; [|done]. rewrite Hms. lia.
        * intros x. rewrite elem_of_cons, Hms. split.
          -- intros [->|[? ?]]; [split; [lia|done]|split; [lia|done]].
          -- intros [Hx Hr]. destruct (decide (x = n)) as [->|]; [by left|right]. split; [lia|done].
      + exists ms. split; [done|]. intros x. rewrite Hms. split; intros [Hx Hr]; (split; [|done]); [lia|].
        destruct (decide (x = n)) as [->|]; [done|lia]. }
  destruct (Hn (length (h_ten h))) as (ms & Hnd & Hms). exists ms. split; [done|]. intros x. rewrite Hms. split; [by intros [_ ?]|].
  intros Hx. split; [|done]. destruct Hx as (_ & _ & f & Hf & _). by eapply fn_of_lt.
Qed.
Lemma root_node h t : grad_core h t -> is_node h t.
Proof. intros Hgr. destruct (gc_root _ _ Hgr) as (r & f & Hr & Hf & _). exists f. unfold fn_of. by rewrite Hr. Qed.
Lemma backward_run h t : tinv h -> vinv h -> sized h -> grad_ready h t -> exists h', exec (OBackward (Some t)) h = (Ok RUnit, h') /\ effect h t h' /\
  forall d ls ms, obeys_cut h t d -> leaves h t ls -> means h t ms ->
    pairing h' ls d = (pairing h ls d + sum_over (shape_of h t) (d t) + sumq (map (mean_rate h d) ms))%Qc.
Proof.
  intros Hinv Hver Hsz Hgr. pose proof (root_node h t Hgr) as Hnt.
  assert (obeys_cut h t (fun _ _ => 0%Qc)) as Hd0.
  { split_and!; [|done|done]. intros x f Hb _ Hf. apply (rule_zero h t Hinv Hgr); [done| |by apply (gr_node _ _ Hgr)].
    intros a Ha. eapply below_in; [exact Hb|]. unfold inputs. by rewrite Hf. }
  destruct (leaves_exist h t Hinv Hver Hnt) as (ls0 & Hls0). destruct (means_exist h t Hinv Hver Hnt) as (ms0 & Hms0).
  destruct (backward_cut h t _ ls0 [] ms0 Hinv Hver Hsz Hgr Hls0 Hms0 eq_refl Hd0) as (h' & E & _ & F). exists h'. split; [|split; [done|]].
  - cbn [exec]. unfold deref, no_result. rewrite bind_ret. by erewrite bind_ok by exact E.
  - intros d ls ms Hd Hls Hms. destruct (backward_cut h t d ls [] ms Hinv Hver Hsz Hgr Hls Hms eq_refl Hd) as (h1 & E1 & P & _). by assert (h1 = h') as <- by congruence.
Qed.
(** the same from a view *)
Lemma backward_run_view h t : tinv h -> vinv h -> sized h -> grad_core h t -> is_view h t -> size_prod (shape_of h t) = 1 ->
  exists h', exec (OBackward (Some t)) h = (Ok RUnit, h') /\ effect h t h' /\
  forall d ls ms, obeys_cut h t d -> leaves h t ls -> means h t ms -> pairing h' ls d = (pairing h ls d + sumq (map (mean_rate h d) ms))%Qc.
Proof.
  intros Hinv Hver Hsz Hgr Hv H1. pose proof (root_node h t Hgr) as Hnt.
  assert (obeys_cut h t (fun _ _ => 0%Qc)) as Hd0.
  { split_and!; [|done|done]. intros x f Hb _ Hf. apply (rule_zero h t Hinv Hgr); [done| |by apply (gc_node _ _ Hgr)].
    intros a Ha. eapply below_in; [exact Hb|]. unfold inputs. by rewrite Hf. }
  destruct (leaves_exist h t Hinv Hver Hnt) as (ls0 & Hls0). destruct (means_exist h t Hinv Hver Hnt) as (ms0 & Hms0).
  destruct (backward_view h t _ ls0 ms0 Hinv Hver Hsz Hgr Hv H1 Hls0 Hms0 Hd0) as (h' & E & _ & F). exists h'. split; [|split; [done|]].
  - cbn [exec]. unfold deref, no_result. rewrite bind_ret. by erewrite bind_ok by exact E.
  - intros d ls ms Hd Hls Hms. destruct (backward_view h t d ls ms Hinv Hver Hsz Hgr Hv H1 Hls Hms Hd) as (h1 & E1 & P & _). by assert (h1 = h') as <- by congruence.
Qed.
Lemma backward_plain h t : tinv h -> vinv h -> sized h -> grad_ready h t -> (forall x, ~ mean_below h t x) -> exists h', exec (OBackward (Some t)) h = (Ok RUnit, h') /\ effect h t h' /\
  forall d ls, obeys h t d -> leaves h t ls -> pairing h' ls d = (pairing h ls d + sum_over (shape_of h t) (d t))%Qc.
Proof.
  intros Hinv Hver Hsz Hgr Hm. destruct (backward_run h t Hinv Hver Hsz Hgr) as (h' & E & F & P). exists h'. split; [done|]. split; [done|].
  intros d ls Hd Hls. rewrite (P d ls [] (obeys_obeys_cut h t d Hm Hd) Hls (no_means h t Hm)). cbn [map sumq foldr]. ring.
Qed.
Lemma mb_no_means h H T t : may_backward h H T t -> forall x, ~ mean_below h t x.
Proof. intros Hb x (Hx & Hne & f & Hf & Hk). apply Hne. by eapply (mb_mean _ _ _ _ Hb). Qed.

Lemma program_GI ops H T h : program ops H T h -> exists D, GI D T h /\ forall x, x ∈ H -> D x.
Proof.
  induction 1 as [|ops H T h o x h' Hp IH Hc E|ops H T h o x dt ss w h' Hp IH Hs E Hnew Hfit|ops H T h o x h' Hp IH Hs E He Hu Hd|
    ops H T h a r h' Hp IH Ha Hn Hd E|ops H T h a r b h' Hp IH Ha E|
    ops H T h a r h' Hp IH Ha Hn E|ops H T h t h' Hp IH Hb E|ops H T h o y a r w h' Hp IH Hs Ha E Hw HH HT|ops H T h H' T' Hp IH Hsub HT].
  - exists (fun _ => False). split; [apply GI_start|]. by intros x []%elem_of_nil.
  - destruct IH as (D & G & HD). destruct (program_facts _ _ _ _ Hp) as (Hinv & _).
    destruct (may_call_keeps D T h H o Hinv G HD Hc x h' E) as (D' & Hsub & Dx & G'). exists D'. split; [done|].
    intros y [->|Hy]%elem_of_cons; [done|]. by apply Hsub, HD.
  - destruct IH as (D & G & HD). exists (fun y => D y \/ y = x). split; [|intros y [->|Hy]%elem_of_cons; [by right|left; by apply HD]].
    eapply (GI_call D T h o x h' dt ss false w); try done.
    + intros t ->. cbn [exec] in E. unfold bind, deref in E. destruct t as [t|]; cbn in E; [by apply no_result_handle in E|done].
    + intros t ->. cbn [exec] in E. unfold bind, deref in E. destruct t as [t|]; cbn in E; [by apply no_result_handle in E|done].
  - destruct IH as (D & G & HD). exists D. split; [|done]. eapply (GI_step D T 0%nat); [done|]. by apply step_extends.
  - destruct IH as (D & G & HD). exists D. split; [|done]. destruct Ha as [HaH Ha]. cbn [exec] in E. unfold deref, no_result, set_requires_grad in E.
    rewrite bind_ret, bind_assoc in E. erewrite bind_ok in E by (by apply get_ten_ok). destruct (is_float (t_dt r)); [|done]. rewrite bind_assoc in E. cbn [run_expect] in E.
    rewrite bind_ret in E. erewrite bind_ok in E by apply set_ten_eq. injection E as <-. apply GI_requires; [done|by apply HD|done| |done].
    destruct (t_fn r) as [f|] eqn:Ef; [|done]. destruct Hn. exists f. unfold fn_of. by rewrite Ha.
  - destruct IH as (D & G & HD). exists D. split; [|done]. destruct Ha as [HaH Ha]. cbn [exec] in E. unfold deref, no_result in E.
    rewrite bind_ret in E. erewrite bind_ok in E by (by apply get_ten_ok). erewrite bind_ok in E by apply set_ten_eq. injection E as <-. by apply GI_retain.
  - destruct IH as (D & G & HD). exists D. split; [|done]. destruct (program_facts _ _ _ _ Hp) as (Hinv & _). destruct Ha as [HaH Ha].
    eapply (GI_zero D T h a r); try done. by apply HD.
  - destruct IH as (D & G & HD). exists D. split; [|done]. destruct (program_facts _ _ _ _ Hp) as (Hinv & Hver & Hsz).
    destruct Hb as [Hb|Hb].
    + pose proof (GI_ready D T h H t Hinv G HD Hb) as Hgr. destruct (backward_run h t Hinv Hver Hsz Hgr) as (h1 & E1 & F & _).
      assert (h1 = h') as -> by congruence. apply GI_back; try done; [apply HD, Hb|apply Hb].
    + pose proof (GI_core D T h H t Hinv G HD Hb) as Hgr. destruct (backward_run_view h t Hinv Hver Hsz Hgr) as (h1 & E1 & F & _); [apply Hb|apply Hb|].
      assert (h1 = h') as -> by congruence. apply GI_back; try done; [apply HD, Hb|apply Hb].
  - destruct IH as (D & G & HD). exists (closure h H). split; [by eapply GI_write|]. intros x. apply closure_self.
  - destruct IH as (D & G & HD). exists (closure h H'). split; [eapply GI_closure; [exact G|auto|done]|]. intros x. apply closure_self.
Qed.
Lemma program_ready ops H T h t : program ops H T h -> may_start h H T t -> grad_ready h t.
Proof.
  intros Hp Hb. destruct (program_GI _ _ _ _ Hp) as (D & G & HD). destruct (program_facts _ _ _ _ Hp) as (Hinv & _). by eapply GI_ready.
Qed.

Lemma one_index ss (f : list Z -> Qc) : Forall (fun n => 0 <= n) ss -> size_prod ss = 1 -> sum_over ss f = f (map (fun _ => 0) ss).
Proof.
  intros Hn H1. unfold sum_over. apply sumq_one.
  - by apply NoDup_indices.
  - apply elem_of_indices. pose proof (size_prod_one _ Hn H1) as Ho. clear - Ho. induction Ho as [|x ss -> Ho IH]; constructor; [lia|done].
  - intros y Hy Hne. apply elem_of_indices in Hy. destruct Hne. apply (in_range_ones ss); [by apply size_prod_one|done].
Qed.
Lemma derivative_unique h t a i q q' : tinv h -> grad_ready h t -> derivative h t a i q -> derivative h t a i q' -> q = q'.
Proof.
  intros Hinv Hgr (d & H1 & H2 & ->) (d' & H1' & H2' & ->). apply (tangent_unique h t Hinv Hgr d d' H1 H1').
  - intros x idx Hb Hn Hx _. by rewrite H2, H2'.
  - constructor.
  - destruct (gr_root _ _ Hgr) as (r & f & Hr & _ & _ & _ & Hone & _). unfold shape_of, lay_of. rewrite Hr. fold (shape r).
    destruct (gr_data _ _ Hgr t r ltac:(constructor) Hr) as [Hh _]. pose proof (holds_nonneg _ _ _ Hh) as Hn.
    pose proof (size_prod_one _ Hn Hone) as Ho. unfold shape. clear - Ho. unfold shape in Ho. induction Ho as [|x ss -> Ho IH]; constructor; [lia|done].
Qed.
Lemma derivative_exists h t a i : tinv h -> grad_ready h t -> exists q, derivative h t a i q.
Proof.
  intros Hinv Hgr. destruct (tangent_exists h t Hinv Hgr (fun x idx => if decide (x = a /\ idx = i) then 1%Qc else 0%Qc)) as (d & Hd & He).
  exists (d t (map (fun _ => 0) (shape_of h t))). exists d. split; [done|]. split; [|done]. intros x idx _. apply He.
Qed.
Lemma pairing_unit h ls d a i : NoDup ls -> a ∈ ls -> Forall (fun n => 0 <= n) (shape_of h a) -> in_range (shape_of h a) i ->
  (forall x idx, x ∈ ls -> d x idx = if decide (x = a /\ idx = i) then 1%Qc else 0%Qc) -> pairing h ls d = grad_value h a i.
Proof.
  intros Hnd Ha Hn Hi Hd. unfold pairing. rewrite (sumq_one _ ls a Hnd Ha).
  - unfold sum_over. rewrite (sumq_one _ _ i).
    + rewrite Hd by done. rewrite decide_True by done. ring.
    + by apply NoDup_indices.
    + by apply elem_of_indices.
    + intros y _ Hne. rewrite Hd by done. rewrite decide_False by naive_solver. ring.
  - intros y Hy Hne. apply sumq_zero. intros idx _. rewrite Hd by done. rewrite decide_False by naive_solver. ring.
Qed.

(** ** the gradients after backward() *)
Lemma backward_derivative h t a i : tinv h -> vinv h -> sized h -> grad_ready h t -> (forall x, ~ mean_below h t x) -> below h t a -> ~ is_node h a -> tracked h a -> in_range (shape_of h a) i ->
  forall h' q, exec (OBackward (Some t)) h = (Ok RUnit, h') -> derivative h t a i q -> grad_value h' a i = (grad_value h a i + q)%Qc.
Proof.
  intros Hinv Hver Hsz Hgr Hmn Ha1 Ha2 Ha3 Hi h' q E (d & Hd & He & ->). destruct (backward_plain h t Hinv Hver Hsz Hgr Hmn) as (h1 & E1 & F & P). assert (h1 = h') as -> by congruence.
  assert (is_node h t) as Hnt. { destruct (gr_root _ _ Hgr) as (r & f & Hr & Hf & _). exists f. unfold fn_of. by rewrite Hr. }
  destruct (leaves_exist h t Hinv Hver Hnt) as (ls & Hls). specialize (P d ls Hd Hls). destruct Hls as [Hnd Hls].
  assert (a ∈ ls) as Hal by (by apply Hls).
  assert (forall x idx, x ∈ ls -> d x idx = if decide (x = a /\ idx = i) then 1%Qc else 0%Qc) as He'. { intros x idx (K0 & K1 & K2)%Hls. by apply He. }
  assert (shape_of h' a = shape_of h a) as Hsh.
  { destruct Ha3 as (r & Hr & _). destruct (ef_rec _ _ _ F a r Hr) as (r' & Hr' & (_ & S2 & _) & _). unfold shape_of, lay_of. by rewrite Hr, Hr', S2. }
  pose proof (below_sizes h t Hgr a Ha1) as Hn.
  rewrite (pairing_unit h ls d a i), (pairing_unit h' ls d a i) in P; rewrite ?Hsh; try done. rewrite P. f_equal.
  destruct (gr_root _ _ Hgr) as (r & f & Hr & _ & _ & _ & Hone & _). apply one_index; [apply (below_sizes h t Hgr); constructor|]. unfold shape_of, lay_of. by rewrite Hr.
Qed.

Lemma program_backward ops H T h t : program ops H T h -> may_backward h H T t ->
  exists h', exec (OBackward (Some t)) h = (Ok RUnit, h') /\
    program (ops ++ [OBackward (Some t)]) H (fun x => T x \/ below h t x /\ is_node h x) h' /\
    forall a i, below h t a -> ~ is_node h a -> tracked h a -> in_range (shape_of h a) i ->
      exists q, derivative h t a i q /\ (forall q', derivative h t a i q' -> q' = q) /\ grad_value h' a i = (grad_value h a i + q)%Qc.
Proof.
  intros Hp Hb. pose proof (program_ready _ _ _ _ _ Hp Hb) as Hgr. destruct (program_facts _ _ _ _ Hp) as (Hinv & Hver & Hsz).
  destruct (backward_run h t Hinv Hver Hsz Hgr) as (h' & E & _). exists h'. split; [done|]. split; [eapply PBackward; [done|left; apply Hb|done]|].
  intros a i Ha1 Ha2 Ha3 Hi. destruct (derivative_exists h t a i Hinv Hgr) as [q Hq]. exists q. split; [done|]. split.
  - intros q' Hq'. by eapply derivative_unique.
  - eapply backward_derivative; try done. by eapply mb_no_means.
Qed.

(** a leaf the root does not depend on keeps its gradient *)
Lemma program_other ops H T h t h' a i : program ops H T h -> may_start h H T t -> exec (OBackward (Some t)) h = (Ok RUnit, h') ->
  a ∈ H -> ~ is_node h a -> ~ below h t a -> grad_value h' a i = grad_value h a i.
Proof.
  intros Hp Hb E Ha Hn Hnb. pose proof (program_ready _ _ _ _ _ Hp Hb) as Hgr. destruct (program_facts _ _ _ _ Hp) as (Hinv & Hver & Hsz).
  destruct (backward_run h t Hinv Hver Hsz Hgr) as (h1 & E1 & F & _). assert (h1 = h') as -> by congruence.
  destruct (program_GI _ _ _ _ Hp) as (D & G & HD). destruct (g_rec _ _ _ G a (HD a Ha)) as (r & Hr & _).
  destruct (ef_rec _ _ _ F a r Hr) as (r' & Hr' & S & _ & _ & _ & _ & Hk & _). destruct (Hk Hnb) as [_ Eg].
  unfold grad_value. rewrite Hr, Hr', Eg. destruct (t_grad r) as [g|] eqn:Eg0; [|done].
  assert (~ T a) as Ta by (intros [_ ?]%(g_sub _ _ _ G); done).
  assert (~ is_view h a) as Va by (intros (f & ? & _); apply Hn; by exists f).
  assert (tracked h a) as Ht. { exists r. split; [done|]. destruct (t_rg r) eqn:Erg; [done|]. destruct (g_const _ _ _ G a r (HD a Ha) Hr Erg). congruence. }
  destruct (g_grad _ _ _ G a r (HD a Ha) Ta Ht Va Hr) as [?|(s & Hs & _)]; [congruence|].
  pose proof Hs as (r1 & g1 & gr & L1 & L2 & L3 & L4 & L5 & L6 & L7). assert (r1 = r) as -> by congruence. assert (g1 = g) as -> by congruence.
  assert (forall x, below h t x -> D x) as HDb by (intros x; apply below_D; [apply (g_in _ _ _ G)|apply HD, Hb]).
  destruct (grad_exists D T h a s G (HD a Ha) Ta Va Hs) as [x Hx].
  assert (outside h t s) as Ho.
  { split; [by exists x|]. intros b (B1 & B2 & B3) Hbt Hbs. apply Hnb. rewrite (g_sep _ _ _ G a b s (HD a Ha) (HDb b B1) Ta (mb_first _ _ _ _ Hb b B1 Hbt) Va B3 Hs Hbs). done. }
  destruct (ef_rec _ _ _ F g gr L3) as (gr' & Hgr' & Sg & _). unfold value. rewrite Hgr', L3. do 1 f_equal. unfold contents.
  rewrite (kept_elem h h' gr gr' i Sg); [done|]. rewrite L7. by rewrite Hx, (ef_sto _ _ _ F s x Ho Hx).
Qed.

(** ** zero_grad() clears one gradient and keeps the others *)
Lemma vf_zero n : vf (replicate n 0%Qc) = replicate n (Some (@VF Exact 0%Qc)).
Proof. unfold vf. induction n; [done|]. cbn [replicate map]. by rewrite IHn. Qed.
Lemma zero_cells h r i n : cells h (t_sto r) = Some (replicate n (Some (@VF Exact 0%Qc))) -> num (contents h r i) = 0%Qc.
Proof.
  intros E. unfold contents, elem. rewrite E. destruct (0 <=? _); [|done]. destruct (replicate _ _ !! _) as [c|] eqn:Ec; [|done].
  apply lookup_replicate in Ec as [-> _]. done.
Qed.
Lemma program_zero ops H T h a r h' : program ops H T h -> at_hand h H a r -> ~ is_node h a -> exec (OZeroGrad (Some a)) h = (Ok RUnit, h') ->
  (forall i, grad_value h' a i = 0%Qc) /\ (forall b j, b ∈ H -> ~ is_node h b -> b <> a -> grad_value h' b j = grad_value h b j) /\
  (forall b j, b ∈ H -> value h' b j = value h b j).
Proof.
  intros Hp [HaH Ha] Hn E. destruct (program_facts _ _ _ _ Hp) as (Hinv & Hver & Hsz). destruct (program_GI _ _ _ _ Hp) as (D & G & HD).
  pose proof (HD a HaH) as Da. assert (forall b, ~ is_node h b -> ~ T b /\ ~ is_view h b) as Hlf.
  { intros b Hb. split; [intros [_ ?]%(g_sub _ _ _ G); done|intros (f & ? & _); apply Hb; by exists f]. }
  destruct (Hlf a Hn) as [Ta Va].
  destruct (t_grad r) as [g|] eqn:Eg. 2:{ rewrite (zero_grad_none h a r Ha Eg) in E. injection E as <-. split; [|done]. intros i. unfold grad_value. by rewrite Ha, Eg. }
  destruct (t_rg r) eqn:Erg; [|destruct (g_const _ _ _ G a r Da Ha Erg); congruence].
  destruct (g_grad _ _ _ G a r Da Ta ltac:(by exists r) Va Ha) as [?|(s & Hs & Hb)]; [congruence|].
  pose proof Hs as (r1 & g1 & gr & L1 & L2 & L3 & L4 & L5 & L6 & L7). assert (r1 = r) as -> by congruence. assert (g1 = g) as -> by congruence.
  cbn [exec] in E. unfold deref, no_result, zero_grad in E. rewrite bind_ret, bind_assoc in E. erewrite bind_ok in E by (by apply get_ten_ok). rewrite Eg in E.
  rewrite bind_assoc in E. erewrite bind_ok in E by (by apply get_ten_ok). rewrite L7 in E.
  destruct Hb as [Hb|(_ & qs & Hb & Hl)].
  - assert (sto_zero s h = (Ok tt, h)) as Ez. { unfold sto_zero. erewrite bind_ok by (by apply get_sto_ok). done. }
    erewrite bind_ok in E by exact Ez. injection E as <-. split; [|done]. intros i. unfold grad_value, value. rewrite Ha, Eg, L3. unfold contents, elem, cells. by rewrite L7, Hb.
  - assert (floating (t_dt r) = true) as Hfl. { pose proof (ok_rg _ _ _ (Hinv a r Ha) Erg) as Hf. by destruct (t_dt r). }
    erewrite bind_ok in E by (by eapply sto_zero_at). injection E as <-. set (h' := put _ _ _).
    assert (forall s', s' <> s -> h_sto h' !! s' = h_sto h !! s') as Hne by (intros; unfold h'; by rewrite put_lookup_ne).
    assert (forall x rx i, t_sto rx <> s -> h_ten h !! x = Some rx -> value h' x i = value h x i) as Hv.
    { intros x rx i Hx Hrx. unfold value. change (h_ten h') with (h_ten h). rewrite Hrx. unfold contents. by rewrite (kept_elem h h' rx rx i ltac:(done) (Hne _ Hx)). }
    split; [|split].
    + intros i. unfold grad_value. change (h_ten h') with (h_ten h). rewrite Ha, Eg. unfold value. change (h_ten h') with (h_ten h). rewrite L3.
      eapply zero_cells. unfold cells, h'. rewrite L7. erewrite put_lookup by done. cbn [sto_blob]. f_equal. apply (vf_zero (length (map (fun q : Qc => Some (@VF Exact q)) qs))).
    + intros b j HbH Hnb Hba. destruct (g_rec _ _ _ G b (HD b HbH)) as (rb & Hrb & _). unfold grad_value. change (h_ten h') with (h_ten h). rewrite Hrb.
      destruct (t_grad rb) as [gb|] eqn:Egb; [|done]. destruct (Hlf b Hnb) as [Tb Vb].
      assert (tracked h b) as Htb. { exists rb. split; [done|]. destruct (t_rg rb) eqn:Erb; [done|]. destruct (g_const _ _ _ G b rb (HD b HbH) Hrb Erb). congruence. }
      destruct (g_grad _ _ _ G b rb (HD b HbH) Tb Htb Vb Hrb) as [?|(s' & Hs' & _)]; [congruence|].
      pose proof Hs' as (r1 & g1 & gr' & M1 & M2 & M3 & M4 & M5 & M6 & M7). assert (r1 = rb) as -> by congruence. assert (g1 = gb) as -> by congruence.
      eapply Hv; [|exact M3]. rewrite M7. intros ->. apply Hba. by apply (g_sep _ _ _ G b a s (HD b HbH) Da).
    + intros b j HbH. destruct (g_rec _ _ _ G b (HD b HbH)) as (rb & Hrb & _). eapply Hv; [|exact Hrb]. intros Es.
      apply (g_apart _ _ _ G a s Da Ta Va Hs). exists b, rb. split; [left; by apply HD|done].
Qed.
