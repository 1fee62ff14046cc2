(** The derivative with nodes held fast: it exists, is unique, and is what backward() adds. *)
From Verif.Proofs Require Export Cut2.
From Verif.Spec Require Export Cut.
From Verif.Model Require Export Exact Api.
#[local] Existing Instance Exact.
#[local] Existing Instance is_view_dec.

Lemma em_exists {A} (P : A -> Prop) (l : list A) : (forall x, x ∈ l -> P x \/ ~ P x) -> (exists x, x ∈ l /\ P x) \/ ~ exists x, x ∈ l /\ P x.
Proof.
  induction l as [|x l IH]; intros H; [right; by intros (? & ?%elem_of_nil & _)|].
  destruct (H x) as [Hx|Hx]; [apply elem_of_list_here|left; exists x; split; [apply elem_of_list_here|done]|].
  destruct IH as [(y & ? & ?)|Hn]; [intros y Hy; apply H; by apply elem_of_list_further|left; exists y; split; [by apply elem_of_list_further|done]|right].
  intros (y & [->|Hy]%elem_of_cons & Hp); [done|]. apply Hn. by exists y.
Qed.
Lemma em_filter {A} (P : A -> Prop) (l : list A) : (forall x, x ∈ l -> P x \/ ~ P x) -> exists l' : list A, forall x, x ∈ l' <-> x ∈ l /\ P x.
Proof.
  induction l as [|x l IH]; intros H; [exists []; intros x; split; [by intros ?%elem_of_nil|by intros [?%elem_of_nil _]]|].
  destruct IH as (l' & Hl'); [intros y Hy; apply H; by apply elem_of_list_further|]. destruct (H x) as [Hx|Hx]; [apply elem_of_list_here| |].
  - exists (x :: l'). intros y. rewrite !elem_of_cons, Hl'. naive_solver.
  - exists l'. intros y. rewrite !elem_of_cons, Hl'. naive_solver.
Qed.

Section cut.
Variables (h : heap) (ys : list nat) (h1 : heap) (t : nat).
Hypothesis Hcut : cut_heap h ys h1.
Hypothesis Hinv : tinv h.
Hypothesis Hgb : grad_base h t.
Hypothesis Hgr : tan_ready h t.
Hypothesis Hrt : exists r f, h_ten h !! t = Some r /\ t_fn r = Some f /\ t_rg r = true /\ t_lay r = contig (shape r) /\ size_prod (shape r) = 1 /\ ~ is_view h t.
Hypothesis Ht : t ∉ ys.
Hypothesis Hinv1 : tinv h1.
Hypothesis Hver1 : vinv h1.
Hypothesis Hsz1 : sized h1.
Hypothesis Hfit : cut_fits h1 t.

Lemma root_node1 : is_node h1 t.
Proof. rewrite (cut_node h ys h1 Hcut). destruct Hrt as (r & f & Hr & Hf & _). exists f. unfold fn_of. by rewrite Hr. Qed.
Lemma nodes1 : exists R, nodes_below h1 t R.
Proof. destruct (cut_root h ys h1 t Hcut Hrt Ht) as (r & f & Hr & Hf & _). by apply (nodes_exist h1 t Hinv1 r f). Qed.
Lemma unpassed_em x : unpassed h1 x \/ ~ unpassed h1 x.
Proof.
  unfold unpassed. destruct (h_ten h1 !! x) as [r|] eqn:Er; [|right; by intros (? & ? & ? & _)].
  destruct (t_fn r) as [f|] eqn:Ef; [|right; intros (? & ? & ? & ? & _); congruence].
  destruct (t_rg r) eqn:Eg; [|right; intros (? & ? & ? & _ & ? & _); congruence].
  destruct (decide (gf_acc f = 0)) as [Ha|Ha]; [left; by exists r, f|right; intros (r' & f' & ? & ? & _ & ?); congruence].
Qed.
Lemma open_em x : below h1 t x -> is_node h1 x -> open h1 t x \/ ~ open h1 t x.
Proof.
  intros Hb Hn. destruct nodes1 as (R & _ & HR).
  destruct (em_exists (fun c => below h1 c x /\ c <> t /\ ~ unpassed h1 c) R) as [(c & Hc & H1 & H2 & H3)|Hno].
  - intros c [_ Nc]%HR. destruct (below_em h1 c x Hinv1 Hver1 Nc) as [?|?]; [|right; by intros (? & _)].
    destruct (decide (c = t)) as [?|?]; [right; by intros (_ & ? & _)|]. destruct (unpassed_em c); [right; by intros (_ & _ & ?)|by left].
  - right. intros (_ & _ & Ho). apply HR in Hc as [Bc Nc]. by apply H3, Ho.
  - left. split; [done|]. split; [done|]. intros c H1 H2 H3. destruct (unpassed_em c) as [?|Hu]; [done|]. destruct Hno. exists c.
    split; [apply HR; split; [done|by eapply between_node]|]. done.
Qed.
(** the nodes that do not follow their rule *)
Lemma held : exists kp : list nat, forall x, x ∈ kp <-> below h t x /\ is_node h x /\ (~ open h1 t x /\ ~ is_view h x \/ x ∈ ys).
Proof.
  destruct nodes1 as (R & _ & HR). destruct (em_filter (fun x => ~ open h1 t x /\ ~ is_view h x \/ x ∈ ys) R) as (kp & Hkp).
  - intros x [Hb Hn]%HR. destruct (open_em x Hb Hn), (decide (is_view h x)), (decide (x ∈ ys)); tauto.
  - exists kp. intros x. rewrite Hkp, HR, (cut_below h ys h1 Hcut), (cut_node h ys h1 Hcut). tauto.
Qed.
Lemma open_keeps x : open h1 t x -> x ∉ ys.
Proof.
  intros (Hb & _ & Ho). destruct (decide (x = t)) as [->|Hne]; [done|]. destruct (Ho x Hb (below_root _ _) Hne) as (r & f & Hr & _ & Hg & _).
  assert (tracked h1 x) as [_ ?]%(cut_tracked h ys h1 Hcut) by (by exists r). done.
Qed.
Lemma derivative_open_exists a i : ~ is_node h1 a -> tracked h1 a -> exists q, derivative_open h1 t a i q.
Proof.
  intros Na [Ta Ya]%(cut_tracked h ys h1 Hcut). rewrite (cut_node h ys h1 Hcut) in Na. destruct held as (kp & Hkp).
  set (e := fun (x : nat) (idx : list Z) => if decide (x = a /\ idx = i) then 1%Qc else 0%Qc).
  assert (forall x idx, is_node h x -> e x idx = 0%Qc) as He. { intros x idx Hn. unfold e. rewrite decide_False; [done|]. by intros [-> _]. }
  assert (fixed_at h e kp) as K.
  { intros x (Hb & Hn & _)%Hkp. split; [|intros _ j; by apply He]. by apply (tr_live _ _ Hgr). }
  exists (tan h e kp t (map (fun _ => 0) (shape_of h1 t))), (tan h e kp). split; [split_and!|split; [|done]].
  - intros x f Hb%(cut_below h ys h1 Hcut) Hf Hor. rewrite (cut_rule h ys h1 Hcut). rewrite (cut_fn h ys h1 Hcut) in Hf. apply (tan_rule h t Hinv Hgr e kp K); [done| |done].
    intros (_ & _ & [[Ho Hv]|Hy])%Hkp; destruct Hor as [Ho'|[Hv' [_ Ty]%(cut_tracked h ys h1 Hcut)]]; try done.
    + by rewrite (cut_view h ys h1 Hcut) in Hv'.
    + by apply open_keeps in Ho'.
  - intros x idx Hb Hn Ho Hv. rewrite (cut_below h ys h1 Hcut) in Hb. rewrite (cut_node h ys h1 Hcut) in Hn. rewrite (cut_view h ys h1 Hcut) in Hv.
    rewrite (tan_leaf h t Hinv Hgr e kp); [by apply He|]. left. apply Hkp. auto.
  - intros x idx Hb Hx. rewrite (cut_below h ys h1 Hcut) in Hb. destruct (decide (tracked h x)) as [Tx|Tx]; [|by apply (tan_untracked h t Hinv Hgr e kp K)].
    assert (x ∈ ys) as Hy. { destruct (decide (x ∈ ys)); [done|]. destruct Hx. by apply (cut_tracked h ys h1 Hcut). }
    destruct (fn_of h x) as [f|] eqn:Ef.
    + assert (is_node h x) as Hn by (by exists f). rewrite (tan_leaf h t Hinv Hgr e kp); [by apply He|]. left. apply Hkp. auto.
    + assert (~ is_node h x) as Hn by (intros [? ?]; congruence). rewrite (tan_leaf h t Hinv Hgr e kp) by auto. unfold e. rewrite decide_False; [done|]. by intros [-> _].
  - intros x idx Hb Hn [Tx _]%(cut_tracked h ys h1 Hcut). rewrite (cut_node h ys h1 Hcut) in Hn. rewrite (tan_leaf h t Hinv Hgr e kp); [done|]. by right.
Qed.
Lemma derivative_open_unique a i q q' : derivative_open h1 t a i q -> derivative_open h1 t a i q' -> q = q'.
Proof.
  intros (d & (R1 & R2 & R3) & Hd & ->) (d' & (R1' & R2' & R3') & Hd' & ->). destruct held as (kp & Hkp). rewrite (cut_shape h ys h1 Hcut).
  assert (forall x f, below h t x -> x ∉ kp -> fn_of h x = Some f -> open h1 t x \/ is_view h1 x /\ tracked h1 x) as Hor.
  { intros x f Hb Hx Hf. assert (is_node h x) as Hn by (by exists f). assert (x ∉ ys) as Hy by (intros ?; apply Hx, Hkp; auto).
    destruct (open_em x) as [?|Ho]; [by apply (cut_below h ys h1 Hcut)|by apply (cut_node h ys h1 Hcut)|by left|right].
    destruct (decide (is_view h x)) as [Hv|Hv]; [|destruct Hx; apply Hkp; auto]. split; [by apply (cut_view h ys h1 Hcut)|].
    apply (cut_tracked h ys h1 Hcut). split; [|done]. by apply (tr_live _ _ Hgr). }
  assert (forall x idx, below h t x -> x ∈ ys \/ ~ tracked h x -> d x idx = 0%Qc /\ d' x idx = 0%Qc) as Hz.
  { intros x idx Hb Hx. assert (~ tracked h1 x) as Hx' by (rewrite (cut_tracked h ys h1 Hcut); naive_solver).
    split; [apply R3|apply R3']; try done; by apply (cut_below h ys h1 Hcut). }
  apply (tangent_unique_but h t Hinv Hgr kp d d').
  - intros x f Hb Hx Hf. rewrite <- (cut_rule h ys h1 Hcut). apply R1; [by apply (cut_below h ys h1 Hcut)|by rewrite (cut_fn h ys h1 Hcut)|by eapply Hor].
  - intros x f Hb Hx Hf. rewrite <- (cut_rule h ys h1 Hcut). apply R1'; [by apply (cut_below h ys h1 Hcut)|by rewrite (cut_fn h ys h1 Hcut)|by eapply Hor].
  - intros x idx Hb Hx. apply Hz; auto.
  - intros x idx Hb Hx. apply Hz; auto.
  - intros x idx Hb Hx _. destruct (decide (x ∈ ys)) as [Hy|Hy]; [by destruct (Hz x idx Hb) as [-> ->]; auto|].
    destruct Hx as [(_ & Hn & [[Ho Hv]|?])%Hkp|[Hn Tx]]; [| done|].
    + rewrite R2, R2'; [done|rewrite ?(cut_below h ys h1 Hcut), ?(cut_node h ys h1 Hcut), ?(cut_view h ys h1 Hcut); done..].
    + rewrite Hd, Hd'; [done|rewrite ?(cut_below h ys h1 Hcut), ?(cut_node h ys h1 Hcut), ?(cut_tracked h ys h1 Hcut); done..].
  - constructor.
  - destruct Hrt as (r & f & Hr & _ & _ & _ & Hone & _). unfold shape_of, lay_of. rewrite Hr. fold (shape r).
    destruct (tr_data _ _ Hgr t r ltac:(constructor) Hr) as [Hh _]. pose proof (holds_nonneg _ _ _ Hh) as Hn.
    pose proof (size_prod_one _ Hn Hone) as Ho. unfold shape. clear - Ho. unfold shape in Ho. induction Ho as [|x ss -> Ho IH]; constructor; [lia|done].
Qed.
Hypothesis Hset : settled h1 t.
Hypothesis Hmn : forall x, open h1 t x -> x <> t -> ~ is_mean h x.
Lemma backward_cuts : exists h', exec (OBackward (Some t)) h1 = (Ok RUnit, h') /\ open_effect h1 t h' /\
  forall a i, below h1 t a -> ~ is_node h1 a -> tracked h1 a -> in_range (shape_of h1 a) i ->
    exists q, derivative_open h1 t a i q /\ (forall q', derivative_open h1 t a i q' -> q' = q) /\ grad_value h' a i = (grad_value h1 a i + q)%Qc.
Proof.
  pose proof (cut_ready h ys h1 t Hcut Hinv Hgb Hgr Hrt Ht Hfit) as Hb1. pose proof (cut_root h ys h1 t Hcut Hrt Ht) as Hroot.
  destruct (leaves_exist h1 t Hinv1 Hver1 root_node1) as (ls & Hls).
  assert (forall d, obeys_open h1 t d -> exists h', backward t h1 = (Ok tt, h') /\ pairing h' ls d = (pairing h1 ls d + sum_over (shape_of h1 t) (d t))%Qc /\ open_effect h1 t h') as K.
  { intros d Hd. apply backward_open; try done.
    - intros x f Ho Hf. apply (cut_window h ys h1 t Hcut Hinv Hgb Hgr Hrt Ht Hfit); [apply Ho|done|by left].
    - intros x Ho Hne Hm. apply (Hmn x Ho Hne). by apply (cut_mean h ys h1 Hcut). }
  assert (exists h', backward t h1 = (Ok tt, h') /\ open_effect h1 t h') as (h' & E & F).
  { destruct (K (fun _ _ => 0%Qc)) as (h' & ? & _ & ?); [|by exists h']. split; [|done]. intros x f Hb%(cut_below h ys h1 Hcut) Hf _.
    rewrite (cut_rule h ys h1 Hcut). rewrite (cut_fn h ys h1 Hcut) in Hf. by apply (tan_zero_rules h t Hinv Hgr). }
  exists h'. split; [cbn [exec]; unfold deref, no_result; cbn; unfold bind; by rewrite E|]. split; [done|].
  intros a i Ba Na Ta Hi. destruct (derivative_open_exists a i Na Ta) as (q & Hq). exists q. split; [done|]. split; [intros q' Hq'; by eapply derivative_open_unique|].
  destruct Hq as (d & Hd & He & ->). destruct (K d Hd) as (h2 & E2 & P & _). assert (h2 = h') as -> by congruence. clear K E2.
  destruct Hls as [Hnd Hls]. assert (a ∈ ls) as Hal by (by apply Hls).
  assert (forall x idx, x ∈ ls -> d x idx = if decide (x = a /\ idx = i) then 1%Qc else 0%Qc) as He'. { intros x idx (K0 & K1 & K2)%Hls. by apply He. }
  assert (shape_of h' a = shape_of h1 a) as Hsh.
  { destruct Ta as (r & Hr & _). destruct (oe_rec _ _ _ F a r Hr) as (r' & Hr' & (_ & S2 & _) & _). unfold shape_of, lay_of. by rewrite Hr, Hr', S2. }
  assert (Forall (fun n => 0 <= n) (shape_of h1 a)) as Hn. { rewrite (cut_shape h ys h1 Hcut). apply (below_sizes h t Hgr). by apply (cut_below h ys h1 Hcut). }
  rewrite (pairing_unit h1 ls d a i), (pairing_unit h' ls d a i) in P; rewrite ?Hsh; try done. rewrite P. f_equal.
  destruct Hroot as (r & f & Hr & _ & _ & _ & Hone & _). apply one_index; [|unfold shape_of, lay_of; by rewrite Hr].
  rewrite (cut_shape h ys h1 Hcut). apply (below_sizes h t Hgr). constructor.
Qed.
End cut.

(** the calls *)
Lemma cut_one h y r : h_ten h !! y = Some r -> exists h1, exec (ORequires (Some y) false) h = (Ok RUnit, h1) /\ cut_heap h [y] h1.
Proof.
  intros Hr. exists (Hp (h_sto h) (<[y := with_rg r false]> (h_ten h)) (h_ver h)). split.
  - cbn [exec]. unfold deref, no_result, set_requires_grad, get_ten, set_ten, bind. cbn. by rewrite Hr.
  - split; [done|]. split; [done|]. intros x. cbn [h_ten]. destruct (decide (x = y)) as [->|Hne].
    + rewrite list_lookup_insert by (by eapply lookup_lt_Some). rewrite Hr. unfold fmap, option_fmap, option_map. by rewrite decide_True by apply elem_of_list_here.
    + rewrite list_lookup_insert_ne by done. destruct (h_ten h !! x) as [r'|]; [|done]. unfold fmap, option_fmap, option_map.
      by rewrite decide_False by (by intros ?%elem_of_list_singleton).
Qed.
Lemma cut_both h xs h1 ys h2 : cut_heap h xs h1 -> cut_heap h1 ys h2 -> cut_heap h (xs ++ ys) h2.
Proof.
  intros (A1 & A2 & A3) (B1 & B2 & B3). split; [congruence|]. split; [congruence|]. intros x. rewrite B3, A3. destruct (h_ten h !! x) as [r|]; [|done]. unfold fmap, option_fmap, option_map. f_equal.
  repeat case_decide; try done; set_solver.
Qed.
Lemma cuts_run ys : forall h, (forall y, y ∈ ys -> is_Some (h_ten h !! y)) -> exists h1, run h (cuts ys) = (Ok (map (fun _ => Ok RUnit) ys), h1) /\ cut_heap h ys h1.
Proof.
  induction ys as [|y ys IH]; intros h Hy.
  - exists h. split; [done|]. split; [done|]. split; [done|]. intros x. by destruct (h_ten h !! x).
  - destruct (Hy y) as [r Hr]; [apply elem_of_list_here|]. destruct (cut_one h y r Hr) as (h1 & E1 & C1). destruct (IH h1) as (h2 & E2 & C2).
    + intros x Hx. destruct C1 as (_ & _ & ->). destruct (Hy x) as [rx ->]; [by apply elem_of_list_further|]. by eexists.
    + exists h2. split; [|by apply (cut_both h [y] h1 ys)]. unfold cuts. cbn [map run]. rewrite E1. fold (cuts ys). by rewrite E2.
Qed.
Lemma run_app ops1 : forall h rs1 h1 ops2 rs2 h2, run h ops1 = (Ok rs1, h1) -> run h1 ops2 = (Ok rs2, h2) -> run h (ops1 ++ ops2) = (Ok (rs1 ++ rs2), h2).
Proof.
  induction ops1 as [|o ops IH]; intros h rs1 h1 ops2 rs2 h2 E1 E2; cbn [run app] in *.
  - injection E1 as <- <-. done.
  - destruct (exec o h) as [x h'] eqn:E. destruct x; try done; destruct (run h' ops) as [[rs| | |] h''] eqn:Er; try done; injection E1 as <- <-; by erewrite IH.
Qed.
(** ** programs that have passed some of the nodes before *)
Lemma GI_again D T h H t : tinv h -> GI D T h -> (forall x, x ∈ H -> D x) -> may_again h H T t ->
  grad_base h t /\ tan_ready h t /\
  exists r f, h_ten h !! t = Some r /\ t_fn r = Some f /\ t_rg r = true /\ t_lay r = contig (shape r) /\ size_prod (shape r) = 1 /\ ~ is_view h t.
Proof.
  intros Hinv G HD [M1 M2 M3 M4 M5 M6 M7 M8].
  assert (forall x, below h t x -> D x) as B by (intros x; apply below_D; [apply (g_in _ _ _ G)|by apply HD]).
  assert (tan_ready h t) as Htr.
  { split.
    - intros x r Hx Hr. destruct (g_rec _ _ _ G x (B x Hx)) as (r' & Hr' & Hh & Hf & _). assert (r' = r) as -> by congruence. done.
    - intros x f Hx Hf. destruct (g_node _ _ _ G x f (B x Hx) Hf) as (Hn & _). exact Hn.
    - intros x Hx Tx Hv. by apply (g_dense _ _ _ G x (B x Hx)).
    - intros x Hx [f Hf]. unfold fn_of in Hf. destruct (h_ten h !! x) as [r|] eqn:Hr; [|done]. exists r. split; [done|]. by destruct (g_free _ _ _ G x r f (B x Hx) Hr Hf). }
  assert (exists r f, h_ten h !! t = Some r /\ t_fn r = Some f /\ t_rg r = true /\ t_lay r = contig (shape r) /\ size_prod (shape r) = 1 /\ ~ is_view h t) as Hrt.
  { destruct M2 as [f Hf]. unfold fn_of in Hf. destruct (h_ten h !! t) as [r|] eqn:Er; [|done]. exists r, f. split; [done|]. split; [done|].
    destruct (g_free _ _ _ G t r f (HD t M1) Er Hf) as [Hg _]. split; [done|]. unfold lay_of, shape_of in *. unfold lay_of in *. rewrite Er in *. done. }
  assert (forall x s, below h t x -> x <> t -> has_grad h x s -> ~ T x) as HT.
  { intros x s Hx Nx (r & g & gr & Hr & Hg & _) Tx. pose proof (M7 x r Hx Nx Tx Hr). congruence. }
  assert (forall x, below h t x -> forall y, below h x y -> below h t y) as Btr.
  { intros x Hx y Hy. induction Hy; [done|]. by eapply below_in. }
  assert (forall x s, below h t x -> x <> t -> tracked h x -> has_grad h x s -> ~ is_view h x -> ~ data_sto h t s) as Hap.
  { intros x s Hx Nx Tx Hs Hv Hd. apply (g_apart _ _ _ G x s (B x Hx) (HT x s Hx Nx Hs) Hv Hs). destruct Hd as [(y & r & Hy & Hr & E)|(y & f & kg & r & Hy & Hf & Hk & Hr & E)].
    - exists y, r. split; [left; by apply B|done].
    - exists kg, r. split; [right; exists y, f; split; [by apply B|]; split; [done|]; rewrite Hk; apply elem_of_list_here|done]. }
  split; [|done]. split.
  - destruct Hrt as (r & f & ? & ? & ? & _). by exists r, f.
  - apply Htr.
  - intros x f kg rk Hb Hf Hk Hrk. pose proof (tr_node _ _ Htr x f Hb Hf) as Hn. rewrite Hk in Hn. simpl in Hn. destruct (gf_in f) as [|c [|]]; try done.
    destruct Hn as ((rk' & Hrk' & Hh) & _). by assert (rk' = rk) as -> by congruence.
  - intros x f Hb _ Hf _. by apply Htr.
  - apply Htr.
  - intros x r Hx Nx Tx Hv Hr. destruct (t_grad r) as [g|] eqn:Eg; [|by left].
    assert (~ T x) as Tx' by (intros ?; pose proof (M7 x r Hx Nx); naive_solver). destruct (g_grad _ _ _ G x r (B x Hx) Tx' Tx Hv Hr) as [?|?]; [congruence|by right].
  - intros x b Hx Nx Tx Hv Hb. apply (g_view _ _ _ G x b (B x Hx)); [|done|done]. intros y Hy. by apply (M8 x y).
  - intros x y s Hx Hy Nx Ny Vx Vy Tx Ty Gx Gy. by apply (g_sep _ _ _ G x y s (B x Hx) (B y Hy) (HT x s Hx Nx Gx) (HT y s Hy Ny Gy) Vx Vy).
  - intros x s Hx Nx Tx Hs. destruct (is_view_dec h x) as [Hv|Hv]; [|by apply (Hap x s)].
    destruct (view_base h x Hinv) as (b & Hb & Tb); [intros y f Hy; apply (g_node _ _ _ G), B; by eapply Btr|done|].
    assert (below h t b) as Bb by (eapply Btr; [done|by apply base_below]).
    assert (b <> t) as Nb. { intros ->. pose proof (below_le h t Hinv _ Hx). pose proof (below_le h x Hinv _ (base_below _ _ _ Hb)). lia. }
    destruct (g_view _ _ _ G x b (B x Hx)) as (s' & S1 & S2); [intros y Hy; by apply (M8 x y)|done|done|].
    rewrite (has_grad_fun h x s s' Hs S1). apply (Hap b s' Bb Nb Tb S2). by eapply base_not_view.
Qed.
Lemma start_again h H T t : tinv h -> may_backward h H T t -> may_again h H T t.
Proof.
  intros Hinv [[M1 M2 M3 M4 M5 M6] M7]. split; try done.
  - intros x r Hb Hne HT. by destruct (M6 x Hb Hne).
  - intros x y Hx Hv Hy. apply M6; [clear - Hx Hy; induction Hy; [done|]; by eapply below_in|].
    intros ->. pose proof (below_le h t Hinv _ Hx). pose proof (below_le h x Hinv _ Hy). assert (x = t) as -> by lia. done.
Qed.
Lemma program_again ops H T h t ys : program ops H T h -> may_again h H T t -> (forall y, y ∈ ys -> y ∈ H /\ y <> t) ->
  exists rs h1, run h (cuts ys) = (Ok rs, h1) /\ cut_heap h ys h1 /\ (settled h1 t -> cut_fits h1 t ->
    exists h', exec (OBackward (Some t)) h1 = (Ok RUnit, h') /\
      forall a i, below h1 t a -> ~ is_node h1 a -> tracked h1 a -> in_range (shape_of h1 a) i ->
        exists q, derivative_open h1 t a i q /\ (forall q', derivative_open h1 t a i q' -> q' = q) /\ grad_value h' a i = (grad_value h1 a i + q)%Qc).
Proof.
  intros Hp Hb Hys. destruct (program_facts _ _ _ _ Hp) as (Hinv & Hver & Hsz).
  destruct (program_GI _ _ _ _ Hp) as (D & G & HD). destruct (program_run _ _ _ _ Hp) as [Hs [rs0 E0]].
  destruct (GI_again D T h H t Hinv G HD Hb) as (Hgb & Htr & Hrt).
  destruct (cuts_run ys h) as (h1 & E1 & C1). { intros y [Hy _]%Hys. destruct (g_rec _ _ _ G y (HD y Hy)) as (r & -> & _). by eexists. }
  eexists _, h1. split; [exact E1|]. split; [done|]. intros Hset Hfit.
  assert (run empty_heap (ops ++ cuts ys) = (Ok (rs0 ++ map (fun _ => Ok RUnit) ys), h1)) as E2 by (by eapply run_app).
  assert (reachable h1) as Hre by (by eexists _, _).
  assert (Forall size_ok (ops ++ cuts ys)) as Hs1. { apply Forall_app. split; [done|]. unfold cuts. apply Forall_map, Forall_true. intros y. constructor. }
  destruct (backward_cuts h ys h1 t C1 Hinv Hgb Htr Hrt) as (h' & E & _ & K); try done.
  - intros Ht. by destruct (Hys t Ht).
  - by apply reachable_tinv.
  - by apply reachable_vinv.
  - by eapply sized_reached.
  - intros x (Hbx & _) Hne (f & Hf & Hk). apply Hne. by eapply (ma_mean _ _ _ _ Hb); [apply (cut_below h ys h1 C1)|..].
  - by exists h'.
Qed.
Lemma program_cut ops H T h t ys : program ops H T h -> may_backward h H T t -> (forall y, y ∈ ys -> y ∈ H /\ y <> t) ->
  exists rs h1, run h (cuts ys) = (Ok rs, h1) /\ cut_heap h ys h1 /\ (cut_fits h1 t ->
    exists h', exec (OBackward (Some t)) h1 = (Ok RUnit, h') /\
      forall a i, below h1 t a -> ~ is_node h1 a -> tracked h1 a -> in_range (shape_of h1 a) i ->
        exists q, derivative_open h1 t a i q /\ (forall q', derivative_open h1 t a i q' -> q' = q) /\ grad_value h' a i = (grad_value h1 a i + q)%Qc).
Proof.
  intros Hp Hb Hys. destruct (program_facts _ _ _ _ Hp) as (Hinv & Hver & _). pose proof (program_ready _ _ _ _ _ Hp Hb) as Hgr.
  destruct (program_again ops H T h t ys Hp (start_again _ _ _ _ Hinv Hb) Hys) as (rs & h1 & E1 & C1 & K).
  exists rs, h1. split; [done|]. split; [done|]. apply K.
  destruct (program_run _ _ _ _ Hp) as [_ [rs0 E0]]. assert (reachable h1) as Hre by (eexists _, _; by eapply run_app).
  destruct (gr_root _ _ Hgr) as (r & f & Hr & Hf & _). eapply (unwalked_settled h1 t (reachable_tinv _ Hre) (off ys t r) f); [by apply reachable_vinv|by rewrite (cut_ten h ys h1 C1), Hr| |].
  - rewrite <- Hf. apply off_same.
  - intros x r' g Hx%(cut_below h ys h1 C1) (r0 & Hr0 & ->)%(cut_inv h ys h1 C1) Hg Hne. destruct (off_same ys x r0) as (_ & _ & _ & _ & E & _). rewrite E in Hg.
    destruct (Deriv.gr_new _ _ Hgr x r0 g Hx Hr0 Hg) as [_ H']. by apply H'.
Qed.
(** without cuts *)
Lemma program_stale ops H T h t : program ops H T h -> may_again h H T t -> settled h t ->
  exists h', exec (OBackward (Some t)) h = (Ok RUnit, h') /\
    forall a i, below h t a -> ~ is_node h a -> tracked h a -> in_range (shape_of h a) i ->
      exists q, derivative_open h t a i q /\ (forall q', derivative_open h t a i q' -> q' = q) /\ grad_value h' a i = (grad_value h a i + q)%Qc.
Proof.
  intros Hp Hb Hset. destruct (program_facts _ _ _ _ Hp) as (Hinv & Hver & _). destruct (program_GI _ _ _ _ Hp) as (D & G & HD).
  destruct (GI_again D T h H t Hinv G HD Hb) as (_ & Htr & _).
  destruct (program_again ops H T h t [] Hp Hb) as (rs & h1 & E1 & _ & K); [by intros y ?%elem_of_nil|].
  cbn [cuts map run] in E1. injection E1 as _ <-. apply K; [done|]. intros x f Hx Hf Hk a Ha. pose proof (tr_node _ _ Htr x f Hx Hf) as Hn.
  destruct Hk as [[Hk _]|[Hk _]]; rewrite Hk in Hn; cbn in Hn; destruct (gf_in f) as [|c [|e [|]]]; try done.
  - apply elem_of_list_singleton in Ha as ->. apply Hn.
  - destruct Hn as (_ & _ & _ & _ & H1 & H2 & _). apply elem_of_cons in Ha as [->|Ha]; [done|]. by apply elem_of_list_singleton in Ha as ->.
Qed.
