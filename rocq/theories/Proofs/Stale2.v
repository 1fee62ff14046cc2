(** Histories: which nodes a pass of backward() reaches and what it writes. *)
From Verif.Proofs Require Export Stale Frame4 Flags Alive Own.
From Verif.Spec Require Export Stale.
From Verif.Model Require Export Api.

Section with_fops.
Context {fo : FOps}.
Notation any := (fun _ _ => True).

Lemma pass_inputs h t P h1 x : open h t x ->
  (forall y r, h_ten h !! y = Some r -> exists r', h_ten h1 !! y = Some r' /\ passed_over h t P y r r') -> inputs h1 x = inputs h x.
Proof.
  intros (Hb & [f Hf] & _) HP. unfold inputs. rewrite Hf. unfold fn_of in *. destruct (h_ten h !! x) as [r|] eqn:Er; [|done].
  destruct (HP x r Er) as (r' & -> & _ & _ & _ & _ & _ & _ & _ & Hfn). destruct (Hfn f Hf Hb) as (f' & -> & _ & E & _). done.
Qed.
(** what backward() checks of its root *)
Definition starts (h : heap) (t : nat) : Prop :=
  exists r f, h_ten h !! t = Some r /\ t_rg r = true /\ t_fn r = Some f /\ lnumel (t_lay r) = 1.
Lemma may_starts ops rs h t : Forall size_ok ops -> run empty_heap ops = (Ok rs, h) -> may_start h t -> starts h t.
Proof.
  intros Hz E (r & Hr & Hrg & [f Hf] & Hone). unfold fn_of in Hf. rewrite Hr in Hf. exists r, f. split; [done|]. split; [done|]. split; [done|].
  eapply one_numel; [by eapply sized_reached|done|done].
Qed.
Lemma ok_starts h t h' : backward t h = (Ok tt, h') -> starts h t.
Proof.
  intros E. unfold backward, bind in E. destruct (get_ten t h) as [[r|?|?|] h1] eqn:Eg; try done. apply get_ten_inv in Eg as [Hr ->].
  exists r. destruct (t_rg r); [|done]. destruct (t_fn r) as [f|]; [|done]. destruct (Z.eqb_spec (lnumel (t_lay r)) 1); [|done]. by exists f.
Qed.
(** the pass with its frame *)
Lemma pass_hist ops rs h t (J : list nat -> heap -> Prop) : Forall size_ok ops -> run empty_heap ops = (Ok rs, h) ->
  starts h t -> settled h t -> (forall h1, prepare t h = (Ok tt, h1) -> J [] h1) ->
  (forall P x h1 new h', open h t x -> (forall y r, h_ten h !! y = Some r -> exists r', h_ten h1 !! y = Some r' /\ passed_over h t P y r r') ->
    sized h1 -> J P h1 -> process x h1 = (Ok new, h') -> J (P ++ [x]) h') ->
  exists order, backward t h = (prepare t ;;; process_all order) h /\ NoDup order /\
  (forall k x, order !! k = Some x -> open h t x /\ forall c, below h t c -> x ∈ inputs h c -> c ∈ take k order) /\
  (forall h', backward t h = (Ok tt, h') ->
    (forall x, x ∈ order <-> open h t x) /\
    (forall x r, h_ten h !! x = Some r -> exists r', h_ten h' !! x = Some r' /\ passed_over h t order x r r') /\
    kept_outside (operand_grad_buffer h t) h h' /\ J order h').
Proof.
  intros Hz E (r & f & Hr & Hrg & Hf & Hone) Hall HJ0 HJ.
  assert (reachable h) as Hre by (by exists ops, rs). pose proof (sized_reached ops rs h Hz E) as Hs.
  set (K := fun s => ~ operand_grad_buffer h t s). set (W := fun y => exists x, open h t x /\ y ∈ inputs h x).
  assert (ng K h W h) as Hg.
  { split; [done|]. intros y ry g (x & Hx & Hy) Hry Hgy. destruct (reachable_grads_exist h Hre y ry g Hry Hgy) as [gr Hgr].
    exists gr. split; [done|]. left. intros Hn. apply Hn. by exists x, y, ry, g, gr. }
  destruct (backward_pass_with h t r f (reachable_tinv h Hre) (reachable_vinv h Hre) Hs Hr Hf Hrg Hone Hall
    (fun P h1 => ng K h W h1 /\ J P h1)) as (order & H1 & H2 & H3 & H4 & _).
  - intros h1 E1. split; [|by apply HJ0]. pose proof (nk_prepare K h W t h Hg) as Hp. unfold nk, wp in Hp. rewrite E1 in Hp. by destruct Hp.
  - intros P x h1 new h' Hx HP Hs1 [Hg1 HJ1] Ep. split; [|by eapply HJ]. pose proof (pass_inputs h t P h1 x Hx HP) as Ein.
    pose proof (nk_process K h W x h1) as Hp. unfold nk, wp in Hp. rewrite Ep, Ein in Hp. apply Hp; [|done].
    apply Forall_forall. intros y Hy. by exists x.
  - exists order. split; [done|]. split; [done|]. split; [done|]. intros h' E'. destruct (H4 h' E') as (H5 & H6 & [[Hk _] H7]).
    split; [done|]. split; [done|]. split; [|done]. by apply kept_kept_outside.
Qed.
Lemma reached_hist ops rs h t : Forall size_ok ops -> run empty_heap ops = (Ok rs, h) -> may_start h t -> settled h t ->
  exists order, backward t h = (prepare t ;;; process_all order) h /\ NoDup order /\
  (forall k x, order !! k = Some x -> open h t x /\ forall c, below h t c -> x ∈ inputs h c -> c ∈ take k order) /\
  (forall h', backward t h = (Ok tt, h') ->
    (forall x, x ∈ order <-> open h t x) /\
    (forall x r, h_ten h !! x = Some r -> exists r', h_ten h' !! x = Some r' /\ passed_over h t order x r r') /\
    kept_outside (operand_grad_buffer h t) h h').
Proof.
  intros Hz E Hm Hs. apply (may_starts ops rs) in Hm; [|done|done]. destruct (pass_hist ops rs h t (fun _ _ => True) Hz E Hm Hs) as (order & H1 & H2 & H3 & H4); [done|done|].
  exists order. split; [done|]. split; [done|]. split; [done|]. intros h' E'. destruct (H4 h' E') as (? & ? & ? & _). done.
Qed.
Lemma exec_backward t h h' : exec (OBackward (Some t)) h = (Ok RUnit, h') <-> backward t h = (Ok tt, h').
Proof.
  cbn [exec]. unfold deref, no_result. rewrite bind_ret. unfold bind. destruct (backward t h) as [[[]|?|?|] h1]; simpl; split; intros H; by inversion H.
Qed.

(** without backward() all counters are zero *)
Definition counts_zero (h : heap) : Prop := forall x r f, h_ten h !! x = Some r -> t_fn r = Some f -> gf_acc f = 0.
Lemma counts_exec o h : (forall t, o <> OBackward t) -> counts_zero h -> counts_zero (exec o h).2.
Proof.
  intros Ho Hz. assert ((exists a, o = ORequires a false) \/ forall a, o <> ORequires a false) as [[a ->]|Hn].
  { destruct o; try (by right); match goal with b : bool |- _ => destruct b end; [by right|left; by eexists]. }
  - pose proof (flagged_requires a false h) as H. destruct (exec (ORequires a false) h) as [[v|e|u|] h'] eqn:E; simpl; try (by rewrite H).
    destruct H as (y & r & -> & Hr & Eh). intros x rx f Hx Hf. rewrite Eh in Hx. destruct (decide (y = x)) as [->|Hne].
    + rewrite list_lookup_insert in Hx by (by eapply lookup_lt_Some). injection Hx as <-. simpl in Hf. by eapply Hz.
    + rewrite list_lookup_insert_ne in Hx by done. by eapply Hz.
  - destruct (fk_out _ _ _ (fk_exec o h Ho Hn)) as [_ H]. intros x r f Hr Hf. destruct (H x r f Hr Hf) as [[(_ & ? & _) _]|(r0 & Hr0 & Hf0 & _)]; [done|].
    by eapply Hz.
Qed.
Lemma counts_run ops : forall h rs h', (forall t, OBackward t ∉ ops) -> counts_zero h -> run h ops = (Ok rs, h') -> counts_zero h'.
Proof.
  induction ops as [|o ops IH]; intros h rs h' Ho Hz E; cbn [run] in E.
  - by injection E as _ <-.
  - pose proof (counts_exec o h) as H. destruct (exec o h) as [r h1] eqn:E1. simpl in H.
    assert (exists rs', run h1 ops = (Ok rs', h')) as [rs' E2].
    { destruct r; try done; destruct (run h1 ops) as [[l|?|?|] h2]; try done; exists l; by inversion E. }
    eapply IH; [|apply H; [|done]|done].
    + intros t Ht. apply (Ho t). by right.
    + intros t ->. apply (Ho t). by left.
Qed.
Lemma nobackward_unwalked ops rs h t : (forall u, OBackward u ∉ ops) -> run empty_heap ops = (Ok rs, h) -> unwalked h t.
Proof.
  intros Ho E x r f _ Hr Hf _. eapply (counts_run ops empty_heap rs h Ho); [|done|done|done].
  intros y ry fy Hy. cbn in Hy. by rewrite lookup_nil in Hy.
Qed.

Section graph.
Context (h : heap) (t : nat) (Hinv : tinv h).
Lemma node_rec x : is_node h x -> exists r f, h_ten h !! x = Some r /\ t_fn r = Some f.
Proof. intros [f Hf]. unfold fn_of in Hf. destruct (h_ten h !! x) as [r|]; [|done]. by exists r, f. Qed.
Lemma between_node c x : below h c x -> is_node h x -> is_node h c.
Proof. induction 1 as [|x y Hx IH Hy]; [done|]. intros _. apply IH. by eapply node_of_input. Qed.
Lemma used_times R x : (forall x, x ∈ R <-> below h t x /\ is_node h x) -> below h t x -> x <> t -> 1 <= times h R x.
Proof.
  intros HR Hb Hne. destruct Hb as [|c x Hc Hx]; [done|]. rewrite times_uses.
  assert (c ∈ R) as HcR. { apply HR. split; [done|]. by eapply node_of_input. }
  destruct (Z.eq_dec (uses (inputs h) R x) 0) as [E|E]; [|pose proof (uses_nonneg (inputs h) R x); lia].
  exfalso. by eapply (uses_zero _ _ _ E c).
Qed.
Lemma nodes_exist r f : vinv h -> h_ten h !! t = Some r -> t_fn r = Some f -> exists R, nodes_below h t R.
Proof.
  intros Hv Hr Hf. destruct (refresh_ok h t f Hinv Hv) as (R & h1 & _ & HdR & HR & _); [unfold fn_of; by rewrite Hr|].
  by exists R.
Qed.
Lemma unwalked_settled r f : vinv h -> h_ten h !! t = Some r -> t_fn r = Some f -> unwalked h t -> settled h t.
Proof.
  intros Hv Hr Hf Hu x Hb Hn Hne. destruct (node_rec x Hn) as (rx & fx & Hrx & Hfx). pose proof (Hu x rx fx Hb Hrx Hfx Hne) as Hz.
  destruct (t_rg rx) eqn:Erg; [left; by exists rx, fx|right]. destruct (nodes_exist r f Hv Hr Hf) as (R & HdR & HR).
  exists rx, fx, R. split; [done|]. split; [done|]. split; [done|]. rewrite Erg, Hz. pose proof (used_times R x HR Hb Hne). lia.
Qed.
Lemma open_cut x : unwalked h t -> below h t x -> is_node h x -> (open h t x <-> ~ cut_above h t x).
Proof.
  intros Hu Hb Hn. split.
  - intros (_ & _ & Ho) (c & Hbc & Hcx & Hct & rc & Hrc & Hf). destruct (Ho c Hbc Hcx Hct) as (r & f & Hr & _ & Ht & _). congruence.
  - intros Hc. split; [done|]. split; [done|]. intros c Hbc Hcx Hct. destruct (node_rec c) as (r & f & Hr & Hf); [by eapply between_node|].
    exists r, f. split; [done|]. split; [done|]. split; [|by eapply Hu]. destruct (t_rg r) eqn:E; [done|]. exfalso. apply Hc. exists c.
    split; [done|]. split; [done|]. split; [done|]. by exists r.
Qed.
End graph.

(** C53: what requires_grad(false) on intermediates stops *)
Lemma success_hist ops rs h t h' : Forall size_ok ops -> run empty_heap ops = (Ok rs, h) ->
  (forall r f, h_ten h !! t = Some r -> t_fn r = Some f -> settled h t) -> exec (OBackward (Some t)) h = (Ok RUnit, h') ->
  exists order, NoDup order /\ (prepare t ;;; process_all order) h = (Ok tt, h') /\ (forall x, x ∈ order <-> open h t x) /\
    (forall x r, h_ten h !! x = Some r -> exists r', h_ten h' !! x = Some r' /\ passed_over h t order x r r') /\
    kept_outside (operand_grad_buffer h t) h h'.
Proof.
  intros Hz E Hs E'%exec_backward. pose proof (ok_starts _ _ _ E') as Hst. pose proof Hst as (r & f & Hr & _ & Hf & _).
  destruct (pass_hist ops rs h t (fun _ _ => True) Hz E Hst (Hs r f Hr Hf)) as (order & H1 & H2 & H3 & H4); [done|done|].
  destruct (H4 h' E') as (H5 & H6 & H7 & _). exists order. split; [done|]. split; [congruence|]. done.
Qed.
Lemma cut_hist ops rs h t h' a ra : Forall size_ok ops -> run empty_heap ops = (Ok rs, h) -> unwalked h t ->
  exec (OBackward (Some t)) h = (Ok RUnit, h') -> h_ten h !! a = Some ra -> t_fn ra = None -> t_rg ra = true -> t_grad ra = None ->
  exists ra', h_ten h' !! a = Some ra' /\
    (is_Some (t_grad ra') <-> exists p, below h t p /\ a ∈ inputs h p /\ ~ cut_above h t p).
Proof.
  intros Hz E Hu E' Ha Hfa Hra Hga. assert (reachable h) as Hre by (by exists ops, rs).
  destruct (success_hist ops rs h t h' Hz E) as (order & _ & _ & H5 & H6 & _); [|done|].
  { intros r f Hr Hf. eapply unwalked_settled; [by apply reachable_tinv|by apply reachable_vinv|done|done|done]. }
  assert (exists r f, h_ten h !! t = Some r /\ t_fn r = Some f) as (r & f & Hr & Hf).
  { apply exec_backward, ok_starts in E' as (r & f & ? & _ & ? & _). by exists r, f. }
  assert (a <> t) as Hne by congruence.
  destruct (H6 a ra Ha) as (ra' & Ha' & _ & _ & _ & K1 & _ & K2 & _). exists ra'. split; [done|]. split.
  - intros [g Hg]. assert (Exists (fun p => a ∈ inputs h p) order) as Hex.
    { destruct (decide (Exists (fun p => a ∈ inputs h p) order)) as [?|Hn]; [done|exfalso]. rewrite K1 in Hg; [congruence|done|].
      intros p Hp Hap. apply Hn, Exists_exists. by exists p. }
    apply Exists_exists in Hex as (p & Hp & Hap). apply H5 in Hp. pose proof Hp as (Hb & Hn & _). exists p. split; [done|]. split; [done|].
    by apply open_cut.
  - intros (p & Hb & Hap & Hc). apply K2; [done|done|]. exists p. split; [|done]. apply H5. apply open_cut; [done|done| |done]. by eapply node_of_input.
Qed.
(** in general: where only cut paths lead to [a], its gradient is not touched *)
Lemma uncut_hist ops rs h t h' a ra : Forall size_ok ops -> run empty_heap ops = (Ok rs, h) -> unwalked h t ->
  exec (OBackward (Some t)) h = (Ok RUnit, h') -> h_ten h !! a = Some ra -> a <> t ->
  (forall p, below h t p -> a ∈ inputs h p -> cut_above h t p) ->
  exists ra', h_ten h' !! a = Some ra' /\ t_grad ra' = t_grad ra.
Proof.
  intros Hz E Hu E' Ha Hne Hc. assert (reachable h) as Hre by (by exists ops, rs).
  destruct (success_hist ops rs h t h' Hz E) as (order & _ & _ & H5 & H6 & _); [|done|].
  { intros r f Hr Hf. eapply unwalked_settled; [by apply reachable_tinv|by apply reachable_vinv|done|done|done]. }
  destruct (H6 a ra Ha) as (ra' & Ha' & _ & _ & _ & K1 & _). exists ra'. split; [done|]. apply K1; [done|].
  intros p Hp%H5 Hap. pose proof Hp as (Hb & Hn & _). apply open_cut in Hp; [|done|done|done]. apply Hp. by apply Hc.
Qed.

(** C51: division with an operand that has no gradient and gets none *)
Definition gradless (h : heap) (c : nat) : Prop := exists r, h_ten h !! c = Some r /\ t_rg r = false /\ t_grad r = None.
Lemma sb_gradless l g h h' c : sb l g h h' -> gradless h c -> gradless h' c.
Proof.
  intros (_ & K & _) (r & Hr & Hrg & Hg). destruct (K c r Hr) as (r' & Hr' & _ & R & _ & _ & G & _). exists r'. split; [done|].
  split; [congruence|]. destruct G as [->|(_ & _ & ? & _)]; [done|congruence].
Qed.
Lemma div_step_gradless x a b h : sized h -> gradless h a \/ gradless h b -> nb (step_back x DivBack [a; b]) [a; b] [a; b] (fun _ _ => False) h.
Proof.
  intros Hs Hc. cbn [step_back]. do 2 (apply nb_deref; [done|]; intros ? [= <-]).
  apply (nb_bind _ _ [a] [b] [a] [b] any); [by apply nb_update|]. intros _ h1 Hs1 S1 _.
  assert (gradless h1 a \/ gradless h1 b) as Hc1 by (destruct Hc as [?|?]; [left|right]; by eapply sb_gradless).
  apply nb_get; [done|]. intros ar Har _. apply nb_deref; [done|]. intros ga Hga.
  assert (gradless h1 b) as Hb. { destruct Hc1 as [(r & ? & _ & ?)|?]; [congruence|done]. }
  apply nb_out_grad; [done|]. intros g. apply (nb_bind0 _ _ [b] [b] any).
  { apply nb_get; [done|]. intros dr _ Hd. apply nb_get; [done|]. intros lr _ Hl. apply nb_get; [done|]. intros rr _ Hr.
    apply nb_read; [apply reads_dispatch_ffi|apply nv_dispatch_ffi|done|]. intros _ _.
    apply nb_st; [apply st_div_num|by apply nv_div_num|done]. }
  intros _ h2 Hs2 S2 _. apply (nb_bind _ _ [b] [] [b] [] any); [by apply nb_update|]. intros _ h3 Hs3 S3 _.
  assert (gradless h3 b) as (rb & Hrb & _ & Hgb) by (eapply sb_gradless; [exact S3|]; by eapply sb_gradless).
  apply nb_get; [done|]. intros br Hbr _. apply nb_get; [done|]. intros me _ Hme.
  apply nb_read; [apply reads_dispatch_ff|apply nv_dispatch_ff|done|]. intros _ _.
  apply nb_deref; [done|]. intros gb Hgb'. congruence.
Qed.
Lemma div_process_gradless x f a b h new h' : sized h -> fn_of h x = Some f -> gf_kind f = DivBack -> gf_in f = [a; b] ->
  gradless h a \/ gradless h b -> process x h <> (Ok new, h').
Proof.
  intros Hs Hf Hk Hin Hg. unfold process. erewrite bind_ok by (by apply get_fn_ok). rewrite Hk, Hin.
  pose proof (div_step_gradless x a b h Hs Hg) as H. unfold nb, nd, wp in H. unfold bind at 1.
  destruct (step_back x DivBack [a; b] h) as [[?|?|?|] h1]; try done. by destruct H as (_ & _ & []).
Qed.
Lemma div_hist ops rs h t x f a b : Forall size_ok ops -> run empty_heap ops = (Ok rs, h) -> settled h t ->
  open h t x -> fn_of h x = Some f -> gf_kind f = DivBack -> inputs h x = [a; b] ->
  (exists c r, c ∈ [a; b] /\ h_ten h !! c = Some r /\ t_rg r = false /\ t_grad r = None) ->
  forall v h', exec (OBackward (Some t)) h <> (Ok v, h').
Proof.
  intros Hz E Hs Hx Hf Hk Hin (c & r & Hc & Hr & Hrg & Hg) v h' E'.
  assert (v = RUnit) as ->. { cbn [exec] in E'. unfold deref in E'. rewrite bind_ret in E'. unfold no_result, bind in E'.
    destruct (backward t h) as [[[]|?|?|] h1]; by inversion E'. }
  apply exec_backward in E'. pose proof (ok_starts _ _ _ E') as Hst.
  destruct (pass_hist ops rs h t (fun P _ => x ∉ P) Hz E Hst Hs) as (order & H1 & H2 & H3 & H4).
  - intros h1 _ ?%elem_of_nil. done.
  - intros P y h1 new h2 Hy HP Hs1 Hni Ep [?|Heq%elem_of_list_singleton]%elem_of_app; [done|]. subst y.
    pose proof Hx as (Hb & _). unfold fn_of in Hf. destruct (h_ten h !! x) as [rx|] eqn:Erx; [|done].
    destruct (HP x rx Erx) as (rx' & Hrx' & _ & _ & _ & _ & _ & _ & _ & Hfn). destruct (Hfn f Hf Hb) as (f' & Hf' & Hk' & Hin' & _).
    assert (gradless h1 c) as Hgc. { destruct (HP c r Hr) as (r' & Hr' & _ & R & _ & _ & G & _). exists r'. split; [done|]. split; [congruence|]. rewrite G; done. }
    apply (div_process_gradless x f' a b h1 new h2); [done|unfold fn_of; by rewrite Hrx'|congruence| | |].
    + rewrite Hin', <- Hin. unfold inputs, fn_of. by rewrite Erx, Hf.
    + rewrite elem_of_cons, elem_of_list_singleton in Hc. destruct Hc as [->| ->]; [by left|by right].
    + done.
  - destruct (H4 h' E') as (H5 & _ & _ & H6). by apply H6, H5.
Qed.

(** C51: division by a tensor of lower rank *)
Lemma ov_prepare t h : oinv h -> ov (prepare t) any h.
Proof.
  intros Hi. unfold prepare. apply ov_get; [done|]. intros r Hr%lookup_lt_Some.
  do 3 (apply ov_read; [reads_tac|done|]; intros _ _). eapply ov_bind; [by apply ov_refresh|]. intros _ h1 Hi1 Hl1 _.
  destruct (lookup_lt_is_Some_2 (h_ten h1) t) as [r1 Hr1]; [lia|].
  eapply ov_bind; [apply ov_nv; [done|by apply nv_ones_like_born]|]. intros o h2 Hi2 _ [N Hm]. apply ov_get; [done|]. intros r2 Hr2.
  pose proof Hm as [[M1 _] _]. assert (r2 = r1) as -> by (eapply news_get in Hr1; [|exact N]; congruence).
  eapply ov_bind; [eapply ov_set_grad; [done|done|lia|eapply born_like; [done|exact Hm|done|auto]]|].
  intros _ h3 Hi3 _ _. eapply ov_bind; [by apply ov_bump|]. intros v h4 Hi4 _ _. by apply ov_upd_fn.
Qed.
Lemma nb_with {A} (m : E A) l g h : nb m l g any h -> ov m any h -> nb m l g (fun _ => oinv) h.
Proof.
  intros H1 H2. unfold nb, nd. eapply wp_mono; [apply wp_conj; [exact H1|exact H2]| |].
  - intros a h' [(? & ? & _) (? & _)]. done.
  - by intros x h' [? _].
Qed.
Lemma nb_never {A} (m : E A) l g h : nb m l g any h -> (forall a h', m h <> (Ok a, h')) -> nb m l g (fun _ _ => False) h.
Proof. unfold nb, nd, wp. intros H Hn. destruct (m h) as [[a|?|?|] h'] eqn:E; try done. by destruct (Hn a h'). Qed.
Lemma bind_never {A B} (m : E A) (k : A -> E B) h b h' : (forall a h1, m h <> (Ok a, h1)) -> bind m k h <> (Ok b, h').
Proof. unfold bind. intros H. destruct (m h) as [[a|?|?|] h1] eqn:E; try done. by destruct (H a h1). Qed.
Lemma bind_later {A B} (m : E A) (k : A -> E B) h b h' : (forall a h1, k a h1 <> (Ok b, h')) -> bind m k h <> (Ok b, h').
Proof. unfold bind. intros H. by destruct (m h) as [[a|?|?|] h1]. Qed.
Lemma den_rank Den Quot dst og quot den h a h' : nonneg (shape quot) -> 0 ∉ shape quot -> length (shape dst) <> length (shape quot) ->
  tensor_div_back_denominator Den Quot dst og quot den h <> (Ok a, h').
Proof.
  intros Hn Hz Hl. unfold tensor_div_back_denominator. fold (shape quot). rewrite for_each_run by done.
  assert (exists sv, in_range (shape quot) sv) as [sv Hsv].
  { clear Hl. unfold in_range in *. induction Hn as [|n ss H0 _ IH]; [by exists []|].
    destruct IH as [sv Hsv]; [intros Hin; apply Hz; by right|]. exists (0 :: sv). constructor; [|done].
    assert (0 <> n) by (intros <-; apply Hz; left). lia. }
  pose proof Hsv as Hin. apply elem_of_indices in Hin. destruct (indices (shape quot)) as [|sv0 l] eqn:El; [by apply elem_of_nil in Hin|].
  assert (length sv0 = length (shape quot)) as Els.
  { assert (sv0 ∈ indices (shape quot)) as H0 by (rewrite El; by left). apply elem_of_indices in H0. symmetry. by eapply Forall2_length. }
  cbn [mapM_]. apply bind_never. intros.
  do 5 (apply bind_later; intros ? ?). apply bind_never. intros. unfold idx_exact, lift, cnt_from_index, ldim, orun_expect.
  fold (shape dst). rewrite (proj2 (Nat.eqb_neq _ _)) by congruence. simpl. done.
Qed.
Lemma sb_shape l g h h' c r : sb l g h h' -> h_ten h !! c = Some r -> exists r', h_ten h' !! c = Some r' /\ shape r' = shape r.
Proof. intros (_ & K & _) Hr. destruct (K c r Hr) as (r' & Hr' & (_ & E & _) & _). exists r'. unfold shape. by rewrite E. Qed.
Lemma div_step_rank x a b rb rx h : sized h -> oinv h -> h_ten h !! b = Some rb -> h_ten h !! x = Some rx ->
  0 ∉ shape rx -> length (shape rb) <> length (shape rx) -> nb (step_back x DivBack [a; b]) [a; b] [a; b] (fun _ _ => False) h.
Proof.
  intros Hs Hi Hb Hx Hz Hne. cbn [step_back]. do 2 (apply nb_deref; [done|]; intros ? [= <-]).
  apply (nb_bind _ _ [a] [b] [a] [b] (fun _ => oinv)); [apply nb_with; [by apply nb_update|by apply ov_update]|]. intros _ h1 Hs1 S1 Hi1.
  apply nb_get; [done|]. intros ar Har _. apply nb_deref; [done|]. intros ga Hga.
  apply nb_out_grad; [done|]. intros g. apply (nb_bind0 _ _ [b] [b] (fun _ => oinv)).
  { apply nb_with; [|apply ov_st; [done|apply st_div_num_f]]. apply nb_get; [done|]. intros dr _ Hd. apply nb_get; [done|]. intros lr _ Hl. apply nb_get; [done|]. intros rr _ Hr.
    apply nb_read; [apply reads_dispatch_ffi|apply nv_dispatch_ffi|done|]. intros _ _.
    apply nb_st; [apply st_div_num|by apply nv_div_num|done]. }
  intros _ h2 Hs2 S2 Hi2. apply (nb_bind _ _ [b] [] [b] [] (fun _ => oinv)); [apply nb_with; [by apply nb_update|by apply ov_update]|]. intros _ h3 Hs3 S3 Hi3.
  destruct (sb_shape _ _ _ _ _ _ S1 Hb) as (b1 & Hb1 & Eb1). destruct (sb_shape _ _ _ _ _ _ S2 Hb1) as (b2 & Hb2 & Eb2).
  destruct (sb_shape _ _ _ _ _ _ S3 Hb2) as (b3 & Hb3 & Eb3).
  destruct (sb_shape _ _ _ _ _ _ S1 Hx) as (x1 & Hx1 & Ex1). destruct (sb_shape _ _ _ _ _ _ S2 Hx1) as (x2 & Hx2 & Ex2).
  destruct (sb_shape _ _ _ _ _ _ S3 Hx2) as (x3 & Hx3 & Ex3).
  apply nb_get; [done|]. intros br Hbr Hnb. assert (br = b3) as -> by congruence.
  apply nb_get; [done|]. intros me Hme Hnm. assert (me = x3) as -> by congruence.
  apply nb_read; [apply reads_dispatch_ff|apply nv_dispatch_ff|done|]. intros _ _.
  apply nb_deref; [done|]. intros gb Hgb. destruct (Hi3 b b3 Hb3) as [H1 _]. destruct (H1 gb Hgb) as (_ & gbr & Hgbr & _ & _ & El3).
  assert (sizes (t_lay gbr) = sizes (t_lay b3)) as Esz by (by destruct El3 as [->| ->]).
  apply nb_out_grad; [done|]. intros g2. apply nb_get; [done|]. intros gbr' Hgbr' _. assert (gbr' = gbr) as -> by congruence.
  apply nb_get; [done|]. intros gr Hgr _. apply nb_never; [apply nb_st; [apply st_div_den|by apply nv_div_den|done]|].
  intros v h'. apply den_rank; [done|congruence|]. unfold shape in *. rewrite Esz. congruence.
Qed.
Lemma rank_hist ops rs h t x f a b rb rx : Forall size_ok ops -> run empty_heap ops = (Ok rs, h) -> settled h t ->
  open h t x -> fn_of h x = Some f -> gf_kind f = DivBack -> inputs h x = [a; b] ->
  h_ten h !! b = Some rb -> h_ten h !! x = Some rx -> (length (shape rb) < length (shape rx))%nat -> 0 ∉ shape rx ->
  forall v h', exec (OBackward (Some t)) h <> (Ok v, h').
Proof.
  intros Hz E Hs Hx Hf Hk Hin Hb Hrx Hlt H0 v h' E'.
  assert (v = RUnit) as ->. { cbn [exec] in E'. unfold deref in E'. rewrite bind_ret in E'. unfold no_result, bind in E'.
    destruct (backward t h) as [[[]|?|?|] h1]; by inversion E'. }
  apply exec_backward in E'. pose proof (ok_starts _ _ _ E') as Hst. assert (reachable h) as Hre by (by exists ops, rs).
  destruct (pass_hist ops rs h t (fun P h1 => oinv h1 /\ x ∉ P) Hz E Hst Hs) as (order & H1 & H2 & H3 & H4).
  - intros h1 E1. split; [|by intros ?%elem_of_nil]. pose proof (ov_out _ _ _ (ov_prepare t h (reachable_oinv h Hre))) as H. by rewrite E1 in H.
  - intros P y h1 new h2 Hy HP Hs1 [Hi1 Hni] Ep. split.
    { pose proof (ov_out _ _ _ (ov_process y h1 Hi1)) as H. by rewrite Ep in H. }
    intros [?|Heq%elem_of_list_singleton]%elem_of_app; [done|]. subst y.
    pose proof Hx as (Hbl & _). unfold fn_of in Hf. rewrite Hrx in Hf.
    destruct (HP x rx Hrx) as (rx' & Hrx' & (_ & El & _) & _ & _ & _ & _ & _ & _ & Hfn). destruct (Hfn f Hf Hbl) as (f' & Hf' & Hk' & Hin' & _).
    destruct (HP b rb Hb) as (rb' & Hb' & (_ & Elb & _) & _).
    assert (gf_in f' = [a; b]) as Ein. { rewrite Hin', <- Hin. unfold inputs, fn_of. by rewrite Hrx, Hf. }
    unfold process in Ep. erewrite bind_ok in Ep by (apply get_fn_ok; unfold fn_of; by rewrite Hrx', Hf'). rewrite Hk', Hk, Ein in Ep.
    pose proof (div_step_rank x a b rb' rx' h1 Hs1 Hi1 Hb' Hrx') as H. unfold shape in *. rewrite <- El, <- Elb in H.
    specialize (H H0 ltac:(lia)). unfold nb, nd, wp in H. unfold bind at 1 in Ep.
    destruct (step_back x DivBack [a; b] h1) as [[?|?|?|] h3]; try done. by destruct H as (_ & _ & []).
  - destruct (H4 h' E') as (H5 & _ & _ & [_ H6]). by apply H6, H5.
Qed.

(** C48: a second pass from the same root *)
Lemma leaf_grad_kept (W : nat -> Prop) h1 h2 a ra g gr st r2 : kept_outside W h1 h2 -> h_ten h1 !! a = Some ra -> t_grad ra = Some g ->
  h_ten h1 !! g = Some gr -> h_sto h1 !! t_sto gr = Some st -> ~ W (t_sto gr) ->
  h_ten h2 !! a = Some r2 -> t_grad r2 = t_grad ra -> grad_elems h2 a = grad_elems h1 a.
Proof.
  intros [K1 K2] Ha Hg Hgr Hst Hn Ha2 Hg2. unfold grad_elems, elems. rewrite Ha, Ha2, Hg2, Hg, Hgr. destruct (K2 g gr Hgr) as (gr2 & -> & _ & El & Es).
  specialize (K1 _ _ Hn Hst). f_equal. unfold row_elems, shape. rewrite <- El. apply map_ext. intros i. unfold contents, elem, cells.
  by rewrite <- Es, <- El, Hst, K1.
Qed.
Section twice.
Context (ops : list op) (rs : list (outcome ret)) (h h1 : heap) (t : nat).
Hypothesis Hz : Forall size_ok ops.
Hypothesis E : run empty_heap ops = (Ok rs, h).
Hypothesis Hun : untraversed h t.
Hypothesis E1 : exec (OBackward (Some t)) h = (Ok RUnit, h1).
Lemma untraversed_unwalked : unwalked h t.
Proof. intros x r f Hb Hr Hf Hne. by destruct (Hun x r f Hb Hr Hf) as [_ ?]; auto. Qed.
Lemma untraversed_open x : below h t x -> is_node h x -> open h t x.
Proof.
  intros Hb Hn. apply open_cut; [apply untraversed_unwalked|done|done|]. intros (c & Hbc & Hcx & Hct & r & Hr & Hrg).
  destruct (node_rec h c) as (r' & f & Hr' & Hf); [by eapply between_node|]. destruct (Hun c r' f Hbc Hr' Hf). congruence.
Qed.
Lemma first_pass : exists R, nodes_below h t R /\ (exists r, h_ten h !! t = Some r /\ is_Some (t_fn r)) /\
  forall x r, h_ten h !! x = Some r -> exists r', h_ten h1 !! x = Some r' /\ passed_over h t R x r r'.
Proof.
  assert (reachable h) as Hre by (by exists ops, rs).
  destruct (success_hist ops rs h t h1 Hz E) as (order & H1 & _ & H5 & H6 & _); [|done|].
  { intros r f Hr Hf. eapply unwalked_settled; [by apply reachable_tinv|by apply reachable_vinv|done|done|apply untraversed_unwalked]. }
  exists order. split; [|split; [|done]].
  - split; [done|]. intros x. rewrite H5. split; [by intros (? & ? & _)|]. intros [? ?]. by apply untraversed_open.
  - apply exec_backward, ok_starts in E1 as (r & f & ? & _ & ? & _). exists r. by split; [|eexists].
Qed.
Lemma below_rec x : below h t x -> is_Some (h_ten h !! x).
Proof.
  assert (tinv h) as Hi by (apply reachable_tinv; by exists ops, rs). destruct first_pass as (R & _ & (r & Hr & _) & _).
  intros Hb. destruct Hb as [|c x Hc Hx]; [by eexists|]. by destruct (inputs_node h Hi c (node_of_input h c x Hx) x Hx).
Qed.
Lemma inputs_after x : below h t x -> inputs h1 x = inputs h x /\ (is_node h1 x <-> is_node h x).
Proof.
  intros Hb. destruct (below_rec x Hb) as [r Hr]. destruct first_pass as (R & _ & _ & HP). destruct (HP x r Hr) as (r' & Hr' & _ & _ & _ & _ & _ & _ & Hn & Hfn).
  unfold inputs, is_node, fn_of. rewrite Hr, Hr'. destruct (t_fn r) as [f|].
  - destruct (Hfn f eq_refl Hb) as (f' & -> & _ & -> & _). done.
  - by rewrite Hn.
Qed.
Lemma below_after x : below h1 t x <-> below h t x.
Proof.
  split.
  - induction 1 as [|x y Hx IH Hy]; [constructor|]. rewrite (proj1 (inputs_after x IH)) in Hy. by eapply below_in.
  - induction 1 as [|x y Hx IH Hy]; [constructor|]. rewrite <- (proj1 (inputs_after x Hx)) in Hy. by eapply below_in.
Qed.
Lemma times_after R x : (forall y, y ∈ R -> below h t y) -> times h1 R x = times h R x.
Proof.
  intros HR. unfold times. do 2 f_equal. f_equal. induction R as [|y R IH]; [done|]. cbn [mbind list_bind].
  rewrite (proj1 (inputs_after y (HR y ltac:(by left)))). f_equal. apply IH. intros z Hz'. apply HR. by right.
Qed.
Lemma walked_after x : below h t x -> is_node h x -> x <> t -> exists r f R, h_ten h1 !! x = Some r /\ t_fn r = Some f /\
  t_rg r = true /\ nodes_below h1 t R /\ gf_acc f = times h1 R x /\ 1 <= gf_acc f.
Proof.
  intros Hb Hn Hne. destruct first_pass as (R & [HdR HR] & _ & HP). destruct (node_rec h x Hn) as (r & f & Hr & Hf).
  destruct (HP x r Hr) as (r' & Hr' & _ & Rg & _ & _ & _ & _ & _ & Hfn). destruct (Hfn f Hf Hb) as (f' & Hf' & _ & _ & Ha).
  destruct (Hun x r f Hb Hr Hf) as [Hrg Hacc]. rewrite Hrg, (Hacc Hne), Z.add_0_l in Ha.
  exists r', f', R. split; [done|]. split; [done|]. split; [congruence|]. split; [|split].
  - split; [done|]. intros y. rewrite HR, below_after. split; intros [Hy Hny]; (split; [done|]); by apply inputs_after.
  - rewrite times_after; [done|]. intros y Hy. by apply HR.
  - rewrite Ha. by apply (used_times h t).
Qed.
Lemma again_settled : settled h1 t.
Proof.
  intros x Hb%below_after Hn Hne. apply inputs_after in Hn; [|done]. destruct (walked_after x Hb Hn Hne) as (r & f & R & Hr & Hf & Hrg & HR & Ha & _).
  right. exists r, f, R. split; [done|]. split; [done|]. split; [done|]. rewrite Hrg, Ha. done.
Qed.
Lemma again_open x : open h1 t x -> x = t.
Proof.
  intros (Hb & Hn & Ho). destruct (decide (x = t)) as [?|Hne]; [done|exfalso]. destruct (Ho x Hb (below_root _ _) Hne) as (r & f & Hr & Hf & _ & Ha).
  apply below_after in Hb. apply inputs_after in Hn; [|done]. destruct (walked_after x Hb Hn Hne) as (r' & f' & R & Hr' & Hf' & _ & _ & _ & Ha').
  assert (r' = r) as -> by congruence. assert (f' = f) as -> by congruence. lia.
Qed.
Lemma second_pass h2 : exec (OBackward (Some t)) h1 = (Ok RUnit, h2) ->
  (prepare t ;;; process_all [t]) h1 = (Ok tt, h2) /\
  forall a ra g gr st, a <> t -> a ∉ inputs h t -> h_ten h1 !! a = Some ra -> t_grad ra = Some g -> h_ten h1 !! g = Some gr -> h_sto h1 !! t_sto gr = Some st ->
    (forall y r g' gr', y ∈ inputs h t -> h_ten h1 !! y = Some r -> t_grad r = Some g' -> h_ten h1 !! g' = Some gr' -> t_sto gr' <> t_sto gr) ->
    grad_elems h2 a = grad_elems h1 a.
Proof.
  intros E2. destruct (success_hist (ops ++ [OBackward (Some t)]) (rs ++ [Ok RUnit]) h1 t h2) as (order & H2 & H3 & H5 & H6 & H7).
  - apply Forall_app. split; [done|]. constructor; [constructor|constructor].
  - by eapply run_snoc.
  - intros. apply again_settled.
  - done.
  - assert (order = [t]) as ->.
    { assert (t ∈ order) as Ht.
      { apply H5. pose proof E2 as Hst. apply exec_backward, ok_starts in Hst as (r & f & Hr & _ & Hf & _).
        split; [constructor|]. split; [exists f; unfold fn_of; by rewrite Hr|]. intros c Hb Hct Hne. exfalso.
        assert (tinv h) as Hi by (apply reachable_tinv; by exists ops, rs).
        assert (tinv h1) as Hi1. { pose proof (tinv_exec (OBackward (Some t)) h Hi) as H. by rewrite E1 in H. }
        pose proof (below_le h1 t Hi1 _ Hb). pose proof (below_le h1 c Hi1 _ Hct). lia. }
      destruct order as [|x [|y l]]; [by apply elem_of_nil in Ht| |].
      - apply elem_of_list_singleton in Ht. by subst.
      - exfalso. assert (x = t) as -> by (apply again_open, H5; by left). assert (y = t) as -> by (apply again_open, H5; right; by left).
        apply NoDup_cons in H2 as [H2 _]. apply H2. by left. }
    split; [done|]. intros a ra g gr st Hne Hni Ha Hg Hgr Hst Hsep. destruct (H6 a ra Ha) as (r2 & Ha2 & _ & _ & _ & K & _).
    pose proof (proj1 (inputs_after t (below_root _ _))) as Ein.
    eapply (leaf_grad_kept _ h1 h2 a ra g gr st r2 H7); [done|done|done|done| |done|].
    + intros (x & y & r & g' & gr' & Hx%again_open & Hy & Hr & Hg' & Hgr' & Es). subst x. rewrite Ein in Hy. by eapply (Hsep y).
    + apply K; [done|]. intros p ->%elem_of_list_singleton. by rewrite Ein.
Qed.
End twice.
End with_fops.
