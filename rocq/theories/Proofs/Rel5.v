(** Two instances of the floating-point operations: whole calls and histories. *)
From Verif.Proofs Require Export Rel4.
From Verif.Model Require Import Api.

Section rel.
Context {fa fb : FOps} {R : fty -> @F fa -> @F fb -> Prop} {clean : @F fa -> Prop} (HR : related fa fb R clean).
Notation K := (fun _ : nat => R).
Notation I := (hrel K 0).
Ltac gt := apply pr_bind_eq; [apply p_get_ten|intros ?].

(** ** brace lists *)
Definition sprel (s : @spec fa) (s' : @spec fb) : Prop :=
  sp_shape s = sp_shape s' /\ sp_dt s = sp_dt s' /\
  match sp_dt s with Some d => Forall2 (vrel R d) (sp_data s) (sp_data s') | None => sp_data s = [] /\ sp_data s' = [] end.
Lemma same_rel l l' r r' : sprel l l' -> sprel r r' -> is_same_spec (fo:=fa) l r = is_same_spec (fo:=fb) l' r'.
Proof. intros (E1 & E2 & _) (E3 & E4 & _). unfold is_same_spec. rewrite E1, E2, E3, E4. done. Qed.
Lemma all_rel f f' l l' : sprel f f' -> Forall2 sprel l l' -> all_same (fo:=fa) f l = all_same (fo:=fb) f' l'.
Proof. intros Hf. induction 1 as [|x x' l l' Hx _ IH]; [done|]. cbn [all_same]. rewrite (same_rel _ _ _ _ Hx Hf), IH. done. Qed.
Lemma all_dt (f : @spec fa) l : all_same f l = Ok true -> forall x, x ∈ l -> exists d, sp_dt x = Some d /\ sp_dt f = Some d.
Proof.
  induction l as [|y l IH]; intros E x Hx; [by apply elem_of_nil in Hx|]. cbn [all_same] in E. unfold is_same_spec in E.
  destruct (bool_decide _); [|done]. destruct (sp_dt y) as [d|] eqn:Ey, (sp_dt f) as [d'|] eqn:Ef; try done. cbn [obind] in E.
  destruct (decide (d = d')) as [<-|N]; [rewrite bool_decide_true in E by done|by rewrite bool_decide_false in E by done].
  apply elem_of_cons in Hx as [->|Hx]; [by exists d|]. by apply IH.
Qed.
Lemma concat_rel d l l' : Forall2 sprel l l' -> (forall x, x ∈ l -> sp_dt x = Some d) ->
  Forall2 (vrel R d) (List.concat (map sp_data l)) (List.concat (map sp_data l')).
Proof.
  induction 1 as [|x x' l l' Hx _ IH]; intros Hd; [constructor|]. cbn [map List.concat]. apply Forall2_app.
  - destruct Hx as (_ & _ & Hx). rewrite (Hd x) in Hx by (by left). done.
  - apply IH. intros y Hy. apply Hd. by right.
Qed.
Lemma node_rel l l' : Forall2 sprel l l' -> ore sprel (node_spec (fo:=fa) l) (node_spec (fo:=fb) l').
Proof.
  intros H. unfold node_spec. destruct H as [|x x' l l' Hx Hl]; [by apply ore_ok|].
  assert (Forall2 sprel (x :: l) (x' :: l')) as H by (by constructor). rewrite <- (all_rel _ _ _ _ Hx H).
  destruct (all_same x (x :: l)) as [[]| | |] eqn:E; cbn [obind]; try (by right). apply ore_ok.
  pose proof (all_dt _ _ E) as Hd. destruct (Hd x ltac:(by left)) as (d & E1 & _). destruct Hx as (Hs & Ht & Hx).
  split; [cbn; by rewrite Hs, (Forall2_length _ _ _ Hl)|]. split; [done|]. cbn [sp_dt sp_data]. rewrite E1. apply concat_rel; [done|].
  intros y Hy. destruct (Hd y Hy) as (d' & ? & ?). congruence.
Qed.
Section lit.
Context {fc : FOps} (ga : @F fc -> @F fa) (gb : @F fc -> @F fb).
Definition lit_ok (l : list (dtype * @val fc)) : Prop := forall t v, (t, v) ∈ l -> vrel R t (map_val ga v) (map_val gb v).
Lemma lit_map t l : lit_ok (map (pair t) l) -> Forall2 (vrel R t) (map (map_val ga) l) (map (map_val gb) l).
Proof.
  intros H. apply Forall2_fmap_2. apply Forall_Forall2_diag. apply Forall_forall. intros v Hv. apply H. apply elem_of_list_fmap. by exists v.
Qed.
Lemma tinit_rel : forall t, lit_ok (tinit_lits t) -> ore sprel (tinit_spec (map_tinit ga t)) (tinit_spec (map_tinit gb t)).
Proof.
  fix IH 1. intros [dt xs|ts] H.
  - cbn. apply ore_ok. split; [cbn; by rewrite !map_length|]. split; [done|]. cbn. by apply lit_map.
  - cbn [map_tinit tinit_spec]. eapply (ore_bind (Forall2 sprel)).
    2: { intros a b Hab. by apply node_rel. }
    cbn [tinit_lits] in H. induction ts as [|t ts IHl]; [by apply ore_ok|]. cbn [map] in H |- *.
    eapply ore_bind; [apply IH; intros u v Hv; apply H; cbn; apply elem_of_app; by left|]. intros a b Hab. eapply ore_bind.
    { apply IHl. intros u v Hv. apply H. cbn. apply elem_of_app. by right. }
    intros aa bb Habs. apply ore_ok. by constructor.
Qed.
Lemma p_create_impl s s' : sprel s s' -> pr I eq (@create_impl fa s) (@create_impl fb s').
Proof.
  intros (E1 & E2 & Hd). unfold create_impl. rewrite <- E1, <- E2. destruct (sp_shape s) as [|z l]; [by apply pr_ret|]. destruct (sp_dt s) as [dt|]; [|intros h h' H; by right].
  generalize (contig (z :: l)) as lay. intros lay h h' H. unfold bind, lift.
  destruct (p_create K 0 dt lay false h h' H) as [E|[E H1]]; destruct (create dt lay false h) as [o h1] eqn:C1, (create dt lay false h') as [o' h1'] eqn:C2; cbn [fst snd] in *.
  { subst. by left. }
  destruct o as [t|?|?|], o' as [t'|?|?|]; try done; try (right; by split). cbn in E. subst t'.
  destruct (p_get_ten K 0 t h1 h1' H1) as [E|[E H2]]; destruct (get_ten t h1) as [o h2] eqn:C3, (get_ten t h1') as [o' h2'] eqn:C4; cbn [fst snd] in *.
  { subst. by left. }
  destruct o as [r|?|?|], o' as [r'|?|?|]; try done; try (right; by split). cbn in E. subst r'.
  assert (forall s, get_sto (t_sto r) h2 = (Ok s, h2) -> sto_ty s = dt) as Hty.
  { unfold create in C1. unfold bind, new_sto, create_view, new_ten, mret in C1.
    injection C1 as <- <-. unfold get_ten in C3. cbn [h_ten] in C3. rewrite lookup_app_r, Nat.sub_diag in C3 by done. injection C3 as <- <-.
    unfold get_sto. cbn [h_sto t_sto]. rewrite lookup_app_r, Nat.sub_diag by done. cbn. intros ? E. by injection E as <-. }
  destruct (p_get_sto K 0 (t_sto r) h2 h2' H2) as [E|[E H3]]; destruct (get_sto (t_sto r) h2) as [o h3] eqn:C5, (get_sto (t_sto r) h2') as [o' h3'] eqn:C6; cbn [fst snd] in *.
  { subst. by left. }
  destruct o as [b|?|?|], o' as [b'|?|?|]; try done; try (right; by split). cbn in E. destruct E as (F1 & F2 & B).
  assert (sto_ty b = dt) as Ety. { apply Hty. f_equal. unfold get_sto in C5. destruct (h_sto h2 !! t_sto r); congruence. }
  rewrite <- F1, <- F2.
  destruct (p_set_sto K 0 (t_sto r) (Sto (sto_ty b) (sto_bytes b) (Some (map Some (sp_data s)))) (Sto (sto_ty b) (sto_bytes b) (Some (map Some (sp_data s')))) ltac:(
    split; [done|]; split; [done|]; constructor; cbn [sto_ty]; rewrite Ety; apply Forall2_fmap_2; eapply Forall2_impl; [exact Hd|]; intros; by constructor) h3 h3' H3) as [E|[E H4]]; [by left|].
  right. by split.
Qed.

(** ** strings *)
Variable P : string -> string -> Prop.
Hypothesis P_val : forall t v v', vrel R t v v' -> P (val_str v) (val_str v').
Hypothesis P_nil : P "[]" "[]".
Hypothesis P_list : forall l l', Forall2 P l l' -> P ("[" +:+ join_strs l +:+ "]") ("[" +:+ join_strs l' +:+ "]").
Lemma p_collect {A B} (Q : A -> B -> Prop) l f f' : (forall i, pr I Q (f i) (f' i)) -> pr I (Forall2 Q) (@collect fa A l f) (@collect fb B l f').
Proof.
  intros H. induction l as [|i l IH]; cbn [collect]; [apply pr_ret; constructor|]. eapply pr_bind; [apply H|]. intros a b Hab. eapply pr_bind; [apply IH|]. intros aa bb Habs.
  apply pr_ret. by constructor.
Qed.
Lemma p_str dt s ss sts off : pr I P (@to_string_helper fa dt s ss sts off) (@to_string_helper fb dt s ss sts off).
Proof.
  revert sts off. induction ss as [|n ss IH]; intros sts off; cbn [to_string_helper].
  - eapply pr_bind. { unfold load_byte_off. destruct (_ =? _); [apply p_load|apply pr_ub]. } intros v v' Hv. apply pr_ret. by eapply P_val.
  - destruct sts as [|st sts]; [destruct (_ =? _); [by apply pr_ret|apply pr_ub]|]. eapply pr_bind; [apply p_collect; intros i; apply IH|]. intros l l' Hl. apply pr_ret. by apply P_list.
Qed.

Definition rrel (r r' : ret) : Prop := match r, r' with RString s, RString s' => P s s' | RString _, _ | _, RString _ => False | _, _ => r = r' end.
Lemma rrel_eq r : match r with RString _ => False | _ => True end -> rrel r r.
Proof. by destruct r. Qed.
Lemma p_new m m' : pr I eq m m' -> pr I rrel (@new_handle fa m) (@new_handle fb m').
Proof. intros H. unfold new_handle. apply pr_bind_eq; [done|]. intros t. by apply pr_ret. Qed.
Lemma p_unit m m' : pr I eq m m' -> pr I rrel (@no_result fa m) (@no_result fb m').
Proof. intros H. unfold no_result. apply pr_bind_eq; [done|]. intros t. by apply pr_ret. Qed.
Lemma p_un a f f' : (forall x, pr I eq (f x) (f' x)) -> pr I rrel (@un fa a f) (@un fb a f').
Proof. intros H. unfold un. apply pr_bind_eq; [apply p_deref|]. intros x. by apply p_new. Qed.
Lemma p_bin a b f f' : (forall x y, pr I eq (f x y) (f' x y)) -> pr I rrel (@bin fa a b f) (@bin fb a b f').
Proof. intros H. unfold bin. apply pr_bind_eq; [apply p_deref|]. intros x. apply pr_bind_eq; [apply p_deref|]. intros y. by apply p_new. Qed.
Lemma p_before_null xs d : pr I eq (@before_null fa xs d) (@before_null fb xs d).
Proof.
  unfold before_null. apply pr_bind_eq; [apply p_get_all|]. intros [|r0 rest]; [by apply pr_ret|]. cbv zeta. apply pr_bind_eq; [apply pr_expect|]. intros _. apply pr_expect.
Qed.
Lemma p_deref_all xs ts d : pr I eq (@deref_all fa xs ts d) (@deref_all fb xs ts d).
Proof.
  revert xs. induction ts as [|[t|] ts IH]; intros xs; cbn [deref_all]; [by apply pr_ret|apply IH|]. apply pr_bind_eq; [apply p_before_null|]. intros _. apply pr_ub.
Qed.
Lemma p_query a f : (forall r, match f r with RString _ => False | _ => True end) -> pr I rrel (@query fa a f) (@query fb a f).
Proof. intros H. unfold query. apply pr_bind_eq; [apply p_deref|]. intros x. gt. apply pr_ret. apply rrel_eq. apply H. Qed.
Lemma p_set_rg t b : pr I eq (@set_requires_grad fa t b) (@set_requires_grad fb t b).
Proof. unfold set_requires_grad. gt. apply pr_bind_eq; [destruct b; [apply pr_expect|by apply pr_ret]|]. intros _. apply p_set_ten. Qed.

(** what a call needs in order that its comparisons are the same *)
Definition calm (h : @heap fa) (o : @op fc) : Prop :=
  match o with
  | OAbs (Some x) | OMax (Some x) | OMin (Some x) => clean_buf (clean:=clean) h x
  | OCmp _ (Some x) (Some y) => int_buf h x /\ int_buf h y \/
      (forall r s, h_ten h !! x = Some r -> h_ten h !! y = Some s -> t_dt r = t_dt s) /\ clean_buf (clean:=clean) h x /\ clean_buf (clean:=clean) h y \/ (forall v, clean v)
  | QAll (Some x) => int_buf h x
  | _ => True
  end.
Lemma at_new (m : @E fa nat) (m' : @E fb nat) h h' : (m h).1 = UB FloatRange \/ orel eq (m h).1 (m' h').1 /\ I (m h).2 (m' h').2 ->
  (new_handle m h).1 = UB FloatRange \/ orel rrel (new_handle m h).1 (new_handle m' h').1 /\ I (new_handle m h).2 (new_handle m' h').2.
Proof.
  unfold new_handle, bind. destruct (m h) as [o g], (m' h') as [o' g']. cbn. intros [->|[E H]]; [by left|]. right.
  destruct o, o'; try done. cbn in E. subst. done.
Qed.
Lemma lit_f l : lit_ok (map (fun x => (F32, VF x)) l) -> Forall2 (R FT32) (map ga l) (map gb l).
Proof.
  intros H. apply Forall2_fmap_2. apply Forall_Forall2_diag. apply Forall_forall. intros v Hv. apply (H F32 (VF v)). apply elem_of_list_fmap. by exists v.
Qed.
Theorem p_exec (o : @op fc) h h' : lit_ok (lits o) -> I h h' -> calm h o ->
  (exec (map_op ga o) h).1 = UB FloatRange \/
  orel rrel (exec (map_op ga o) h).1 (exec (map_op gb o) h').1 /\ I (exec (map_op ga o) h).2 (exec (map_op gb o) h').2.
Proof.
  intros HL H HC. destruct o; cbn [map_op exec lits] in *.
  - clear HC; revert h h' H. apply p_new. apply p_scalar. apply HL. by left.
  - clear HC; revert h h' H. apply p_new, p_create.
  - clear HC; revert h h' H. eapply pr_bind; [apply pr_lift; by apply tinit_rel|]. intros s s' Hs. apply pr_bind_eq; [by apply p_create_impl|]. intros x. by apply pr_ret.
  - clear HC; revert h h' H. apply p_new, p_zeros. intros; apply HR.
  - clear HC; revert h h' H. apply p_new, (p_ones HR).
  - clear HC; revert h h' H. apply p_un. intros x. apply p_zeros_like. intros; apply HR.
  - clear HC; revert h h' H. apply p_un. intros x. apply (p_ones_like HR).
  - clear HC; revert h h' H. apply p_new, (p_full_int HR).
  - clear HC; revert h h' H. apply p_new, (p_full_double HR). apply (HL F64 (VF x)). by left.
  - clear HC; revert h h' H. apply p_new, (p_eye_op HR).
  - clear HC; revert h h' H. apply p_new, p_from_blob. by apply lit_map.
  - clear HC; revert h h' H. apply p_new, (p_randn HR). by apply lit_f.
  - clear HC; revert h h' H. apply p_un. intros x. gt. apply (p_randn HR). by apply lit_f.
  - clear HC; revert h h' H. apply p_bin. intros; apply (p_op_add HR).
  - clear HC; revert h h' H. apply p_bin. intros; apply (p_op_sub HR).
  - clear HC; revert h h' H. apply p_bin. intros; apply (p_op_mul HR).
  - clear HC; revert h h' H. apply p_bin. intros; apply (p_op_div HR).
  - clear HC; revert h h' H. apply p_un. intros x. by apply pr_ret.
  - clear HC; revert h h' H. apply p_un. intros; apply (p_op_neg HR).
  - destruct a as [x|], b as [y|]; try (right; done). unfold bin, bind at 1 3 5 7, deref, mret at 1. apply at_new. by apply (q_cmp HR).
  - clear HC; revert h h' H. apply pr_bind_eq; [apply p_deref|]. intros x. apply pr_bind_eq; [apply p_deref|]. intros y. apply p_unit. apply (p_addeq HR).
  - clear HC; revert h h' H. apply p_un. intros x. apply (p_to_dtype HR).
  - clear HC; revert h h' H. apply p_un. intros x. apply p_slice.
  - clear HC; revert h h' H. apply p_un. intros x. apply p_transpose.
  - clear HC; revert h h' H. apply p_un. intros x. apply (p_reshape HR).
  - clear HC; revert h h' H. apply p_bin. intros; apply (p_reshape_as HR).
  - clear HC; revert h h' H. apply pr_bind_eq; [apply p_deref_all|]. intros xs. apply p_new. apply (p_op_cat HR).
  - clear HC; revert h h' H. apply p_un. intros x. apply (p_op_sum HR).
  - clear HC; revert h h' H. apply p_un. intros x. apply (p_op_mean HR).
  - destruct a as [x|]; [|by right]. apply at_new. by apply (q_abs HR).
  - destruct a as [x|]; [|by right]. apply at_new. by apply (q_extremum HR).
  - destruct a as [x|]; [|by right]. apply at_new. by apply (q_extremum HR).
  - clear HC; revert h h' H. apply p_un. intros x. apply (p_op_clone HR).
  - clear HC; revert h h' H. apply p_un. intros x. apply (p_op_clone HR).
  - clear HC; revert h h' H. apply p_un. intros x. apply p_detach.
  - clear HC; revert h h' H. by apply p_query.
  - clear HC; revert h h' H. apply pr_bind_eq; [apply p_deref|]. intros x. apply p_unit. apply (p_backward HR).
  - clear HC; revert h h' H. apply pr_bind_eq; [apply p_deref|]. intros x. apply p_unit. apply (p_zero_grad HR).
  - clear HC; revert h h' H. apply pr_bind_eq; [apply p_deref|]. intros x. apply p_unit. apply p_set_rg.
  - clear HC; revert h h' H. apply pr_bind_eq; [apply p_deref|]. intros x. gt. apply p_unit. apply p_set_ten.
  - clear HC; revert h h' H. apply pr_bind_eq; [apply p_deref|]. intros x. gt. apply p_unit. apply p_release.
  - destruct a as [x|]; [|by right]. cbn in HC. pose proof (q_all x h h' H HC) as Q. unfold bind, deref, mret.
    destruct (@op_all fa x h) as [o g], (@op_all fb x h') as [o' g']. cbn in Q |- *. destruct Q as [->|[Q1 Q2]]; [by left|]. right. destruct o, o'; try done. cbn in Q1. by subst.
  - clear HC; revert h h' H. destruct a as [x|]; [|by apply pr_ret]. eapply pr_bind; [|intros s s' Hs; by apply pr_ret]. unfold impl_to_string. gt. apply p_str.
  - clear HC; revert h h' H. by apply p_query.
  - clear HC; revert h h' H. apply pr_bind_eq; [apply p_deref|]. intros x. unfold op_stride. eapply (pr_bind_eq _ rrel (A:=list Z)); [gt; apply pr_throw|]. intros l. by apply pr_ret.
  - clear HC; revert h h' H. by apply p_query.
  - clear HC; revert h h' H. by apply p_query.
  - clear HC; revert h h' H. by apply p_query.
  - clear HC; revert h h' H. by apply p_query.
  - clear HC; revert h h' H. by apply p_query.
Qed.
Fixpoint calm_all (h : @heap fa) (ops : list (@op fc)) : Prop :=
  match ops with [] => True | o :: r => calm h o /\ calm_all (exec (map_op ga o) h).2 r end.
Theorem p_run ops h h' rs g : (forall o, o ∈ ops -> lit_ok (lits o)) -> I h h' -> calm_all h ops -> run h (map (map_op ga) ops) = (Ok rs, g) ->
  exists rs' g', run h' (map (map_op gb) ops) = (Ok rs', g') /\ Forall2 (orel rrel) rs rs' /\ I g g'.
Proof.
  revert h h' rs. induction ops as [|o ops IH]; intros h h' rs HL H HC; cbn [map run].
  - intros E. injection E as <- <-. by eexists _, _.
  - destruct HC as [HC1 HC2]. destruct (p_exec o h h' ltac:(apply HL; by left) H HC1) as [E|[E H1]];
      destruct (exec (map_op ga o) h) as [a h1], (exec (map_op gb o) h') as [a' h1']; cbn [fst snd] in *; [by subst|].
    assert (forall rs0, run h1 (map (map_op ga) ops) = (Ok rs0, g) -> exists rs' g', run h1' (map (map_op gb) ops) = (Ok rs', g') /\ Forall2 (orel rrel) rs0 rs' /\ I g g') as Next.
    { intros rs0. apply IH; [|done|done]. intros o' Ho. apply HL. by right. }
    destruct a as [r|e|u|], a' as [r'|e'|u'|]; try done.
    + destruct (run h1 (map (map_op ga) ops)) as [[rs0|?|?|] g0] eqn:Er; try done. intros X. injection X as <- <-.
      destruct (Next rs0 eq_refl) as (rs' & g' & -> & F & Hg). eexists _, _. split; [done|]. split; [by constructor|done].
    + destruct (run h1 (map (map_op ga) ops)) as [[rs0|?|?|] g0] eqn:Er; try done. intros X. injection X as <- <-.
      destruct (Next rs0 eq_refl) as (rs' & g' & -> & F & Hg). eexists _, _. split; [done|]. split; [by constructor|done].
Qed.
End lit.
End rel.
