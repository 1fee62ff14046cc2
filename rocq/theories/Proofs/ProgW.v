(** Overwriting the data of a leaf, and forgetting tensors, keep the invariant of Prog.v. *)
From Verif.Proofs Require Export Prog3.
From Verif.Spec Require Export Program Inplace.
From Verif.Model Require Export Exact Api.
#[local] Existing Instance Exact.

(** ** fewer tensors *)
Lemma GI_shrink (D D' T : nat -> Prop) h : GI D T h -> (forall x, D' x -> D x) -> (forall x y, D' x -> y ∈ inputs h x -> D' y) ->
  GI D' (fun x => T x /\ D' x) h.
Proof.
  intros G Hs Hin. assert (forall x, D' x -> ~ (T x /\ D' x) -> ~ T x) as HT by tauto.
  assert (forall s, gdata h D' s -> gdata h D s) as Hgd.
  { intros s (x & r & Hx & Hr & E). exists x, r. split; [|done]. destruct Hx as [Hx|(y & f & Dy & Hf & Hk)]; [left; auto|right; exists y, f; auto]. }
  split.
  - intros x [Tx Dx]. destruct (g_sub _ _ _ G x Tx). done.
  - intros x Dx. by apply (g_rec _ _ _ G), Hs.
  - done.
  - intros x f Dx. by apply (g_node _ _ _ G), Hs.
  - intros x Dx. by apply (g_dense _ _ _ G), Hs.
  - intros x r f Dx Hr Hf. destruct (g_free _ _ _ G x r f (Hs x Dx) Hr Hf) as [? Ha]. split; [done|]. intros Tx. apply Ha. by apply HT.
  - intros x r Dx. by apply (g_const _ _ _ G), Hs.
  - intros x r Dx Tx. apply (g_grad _ _ _ G); [by apply Hs|by apply HT].
  - intros x b Dx Cx. apply (g_view _ _ _ G); [by apply Hs|]. intros y Hy Ty. apply (Cx y Hy). split; [done|]. by eapply below_D.
  - intros x y s Dx Dy Tx Ty. apply (g_sep _ _ _ G); [by apply Hs..|by apply HT|by apply HT].
  - intros x s Dx Tx Vx Hx Hd. apply (g_apart _ _ _ G x s (Hs x Dx) (HT x Dx Tx) Vx Hx). by apply Hgd.
Qed.

Lemma below_ten h h' x y : h_ten h' = h_ten h -> below h x y -> below h' x y.
Proof.
  intros E. induction 1 as [|u v Hb IH Hv]; [constructor|]. eapply below_in; [exact IH|]. unfold inputs, fn_of in *. by rewrite E.
Qed.
Lemma base_ten h h' x b : h_ten h' = h_ten h -> base_of h x b -> base_of h' x b.
Proof.
  intros E. induction 1 as [x Hx|x f a b Hf Hk Hi Hb IH].
  - apply base_self. unfold is_view, fn_of in *. by rewrite E.
  - eapply base_view; [|done..]. unfold fn_of in *. by rewrite E.
Qed.

(** ** other data in the buffer [s], that no node reads or has written *)
Lemma GI_data D T h h' s : GI D T h -> h_ten h' = h_ten h -> (forall s', s' <> s -> h_sto h' !! s' = h_sto h !! s') ->
  (forall x r, D x -> h_ten h !! x = Some r -> t_sto r = s -> holds h' r (contents h' r)) ->
  (forall x f z r, D x -> fn_of h x = Some f -> z ∈ x :: gf_in f ++ kg_of (gf_kind f) -> h_ten h !! z = Some r -> t_sto r <> s) ->
  (forall x, D x -> ~ T x -> ~ is_view h x -> ~ has_grad h x s) -> GI D T h'.
Proof.
  intros G Et Es Hd Hn Hg. destruct h as [sto ten v], h' as [sto' ten' v']. cbn [h_ten h_sto] in *. subst ten'.
  assert (forall x r, ten !! x = Some r -> t_sto r <> s -> Prog.kept (Hp sto ten v) (Hp sto' ten v') x) as Hk.
  { intros x r Hr Hs. exists r, r. split; [done|]. split; [done|]. split; [done|]. split; [done|]. by apply Es. }
  assert (forall x s', D x -> ~ T x -> ~ is_view (Hp sto ten v) x -> has_grad (Hp sto ten v) x s' -> s' <> s) as Hne by (intros x s' Dx Tx Vx Hx ->; by apply (Hg x)).
  split.
  - exact (g_sub _ _ _ G).
  - intros x Dx. destruct (g_rec _ _ _ G x Dx) as (r & Hr & Hh & Hf & Hl). exists r. split; [done|]. split; [|done].
    destruct (decide (t_sto r = s)) as [E|E]; [by apply (Hd x)|]. exact (Prog.kept_holds (Hp sto ten v) (Hp sto' ten v') x r r Hr Hr (Hk x r Hr E) Hh).
  - exact (g_in _ _ _ G).
  - intros x f Dx Hf. apply (node_fact_kept (Hp sto ten v)); [|by apply (g_node _ _ _ G)]. intros z Hz.
    assert (exists r, ten !! z = Some r) as [r Hr].
    { apply elem_of_cons in Hz as [->|Hz]; [by destruct (g_rec _ _ _ G x Dx) as (r & ? & _); exists r|]. apply elem_of_app in Hz as [Hz|Hz].
      - destruct (g_rec _ _ _ G z) as (r & ? & _); [|by exists r]. apply (g_in _ _ _ G x z Dx). unfold inputs. change (fn_of (Hp sto ten v) x = Some f) in Hf. by rewrite Hf.
      - destruct (g_node _ _ _ G x f Dx Hf) as (Hno & _). destruct (gf_kind f); try by apply elem_of_nil in Hz. simpl in Hz.
        apply elem_of_list_singleton in Hz as ->. simpl in Hno. destruct (gf_in f) as [|? [|]]; try done. destruct Hno as ((r & ? & _) & _). by exists r. }
    apply (Hk z r Hr). by apply (Hn x f z r).
  - exact (g_dense _ _ _ G).
  - exact (g_free _ _ _ G).
  - exact (g_const _ _ _ G).
  - intros x r Dx Tx Hx Vx Hr. destruct (g_grad _ _ _ G x r Dx Tx Hx Vx Hr) as [?|(s' & Hs' & Hb)]; [by left|right]. exists s'. split; [done|].
    pose proof (Es s' (Hne x s' Dx Tx Vx Hs')) as E'. destruct Hb as [Hb|(Hnn & qs & Hb & Hl)]; [left|right].
    + unfold raw_buffer in *. cbn [h_sto] in *. by rewrite E'.
    + split; [done|]. exists qs. split; [|done]. cbn [h_sto] in *. by rewrite E'.
  - intros x b Dx Cx Vx Hb. destruct (g_view _ _ _ G x b Dx) as (s' & H1 & H2); [|done| |by exists s'].
    + intros y Hy. apply Cx. by apply (below_ten (Hp sto ten v)).
    + by apply (base_ten (Hp sto' ten v')).
  - exact (g_sep _ _ _ G).
  - exact (g_apart _ _ _ G).
Qed.

(** every tensor on the buffer that was written still holds data *)
Lemma wrote_holds (h h' : heap) (r r' : tensor) w v : wrote h h' r w -> holds h r v -> t_sto r' = t_sto r -> holds h r' (contents h r') -> holds h' r' (contents h' r').
Proof.
  intros (Et & Es & Hw & Hc) Hr E Hr'. destruct Hr as [(cs0 & (b0 & Hb0) & _) _]. destruct Hr' as [(cs1 & (b1 & Hb1) & Hl1 & Hi1 & Hn1) He1].
  assert (t_dt r' = t_dt r) as Ed by (rewrite E in Hb1; congruence).
  destruct Hw as [(cs & (b & Hb) & Hlay & Hin & Hn) Hew].
  assert (forall j, in_range (shape r') j -> exists x, elem h' r' j = Some x /\ has_ty (t_dt r') x) as K.
  { intros j Hj. destruct (Hc r' j E) as [C1 C2].
    destruct (decide (Exists (fun idx => pos (t_lay r') j = pos (t_lay r) idx) (indices (shape r)))) as [Hx|Hx].
    - apply Exists_exists in Hx as (idx & Hi & Hp). apply elem_of_indices in Hi. exists (w idx). split; [by apply C1|]. rewrite Ed. by apply Hew.
    - rewrite C2; [exists (contents h r' j); by apply He1|]. intros idx Hi Hp. apply Hx. apply Exists_exists. exists idx. by rewrite elem_of_indices. }
  split.
  - exists cs. split; [exists b; by rewrite E, Ed|]. split; [done|]. split; [|done]. intros j Hj. destruct (K j Hj) as (x & Hx & _).
    unfold elem, cells in Hx. rewrite E, Hb in Hx. simpl in Hx. destruct (Z.leb_spec 0 (pos (t_lay r') j)); [|done].
    destruct (cs !! Z.to_nat (pos (t_lay r') j)) as [c|] eqn:Ec; [|done]. apply lookup_lt_Some in Ec. lia.
  - intros j Hj. destruct (K j Hj) as (x & Hx & Hty). unfold contents. by rewrite Hx.
Qed.

Lemma GI_same D T T' h : GI D T h -> (forall x, T' x <-> T x) -> GI D T' h.
Proof.
  intros G E. split.
  - intros x Tx. apply (g_sub _ _ _ G). by apply E.
  - apply (g_rec _ _ _ G).
  - apply (g_in _ _ _ G).
  - apply (g_node _ _ _ G).
  - apply (g_dense _ _ _ G).
  - intros x r f Dx Hr Hf. destruct (g_free _ _ _ G x r f Dx Hr Hf) as [? Ha]. split; [done|]. intros Tx. apply Ha. by rewrite <- E.
  - apply (g_const _ _ _ G).
  - intros x r Dx Tx. apply (g_grad _ _ _ G); [done|]. by rewrite <- E.
  - intros x b Dx Cx. apply (g_view _ _ _ G); [done|]. intros y Hy Ty. apply (Cx y Hy). by apply E.
  - intros x y s Dx Dy Tx Ty. apply (g_sep _ _ _ G); [done|done|by rewrite <- E|by rewrite <- E].
  - intros x s Dx Tx. apply (g_apart _ _ _ G); [done|]. by rewrite <- E.
Qed.
(** the tensors in [H] and everything they were computed from *)
Definition closure (h : heap) (H : list nat) (x : nat) : Prop := exists y, y ∈ H /\ below h y x.
Lemma closure_self h H x : x ∈ H -> closure h H x.
Proof. intros Hx. exists x. split; [done|constructor]. Qed.
Lemma GI_closure D T h (H : list nat) T' : GI D T h -> (forall x, x ∈ H -> D x) -> (forall x, T' x <-> T x /\ closure h H x) -> GI (closure h H) T' h.
Proof.
  intros G HD HT. apply (GI_same _ (fun x => T x /\ closure h H x)); [|done]. apply (GI_shrink D); [done|..].
  - intros x (y & Hy & Hb). apply (below_D D h y x); [apply (g_in _ _ _ G)|apply HD, Hy|done].
  - intros x y (z & Hz & Hb) Hy. exists z. split; [done|]. by eapply below_in.
Qed.

(** ** replacing the elements of a tensor *)
Lemma GI_write D T h h' a r w (H : list nat) : GI D T h -> (forall x, x ∈ H -> D x) -> (forall x, T x -> closure h H x) ->
  at_hand h H a r -> wrote h h' r w -> (forall x, x ∈ H -> ~ uses h x (t_sto r)) -> GI (closure h H) T h'.
Proof.
  intros G0 HD HT [HaH Ha] Hw HH. assert (GI (closure h H) T h) as G. { apply (GI_closure D T); [done|done|]. intros x. split; [auto|tauto]. }
  pose proof Hw as (Et & Es & _). destruct (g_rec _ _ _ G a (closure_self h H a HaH)) as (r1 & Hr1 & Hh & _). assert (r1 = r) as -> by congruence.
  apply (GI_data (closure h H) _ h h' (t_sto r) G); [done|done|..].
  - intros x rx Dx Hx E. destruct (g_rec _ _ _ G x Dx) as (r2 & Hr2 & Hhx & _). assert (r2 = rx) as -> by congruence.
    by eapply wrote_holds.
  - intros x f z rz (y & Hy & Hb) Hf Hz Hrz E. apply (HH y Hy). exists x, f, z, rz. done.
  - intros x Dx Tx Vx Hx. apply (g_apart _ _ _ G x (t_sto r) Dx); [done|done|done|]. exists a, r. split; [left; by apply closure_self|done].
Qed.
