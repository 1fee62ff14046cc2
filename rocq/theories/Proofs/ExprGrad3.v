(** Gradients of expressions: the graph of a whole expression. *)
From Verif.Proofs Require Export ExprGrad2.
From Verif.Model Require Export Exact Api.
#[local] Existing Instance Exact.

Definition zero_arr : array := Arr I32 [] false (fun _ => VI 0).
Section grown.
Context (h0 : heap) (env : nat -> option array).
(** [x] was computed in [h] by the calls of [e]; tensors of [h0] are old *)
Fixpoint grown (h : heap) (e : expr) (x : nat) : Prop :=
  (exists A, den env e = Some A /\ has_arr h x A) /\
  match e with
  | ELeaf t => x = t /\ ~ is_node h x
  | EArith o a b => exists y z, grown h a y /\ grown h b z /\ h_ten h0 !! x = None /\ nodeat h x (back_of o) [y; z]
  | ECmp _ _ _ => ~ is_node h x
  | ENeg a => exists z y, grown h a y /\ h_ten h0 !! x = None /\ nodeat h x SubBack [z; y] /\ has_arr h z zero_arr /\ ~ is_node h z
  | ECast a _ => exists y, grown h a y /\ (x = y \/ h_ten h0 !! x = None /\ nodeat h x CloneBack [y])
  | ECopy a => exists y, grown h a y /\ h_ten h0 !! x = None /\ nodeat h x CloneBack [y]
  | ESum a => exists y, grown h a y /\ h_ten h0 !! x = None /\ nodeat h x SumBack [y]
  | EMean a => exists y, grown h a y /\ h_ten h0 !! x = None /\ nodeat h x MeanBack [y]
  | ETranspose a d0 d1 => exists y, grown h a y /\ h_ten h0 !! x = None /\ nodeat h x NoBack [y] /\ same_cells h x y (exchange (Z.to_nat d0) (Z.to_nat d1))
  | ESlice a _ xs => exists y, grown h a y /\ h_ten h0 !! x = None /\ nodeat h x NoBack [y] /\ on1 env a (fun A => same_cells h x y (src_index (a_ss A) xs))
  | EReshape a _ _ => exists y m, grown h a y /\ h_ten h0 !! x = None /\ (m = y \/ h_ten h0 !! m = None) /\ reshaped h x y m
  | ECat a b d => exists y z, grown h a y /\ grown h b z /\ h_ten h0 !! x = None /\ nodeat h x (CatBack (Z.of_nat d)) [y; z]
  end.
Lemma grown_arr h e x : grown h e x -> exists A, den env e = Some A /\ has_arr h x A.
Proof. destruct e; intros [K _]; exact K. Qed.
Lemma keeps_has h h' x A : Proofs.Expr.keeps h h' -> has_arr h x A -> has_arr h' x A.
Proof. intros K Hx. eapply is_has, K, has_is, Hx. Qed.
Lemma not_node_stays h h' x A : stays h h' -> has_arr h x A -> ~ is_node h x -> ~ is_node h' x.
Proof. intros K (r & [Hr _] & _) N [f Hf]. apply N. exists f. by rewrite <- (stays_fn h h' x r K Hr). Qed.
Lemma nodeat_rec h x k ins : nodeat h x k ins -> exists r, h_ten h !! x = Some r.
Proof. intros (r & Hr & _). by exists r. Qed.
Lemma grown_rec h e x : grown h e x -> exists r, h_ten h !! x = Some r.
Proof. intros (A & _ & r & [Hr _] & _)%grown_arr. by exists r. Qed.
Lemma tracked_stays h h' x r : stays h h' -> h_ten h !! x = Some r -> tracked h' x <-> tracked h x.
Proof.
  intros K Hr. destruct (K x r Hr) as (r' & Hr' & _ & G & _). unfold tracked. rewrite Hr, Hr'. split; intros (u & Hu & E); apply (inj Some) in Hu as <-; eexists; (split; [done|congruence]).
Qed.
Lemma shape_stays h h' x r : stays h h' -> h_ten h !! x = Some r -> shape_of h' x = shape_of h x.
Proof. intros K Hr. unfold shape_of. by rewrite (stays_lay h h' x r). Qed.
Lemma reshaped_stays h h' x y m ry : stays h h' -> h_ten h !! y = Some ry -> reshaped h x y m -> reshaped h' x y m.
Proof.
  intros K Hy (Hm & Nx & S & Tr). destruct (nodeat_rec _ _ _ _ Nx) as [rx Hx].
  assert (exists rm, h_ten h !! m = Some rm) as [rm Hrm]. { destruct Hm as [->|[Nm _]]; [by exists ry|by eapply nodeat_rec]. }
  split; [|split; [by eapply nodeat_stays|split]].
  - destruct Hm as [->|[Nm Sm]]; [by left|right]. split; [by eapply nodeat_stays|]. by rewrite (shape_stays _ _ _ _ K Hrm), (shape_stays _ _ _ _ K Hy).
  - rewrite (shape_stays _ _ _ _ K Hrm), (shape_stays _ _ _ _ K Hx). by eapply same_cells_stays.
  - intros Hx'. rewrite (tracked_stays _ _ _ _ K Hrm), (tracked_stays _ _ _ _ K Hy). apply Tr. by apply (tracked_stays _ _ _ _ K Hx).
Qed.
Lemma grown_stays h h' e : stays h h' -> Proofs.Expr.keeps h h' -> forall x, grown h e x -> grown h' e x.
Proof.
  intros K Kp. induction e as [t|o a IHa b IHb|c a IHa b IHb|a IHa|a IHa D|a IHa|a IHa|a IHa|a IHa d0 d1|a IHa s xs|a IHa xs ss|a IHa b IHb d]; intros x Hx;
    pose proof (grown_arr _ _ _ Hx) as (A & EA & HA); pose proof HA as (rx & [Rx _] & _); destruct Hx as [_ Hx]; (split; [exists A; split; [done|by eapply keeps_has]|]).
  - destruct Hx as [E N]. split; [done|by eapply not_node_stays].
  - destruct Hx as (y & z & Gy & Gz & N & Nd). exists y, z. split; [by apply IHa|]. split; [by apply IHb|]. split; [done|by eapply nodeat_stays].
  - by eapply not_node_stays.
  - destruct Hx as (z & y & Gy & N & Nd & Hz & Nz). exists z, y. split; [by apply IHa|]. split; [done|]. split; [by eapply nodeat_stays|]. split; [by eapply keeps_has|by eapply not_node_stays].
  - destruct Hx as (y & Gy & Hx). exists y. split; [by apply IHa|]. destruct Hx as [->|[N Nd]]; [by left|right]. split; [done|by eapply nodeat_stays].
  - destruct Hx as (y & Gy & N & Nd). exists y. split; [by apply IHa|]. split; [done|by eapply nodeat_stays].
  - destruct Hx as (y & Gy & N & Nd). exists y. split; [by apply IHa|]. split; [done|by eapply nodeat_stays].
  - destruct Hx as (y & Gy & N & Nd). exists y. split; [by apply IHa|]. split; [done|by eapply nodeat_stays].
  - destruct Hx as (y & Gy & N & Nd & S). destruct (grown_rec _ _ _ Gy) as [ry Ry]. exists y. split; [by apply IHa|]. split; [done|]. split; [by eapply nodeat_stays|by eapply same_cells_stays].
  - destruct Hx as (y & Gy & N & Nd & S). destruct (grown_rec _ _ _ Gy) as [ry Ry]. exists y. split; [by apply IHa|]. split; [done|]. split; [by eapply nodeat_stays|].
    intros A0 EA0. eapply same_cells_stays; [done|done|done|by apply S].
  - destruct Hx as (y & m & Gy & N & Nm & R). destruct (grown_rec _ _ _ Gy) as [ry Ry]. exists y, m. split; [by apply IHa|]. split; [done|]. split; [done|by eapply reshaped_stays].
  - destruct Hx as (y & z & Gy & Gz & N & Nd). exists y, z. split; [by apply IHa|]. split; [by apply IHb|]. split; [done|by eapply nodeat_stays].
Qed.

(** ** the calls *)
Fixpoint callable (e : expr) : Prop :=
  match e with
  | ELeaf _ => True
  | EArith o a b => callable a /\ callable b /\ (o = ADiv -> on2 env a b (fun A B => a_rg A || a_rg B = true ->
      a_rg A = true /\ a_rg B = true /\ a_ss B = bshape (a_ss A) (a_ss B)))
  | ECmp _ a b | ECat a b _ => callable a /\ callable b
  | EReshape a xs _ => callable a /\ Forall (fun x => -1 <= x) xs /\ given xs < 2 ^ 64
  | EMean a | ENeg a | ECast a _ | ECopy a | ESum a | ETranspose a _ _ | ESlice a _ _ => callable a
  end.
Lemma smooth_callable e : smooth env e -> callable e.
Proof.
  induction e; cbn [smooth callable]; try tauto. intros (H1 & H2 & H3). split; [auto|]. split; [auto|]. intros Ho A B EA EB Hg. destruct (H3 Ho A B EA EB Hg) as (? & ? & ? & _). done.
Qed.
Lemma root_callable e : smooth_root env e -> callable e.
Proof. destruct e; cbn [smooth_root]; intros Hs; try done; try (by apply smooth_callable in Hs). Qed.
Definition grows (e : expr) : Prop := forall ops H T h A, program ops H T h -> (forall t A, env t = Some A -> is_arr h t A true) -> leaves_held h H env -> stays h0 h -> den env e = Some A ->
  exists l x h' H', Spec.Expr.eval e h = (Ok x, h') /\ program (ops ++ l) H' T h' /\ (forall a, a ∈ H -> a ∈ H') /\ x ∈ H' /\ stays h h' /\ Proofs.Expr.keeps h h' /\ is_arr h' x A (ready e) /\ grown h' e x.
Lemma program_reach ops H T h : program ops H T h -> reachable h.
Proof. intros [_ [rs Hr]]%program_run. by exists ops, rs. Qed.
Lemma one_call ops H T h o x h' : program ops H T h -> may_call h H o -> Proofs.Expr.forward o -> exec o h = (Ok (RHandle (Some x)), h') ->
  program (ops ++ [o]) (x :: H) T h' /\ Proofs.Expr.keeps h h' /\ call o h = (Ok x, h').
Proof.
  intros Hp Hc Hf E. split; [by eapply PCall|]. split; [intros t A b; by eapply forward_keeps|]. unfold call. by rewrite E.
Qed.
Lemma leaves_later h h' H H' : (forall t A, env t = Some A -> is_arr h t A true) -> leaves_held h H env -> stays h h' -> (forall a, a ∈ H -> a ∈ H') -> leaves_held h' H' env.
Proof. intros L LH K S t A EA. destruct (LH t A EA) as [H1 H2]. split; [auto|]. eapply not_node_stays; [done|eapply is_has; by apply L|done]. Qed.
Lemma grow1 a e (o : nat -> op) g : (forall h, Spec.Expr.eval e h = (let! x := Spec.Expr.eval a in call (o x)) h) -> den env e = bind1 (den env a) g -> (forall x, Proofs.Expr.forward (o x)) -> grows a ->
  (forall ops H T h A y, program ops H T h -> den env a = Some A -> y ∈ H -> is_arr h y A (ready a) ->
     may_call h H (o y) /\ gives (o y) h (g A) (ready e) /\
     forall x h' B, den env e = Some B -> exec (o y) h = (Ok (RHandle (Some x)), h') -> is_arr h' x B (ready e) -> stays h0 h ->
       stays h h' /\ (grown h' a y -> grown h' e x)) -> grows e.
Proof.
  intros Ev Ed Hf IH Hstep ops H T h B Hp L LH K0 EB. rewrite Ed in EB. destruct (den env a) as [A|] eqn:EA; [|done]. cbn [bind1] in EB.
  destruct (IH ops H T h A Hp L LH K0 EA) as (l & y & h1 & H1 & E1 & P1 & S1 & Y1 & K1 & Kp1 & Hy & Gy).
  destruct (Hstep _ H1 T h1 A y P1 eq_refl Y1 Hy) as (Hc & Hg & Hfin). rewrite EB in Hg. destruct Hg as (x & h2 & E2 & Hx).
  destruct (one_call _ _ _ _ _ _ _ P1 Hc (Hf y) E2) as (P2 & Kp2 & C2). destruct (Hfin x h2 B) as [K2 G2]; [by rewrite Ed|done|done|by eapply stays_trans|].
  exists (l ++ [o y]), x, h2, (x :: H1). split; [rewrite Ev; by erewrite bind_ok by exact E1|]. split; [by rewrite app_assoc|]. split; [intros; apply elem_of_list_further; auto|]. split; [apply elem_of_list_here|].
  split; [by eapply stays_trans|]. split; [intros ????; auto|]. split; [done|]. apply G2. by eapply grown_stays.
Qed.
Lemma grow2 a b e (o : nat -> nat -> op) g : (forall h, Spec.Expr.eval e h = (let! x := Spec.Expr.eval a in let! y := Spec.Expr.eval b in call (o x y)) h) -> den env e = bind2 (den env a) (den env b) g -> (forall x y, Proofs.Expr.forward (o x y)) -> grows a -> grows b ->
  (forall ops H T h A B y z, program ops H T h -> den env a = Some A -> den env b = Some B -> y ∈ H -> z ∈ H -> is_arr h y A (ready a) -> is_arr h z B (ready b) ->
     may_call h H (o y z) /\ gives (o y z) h (g A B) (ready e) /\
     forall x h' C, den env e = Some C -> g A B = Some C -> exec (o y z) h = (Ok (RHandle (Some x)), h') -> is_arr h' x C (ready e) -> stays h0 h ->
       stays h h' /\ (grown h' a y -> grown h' b z -> grown h' e x)) -> grows e.
Proof.
  intros Ev Ed Hf IHa IHb Hstep ops H T h C Hp L LH K0 EC. rewrite Ed in EC. destruct (den env a) as [A|] eqn:EA; [|done]. destruct (den env b) as [B|] eqn:EB; [|done]. cbn [bind1 bind2] in EC.
  destruct (IHa ops H T h A Hp L LH K0 EA) as (l & y & h1 & H1 & E1 & P1 & S1 & Y1 & K1 & Kp1 & Hy & Gy).
  destruct (IHb _ H1 T h1 B P1) as (l2 & z & h2 & H2 & E2 & P2 & S2 & Z2 & K2 & Kp2 & Hz & Gz); [intros; by apply Kp1, L|by eapply leaves_later|by eapply stays_trans|done|].
  destruct (Hstep _ H2 T h2 A B y z P2 eq_refl eq_refl (S2 y Y1) Z2 (Kp2 _ _ _ Hy) Hz) as (Hc & Hg & Hfin). rewrite EC in Hg. destruct Hg as (x & h3 & E3 & Hx).
  destruct (one_call _ _ _ _ _ _ _ P2 Hc (Hf y z) E3) as (P3 & Kp3 & C3). destruct (Hfin x h3 C) as [K3 G3]; [by rewrite Ed|done|done|done|eapply stays_trans; [done|by eapply stays_trans]|].
  exists (l ++ l2 ++ [o y z]), x, h3, (x :: H2). split; [rewrite Ev; erewrite bind_ok by exact E1; by erewrite bind_ok by exact E2|].
  split; [rewrite !app_assoc in *; exact P3|]. split; [intros; apply elem_of_list_further; auto|]. split; [apply elem_of_list_here|].
  split; [eapply stays_trans; [exact K1|by eapply stays_trans]|]. split; [intros ?? bb Hq; apply Kp3, Kp2, Kp1, Hq|]. split; [done|].
  assert (Proofs.Expr.keeps h1 h3) by (intros ????; auto). apply G3; [apply (grown_stays h1 h3); [by eapply stays_trans|done|done]|by apply (grown_stays h2 h3)].
Qed.
Lemma new_old h x : stays h0 h -> h_ten h !! x = None -> h_ten h0 !! x = None.
Proof. intros K N. destruct (h_ten h0 !! x) as [r|] eqn:E; [|done]. destruct (K x r E) as (r' & ? & _). congruence. Qed.
Lemma hand_of h H y A b : is_arr h y A b -> y ∈ H -> exists r, at_hand h H y r /\ t_dt r = a_dt A /\ shape r = a_ss A /\ t_rg r = a_rg A.
Proof. intros (r & [Hr _] & H1 & H2 & H3 & _) Hy. by exists r. Qed.
Lemma grow e : accepted env e -> callable e -> grows e.
Proof.
  induction e as [t|o a IHa b IHb|c a IHa b IHb|a IHa|a IHa D|a IHa|a IHa|a IHa|a IHa d0 d1|a IHa s xs|a IHa xs ss|a IHa b IHb d]; intros Hac Hcl; cbn [accepted callable] in *.
  - intros ops H T h A Hp L LH K0 EA. cbn [den] in EA. destruct (LH t A EA) as [Ht Hn]. exists [], t, h, H. split; [done|]. rewrite app_nil_r. split; [done|]. split; [done|]. split; [done|]. split; [apply stays_refl|].
    split; [by intros ???|]. split; [by apply L|]. split; [exists A; split; [done|eapply is_has; by apply L]|done].
  - destruct Hac as (Ha & Hb & Hon). destruct Hcl as (Ca & Cb & Hdiv). eapply (grow2 a b _ (fun x y => exec_arith o (Some x) (Some y))); [done|done|intros; apply arith_forward|auto|auto|].
    intros ops H T h A B y z Hp EA EB Hy Hz Ay Az. destruct (Hon A B EA EB) as (C1 & C2 & C3). destruct (hand_of _ _ _ _ _ Ay Hy) as (ry & Ry & Dy & Sy & Gy). destruct (hand_of _ _ _ _ _ Az Hz) as (rz & Rz & Dz & Sz & Gz).
    split; [|split; [eapply g_arith; try done; apply qc_comm|]].
    + eapply CArith; [exact Ry|exact Rz|by rewrite Sy, Sz|by rewrite Sy, Sz|rewrite Sy, Sz, Dy, Dz; apply C3|]. rewrite Gy, Gz, Sy, Sz. intros Ho. by apply Hdiv.
    + intros x h' C EC EC' E Hx K0. destruct (n_arith o h y z A B C x h' _ _ Ay Az C1 C2 C3 EC' E) as (K & N & Nd). split; [done|]. intros G1 G2. split; [exists C; split; [done|by eapply is_has]|]. exists y, z. split; [done|]. split; [done|]. split; [by eapply new_old|done].
  - destruct Hac as (Ha & Hb & Hon). destruct Hcl as (Ca & Cb). eapply (grow2 a b _ (fun x y => OCmp c (Some x) (Some y))); [done|done|done|auto|auto|].
    intros ops H T h A B y z Hp EA EB Hy Hz Ay Az. destruct (Hon A B EA EB) as (C1 & C2 & C3). destruct (hand_of _ _ _ _ _ Ay Hy) as (ry & Ry & Dy & Sy & Gy). destruct (hand_of _ _ _ _ _ Az Hz) as (rz & Rz & Dz & Sz & Gz).
    split; [|split; [by eapply g_cmp|]].
    + eapply CCmp; [exact Ry|exact Rz|by rewrite Sy, Sz|by rewrite Sy, Sz|rewrite Sy, Sz; apply C3].
    + intros x h' C EC EC' E Hx K0. destruct (n_cmp c h y z A B x h' _ _ Ay Az C1 C2 C3 E) as (K & N). split; [done|]. intros G1 G2. split; [exists C; split; [done|by eapply is_has]|]. done.
  - destruct Hac as (Ha & Hon). eapply (grow1 a _ (fun x => ONeg (Some x))); [done|done|done|auto|]. intros ops H T h A y Hp EA Hy Ay. pose proof (Hon A EA) as C1. destruct (hand_of _ _ _ _ _ Ay Hy) as (ry & Ry & Dy & Sy & Gy).
    split; [eapply CNeg; [exact Ry|rewrite Sy, Dy; apply C1]|]. split; [by eapply g_neg|]. intros x h' B EB E Hx K0. pose proof EB as EB'. cbn [den] in EB'. rewrite EA in EB'. cbn [bind1] in EB'.
    destruct (n_neg h y A B x h' _ Ay C1 EB' E) as (z & (K & N & Nd) & Z1 & Z2). split; [done|]. intros G1. split; [exists B; split; [done|by eapply is_has]|]. exists z, y. split; [done|]. split; [by eapply new_old|done].
  - destruct Hac as (Ha & Hon). eapply (grow1 a _ (fun x => OTypeTo (Some x) D)); [done|done|done|auto|]. intros ops H T h A y Hp EA Hy Ay. destruct (Hon A EA) as [C1 C2]. destruct (hand_of _ _ _ _ _ Ay Hy) as (ry & Ry & Dy & Sy & Gy).
    split; [eapply CType; [exact Ry|rewrite Sy; apply C1]|]. split; [by eapply g_cast|]. intros x h' B EB E Hx K0. pose proof EB as EB'. cbn [den] in EB'. rewrite EA in EB'. cbn [bind1] in EB'.
    destruct (n_cast D h y A B x h' _ Ay C1 C2 EB' E) as [[-> ->]|(K & N & Nd)].
    + split; [apply stays_refl|]. intros G1. split; [exists B; split; [done|by eapply is_has]|]. exists y. split; [done|by left].
    + split; [done|]. intros G1. split; [exists B; split; [done|by eapply is_has]|]. exists y. split; [done|]. right. split; [by eapply new_old|done].
  - destruct Hac as (Ha & Hon). eapply (grow1 a _ (fun x => OClone (Some x)) Some); [done|by cbn [den]; destruct (den env a)|done|auto|]. intros ops H T h A y Hp EA Hy Ay. pose proof (Hon A EA) as C1. destruct (hand_of _ _ _ _ _ Ay Hy) as (ry & Ry & Dy & Sy & Gy).
    split; [by eapply CClone|]. split; [by eapply g_copy|]. intros x h' B EB E Hx K0.
    destruct (n_copy h y A x h' _ Ay C1 E) as (K & N & Nd). split; [done|]. intros G1. split; [exists B; split; [done|by eapply is_has]|]. exists y. split; [done|]. split; [by eapply new_old|done].
  - destruct Hac as (Ha & Hon). eapply (grow1 a _ (fun x => OSum (Some x))); [done|done|done|auto|]. intros ops H T h A y Hp EA Hy Ay. pose proof (Hon A EA) as C1. destruct (hand_of _ _ _ _ _ Ay Hy) as (ry & Ry & Dy & Sy & Gy).
    split; [by eapply CSum|]. split; [by eapply g_sum|]. intros x h' B EB E Hx K0. pose proof EB as EB'. cbn [den] in EB'. rewrite EA in EB'. cbn [bind1] in EB'.
    destruct (n_sum h y A B x h' _ Ay C1 EB' E) as (K & N & Nd). split; [done|]. intros G1. split; [exists B; split; [done|by eapply is_has]|]. exists y. split; [done|]. split; [by eapply new_old|done].
  - destruct Hac as (Ha & Hon). eapply (grow1 a _ (fun x => OMean (Some x))); [done|done|done|auto|]. intros ops H T h A y Hp EA Hy Ay. pose proof (Hon A EA) as C1. destruct (hand_of _ _ _ _ _ Ay Hy) as (ry & Ry & Dy & Sy & Gy).
    split; [by eapply CMean|]. split; [by eapply g_mean|]. intros x h' B EB E Hx K0. pose proof EB as EB'. cbn [den] in EB'. rewrite EA in EB'. cbn [bind1] in EB'.
    destruct (n_mean h y A B x h' _ Ay C1 EB' E) as (K & N & Nd). split; [done|]. intros G1. split; [exists B; split; [done|by eapply is_has]|]. exists y. split; [done|]. split; [by eapply new_old|done].
  - destruct Hac as (Ha & Hon). eapply (grow1 a _ (fun x => OTranspose (Some x) d0 d1)); [done|done|done|auto|]. intros ops H T h A y Hp EA Hy Ay. destruct (Hon A EA) as (C1 & C2 & C3). destruct (hand_of _ _ _ _ _ Ay Hy) as (ry & Ry & Dy & Sy & Gy).
    split; [by eapply CTranspose|]. split; [apply g_transpose; try done; by eapply program_reach|]. intros x h' B EB E Hx K0.
    destruct (n_transpose ops H T h y Hp Hy d0 d1 A x h' _ Ay C1 C2 E) as ((K & N & Nd) & S). split; [done|]. intros G1. split; [exists B; split; [done|by eapply is_has]|]. exists y. split; [done|]. split; [by eapply new_old|done].
  - destruct Hac as (Ha & Hre & Htx & Hon). eapply (grow1 a _ (fun x => OSlice (Some x) s)); [done|done|done|auto|]. intros ops H T h A y Hp EA Hy Ay. destruct (Hon A EA) as (C1 & C2 & C3). destruct (hand_of _ _ _ _ _ Ay Hy) as (ry & Ry & Dy & Sy & Gy).
    rewrite Hre in Ay. split; [eapply CSlice; [exact Ry|rewrite Sy; eapply Forall_impl; [exact C1|simpl; lia]]|]. split; [cbn [ready]; rewrite Hre; apply g_slice; try done; by eapply program_reach|]. intros x h' B EB E Hx K0.
    destruct (n_slice ops H T h y Hp Hy s xs A x h' Ay Htx C1 C2 C3 E) as ((K & N & Nd) & S). split; [done|]. intros G1. split; [exists B; split; [done|by eapply is_has]|]. exists y. split; [done|]. split; [by eapply new_old|]. split; [done|].
    intros A2 EA2. assert (A2 = A) as -> by congruence. done.
  - destruct Hac as (Ha & Hre & Hll & Hon). destruct Hcl as (Ca & Hx1 & Hx2). eapply (grow1 a _ (fun x => OReshape (Some x) xs)); [done|done|done|auto|]. intros ops H T h A y Hp EA Hy Ay. destruct (Hon A EA) as (C1 & C2 & C3 & C4 & C5). destruct (hand_of _ _ _ _ _ Ay Hy) as (ry & Ry & Dy & Sy & Gy).
    rewrite Hre in Ay. split; [by eapply CReshape|]. split; [apply g_reshape; try done; by eapply program_reach|]. intros x h' B EB E Hx K0.
    destruct (n_reshape ops H T h y xs x h' Hp Hy Hll Hx1 Hx2 E) as (K & N & m & Nm & R). split; [done|]. intros G1. split; [exists B; split; [done|by eapply is_has]|]. exists y, m. split; [done|]. split; [by eapply new_old|]. split; [|done].
    destruct Nm as [->|Nm]; [by left|right; by eapply new_old].
  - destruct Hac as (Ha & Hb & Hon). destruct Hcl as (Ca & Cb). eapply (grow2 a b _ (fun x y => OCat [Some x; Some y] (Z.of_nat d))); [done|done|done|auto|auto|].
    intros ops H T h A B y z Hp EA EB Hy Hz Ay Az. destruct (Hon A B EA EB) as (C1 & C2 & C3). cbv zeta in C3. destruct C3 as [C3 C4]. destruct (hand_of _ _ _ _ _ Ay Hy) as (ry & Ry & Dy & Sy & Gy). destruct (hand_of _ _ _ _ _ Az Hz) as (rz & Rz & Dz & Sz & Gz).
    split; [|split; [by eapply g_cat|]].
    + apply (CCat h H [y; z] ry [rz] (Z.of_nat d)); [constructor; [done|constructor; [done|constructor]]|]. rewrite Nat2Z.id.
      assert (cat_shape d ry [ry; rz] = <[d := nth d (a_ss A) 0 + nth d (a_ss B) 0]> (a_ss A)) as ->. { unfold cat_shape, sizes_along. cbn [map total_len fold_right]. rewrite Sy, Sz. f_equal. lia. }
      assert (cat_type ry [ry; rz] = dt_join (a_dt A) (a_dt B)) as ->. { unfold cat_type. cbn [fold_left]. by rewrite Dy, Dz, dt_join_self. }
      split; [|apply C4]. assert (Forall (fun n => 0 <= n) (a_ss A)) as NA. { rewrite <- Sy. destruct Ry as [_ Ry]. destruct Ay as (r' & [Hr' Hv] & _). assert (r' = ry) as -> by congruence. by eapply holds_nonneg. }
      assert (Forall (fun n => 0 <= n) (a_ss B)) as NB. { rewrite <- Sz. destruct Rz as [_ Rz]. destruct Az as (r' & [Hr' Hv] & _). assert (r' = rz) as -> by congruence. by eapply holds_nonneg. }
      assert (forall l : list Z, Forall (fun n => 0 <= n) l -> 0 <= nth d l 0) as Hnth. { intros l Hl. destruct (nth_in_or_default d l 0) as [Hin| ->]; [|done]. rewrite List.Forall_forall in Hl. by apply Hl. }
      assert (Forall (fun n => 0 <= n) (<[d := nth d (a_ss A) 0 + nth d (a_ss B) 0]> (a_ss A))) as NC. { apply Forall_insert; [done|]. pose proof (Hnth _ NA). pose proof (Hnth _ NB). lia. }
      rewrite Forall_forall in C3, NC |- *. intros n Hn. specialize (C3 n Hn). specialize (NC n Hn). simpl in *. lia.
    + intros x h' C EC EC' E Hx K0. destruct (n_cat d h y z A B x h' _ _ Ay Az C1 C2 C3 C4 E) as (K & N & Nd). split; [done|]. intros G1 G2. split; [exists C; split; [done|by eapply is_has]|]. exists y, z. split; [done|]. split; [done|]. split; [by eapply new_old|done].
Qed.
End grown.
