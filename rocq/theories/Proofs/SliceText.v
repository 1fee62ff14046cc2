(** How subscript strings are read. *)
From Verif.Spec Require Export Slice.
From Verif.Proofs Require Export Basics.
From Verif.Model Require Export Utils.

(** ** splitting *)
Lemma ssplit_go_end d s cur : d ∉ s -> ssplit_go d s cur = [rev cur ++ s].
Proof.
  revert cur. induction s as [|c s IH]; intros cur Hd; simpl; [by rewrite app_nil_r|].
  destruct (Ascii.eqb_spec c d) as [->|Hne]; [exfalso; apply Hd; left|].
  rewrite IH by (intros H; apply Hd; by right). simpl. by rewrite <- app_assoc.
Qed.
Lemma ssplit_go_cut d a b cur : d ∉ a -> ssplit_go d (a ++ d :: b) cur = (rev cur ++ a) :: ssplit_go d b [].
Proof.
  revert cur. induction a as [|c a IH]; intros cur Hd; simpl.
  - by rewrite Ascii.eqb_refl, app_nil_r.
  - destruct (Ascii.eqb_spec c d) as [->|Hne]; [exfalso; apply Hd; left|].
    rewrite IH by (intros H; apply Hd; by right). simpl. by rewrite <- app_assoc.
Qed.
Lemma ssplit_one d s : s <> [] -> d ∉ s -> ssplit s d = [s].
Proof. intros Hs Hd. unfold ssplit. destruct s; [done|]. by rewrite ssplit_go_end. Qed.
Lemma ssplit_two d a b : d ∉ a -> d ∉ b -> ssplit (a ++ d :: b) d = [a; b].
Proof.
  intros Ha Hb. unfold ssplit. destruct (a ++ d :: b) eqn:E; [by destruct a|]. rewrite <- E.
  rewrite ssplit_go_cut by done. by rewrite ssplit_go_end.
Qed.
Lemma ssplit_three d a b c : d ∉ a -> d ∉ b -> d ∉ c -> ssplit (a ++ d :: b ++ d :: c) d = [a; b; c].
Proof.
  intros Ha Hb Hc. unfold ssplit. destruct (a ++ d :: b ++ d :: c) eqn:E; [by destruct a|]. rewrite <- E.
  rewrite ssplit_go_cut by done. rewrite ssplit_go_cut by done. by rewrite ssplit_go_end.
Qed.
Lemma ssplit_commas items : Forall (fun s => s <> [] /\ ","%char ∉ s) items ->
  ssplit (commas items) ","%char = items.
Proof.
  intros Hall. destruct items as [|s0 items0]; [done|]. assert (s0 :: items0 <> []) as Hne by done. revert Hall Hne.
  generalize (s0 :: items0) as items. intros items Hall Hne. assert (ssplit_go ","%char (commas items) [] = items) as E.
  { destruct items as [|s items]; [|clear Hne].
    - done.
    - revert s Hall. induction items as [|s' items IH]; intros s Hall.
      + simpl. apply Forall_singleton in Hall as [_ H]. by rewrite ssplit_go_end.
      + apply Forall_cons_1 in Hall as [[_ H] Hall]. change (commas (s :: s' :: items)) with (s ++ ","%char :: commas (s' :: items)).
        rewrite ssplit_go_cut by done. simpl rev. by rewrite IH. }
  unfold ssplit. destruct (commas items) eqn:E'; [|by rewrite <- E].
  exfalso. destruct items as [|s [|s' items]]; [done| |].
  - simpl in E'. apply Forall_singleton in Hall as [H _]. done.
  - simpl in E'. by destruct s.
Qed.

(** ** blanks *)
Lemma blank_ws c : blank c <-> is_ws c = true.
Proof.
  unfold blank, is_ws. rewrite existsb_exists. split.
  - intros (n & -> & Hn)%elem_of_list_fmap. exists n. split.
    + apply elem_of_list_In in Hn. simpl in *. tauto.
    + rewrite nat_ascii_embedding; [apply Nat.eqb_refl|]. set_unfold in Hn. lia.
  - intros (n & Hn & E%Nat.eqb_eq). subst n. apply elem_of_list_fmap. exists (nat_of_ascii c).
    split; [by rewrite ascii_nat_embedding|]. apply elem_of_list_In. simpl in *. tauto.
Qed.
Lemma drop_ws_blank a b : Forall blank a -> drop_ws (a ++ b) = drop_ws b.
Proof. induction 1 as [|c a Hc Ha IH]; simpl; [done|]. apply blank_ws in Hc. by rewrite Hc. Qed.
Lemma drop_ws_stop c b : ~ blank c -> drop_ws (c :: b) = c :: b.
Proof. intros H. simpl. destruct (is_ws c) eqn:E; [|done]. by apply blank_ws in E. Qed.
Lemma drop_ws_split s : exists a, Forall blank a /\ s = a ++ drop_ws s.
Proof.
  induction s as [|c s (a & Ha & E)]; [by exists []|]. simpl. destruct (is_ws c) eqn:Ec.
  - exists (c :: a). split; [constructor; [by apply blank_ws|done]|]. simpl. by f_equal.
  - by exists [].
Qed.
Lemma drop_ws_all a : Forall blank a -> drop_ws a = [].
Proof. intros H. rewrite <- (app_nil_r a). by rewrite drop_ws_blank. Qed.
Lemma drop_ws_nil a : drop_ws a = [] -> Forall blank a.
Proof. intros E. destruct (drop_ws_split a) as (x & Hx & Ex). rewrite E, app_nil_r in Ex. by subst. Qed.
Lemma trim_split s : exists a b, Forall blank a /\ Forall blank b /\ s = a ++ trim s ++ b.
Proof.
  unfold trim. destruct (drop_ws_split (rev s)) as (b & Hb & Eb).
  destruct (drop_ws_split (rev (drop_ws (rev s)))) as (a & Ha & Ea).
  exists a, (rev b). split; [done|]. split; [by apply Forall_rev|].
  rewrite app_assoc, <- Ea, <- rev_app_distr, <- Eb, rev_involutive. done.
Qed.
Lemma trim_blank s : Forall blank s -> trim s = [].
Proof. intros H. unfold trim. rewrite (drop_ws_all (rev s)); [done|]. by apply Forall_rev. Qed.
Lemma trim_core a b x core y : Forall blank a -> Forall blank b -> ~ blank x -> ~ blank y ->
  forall m, x :: core = m ++ [y] -> trim (a ++ (x :: core) ++ b) = x :: core.
Proof.
  intros Ha Hb Hx Hy m E. unfold trim. rewrite !rev_app_distr, <- app_assoc.
  rewrite drop_ws_blank by (by apply Forall_rev). rewrite E, rev_app_distr. simpl rev at 2. simpl app.
  rewrite drop_ws_stop by done. simpl rev. rewrite rev_app_distr, !rev_involutive, <- app_assoc, <- E.
  rewrite drop_ws_blank by done. by rewrite drop_ws_stop.
Qed.

(** ** numbers *)
Lemma digit_of_digit c : digit c -> digit_of c = Some (Z.of_nat (nat_of_ascii c) - 48).
Proof. unfold digit, digit_of. intros H. cbv zeta. assert ((48 <=? Z.of_nat (nat_of_ascii c)) && (Z.of_nat (nat_of_ascii c) <=? 57) = true) as -> by lia. done. Qed.
Lemma digit_of_none c : ~ digit c -> digit_of c = None.
Proof. unfold digit, digit_of. intros H. cbv zeta. destruct (_ && _) eqn:E; [|done]. lia. Qed.
Lemma digits_app acc ds rest : Forall digit ds -> ~ (exists c, head rest = Some c /\ digit c) ->
  digits acc (ds ++ rest) = fold_left (fun a c => 10 * a + (Z.of_nat (nat_of_ascii c) - 48)) ds acc.
Proof.
  intros H Hr. revert acc. induction H as [|c ds Hc Hds IH]; intros acc; simpl.
  - destruct rest as [|c rest]; [done|]. simpl. rewrite digit_of_none; [done|]. intros Hc. apply Hr. by exists c.
  - rewrite digit_of_digit by done. apply IH.
Qed.
Lemma not_blank c : digit c \/ c = "-"%char \/ c = "+"%char -> ~ blank c.
Proof.
  intros H Hb. unfold blank in Hb. apply elem_of_list_fmap in Hb as (n & -> & Hn). set_unfold in Hn.
  destruct H as [H|[H|H]].
  - unfold digit in H. rewrite nat_ascii_embedding in H; lia.
  - destruct_or! Hn; subst; discriminate H.
  - destruct_or! Hn; subst; discriminate H.
Qed.
Lemma digit_not_sign c : digit c -> c <> "-"%char /\ c <> "+"%char.
Proof. unfold digit. intros H. split; intros ->; vm_compute in H; lia. Qed.
Lemma in_s64_fits z : in_s64 z <-> fits_s64 z = true.
Proof. unfold in_s64, fits_s64, two63. split; intros; [|]; lia. Qed.

Lemma stoll_begins s z rest : begins_int s z rest -> stoll s = if fits_s64 z then Ok z else Throw OutOfRange.
Proof.
  intros [pre sign ds Hpre Hds Hdig Hrest -> Hz]. unfold stoll. rewrite drop_ws_blank by done.
  destruct ds as [|c ds]; [done|]. pose proof (Forall_cons_1 _ _ _ Hdig) as [Hc _].
  pose proof (digit_not_sign c Hc) as [Hn1 Hn2].
  assert (digits 0 ((c :: ds) ++ rest) = dec_value (c :: ds)) as Ed by (by rewrite digits_app).
  destruct Hz as [[-> ->]|[[-> | ->] ->]].
  - cbn [app]. rewrite drop_ws_stop by (apply not_blank; auto).
    rewrite Ascii.eqb_refl. rewrite digit_of_digit by done.
    change (c :: ds ++ rest) with ((c :: ds) ++ rest). by rewrite Ed.
  - cbn [app]. rewrite drop_ws_stop by (apply not_blank; auto).
    destruct (Ascii.eqb_spec c "-"%char); [done|]. destruct (Ascii.eqb_spec c "+"%char); [done|].
    rewrite digit_of_digit by done. change (c :: ds ++ rest) with ((c :: ds) ++ rest). by rewrite Ed.
  - cbn [app]. rewrite drop_ws_stop by (apply not_blank; auto).
    destruct (Ascii.eqb_spec "+" "-"); [done|]. rewrite Ascii.eqb_refl. rewrite digit_of_digit by done.
    change (c :: ds ++ rest) with ((c :: ds) ++ rest). by rewrite Ed.
Qed.
Lemma digits_split s : exists ds rest, Forall digit ds /\ ~ (exists c, head rest = Some c /\ digit c) /\ s = ds ++ rest.
Proof.
  induction s as [|c s (ds & rest & Hds & Hr & ->)].
  - exists [], []. split; [done|]. split; [|done]. by intros (c & ? & _).
  - destruct (decide (48 <= nat_of_ascii c <= 57)%nat) as [Hc|Hc].
    + exists (c :: ds), rest. split; [by constructor|]. done.
    + exists [], (c :: ds ++ rest). split; [done|]. split; [|done]. by intros (x & [= <-] & ?).
Qed.
Lemma stoll_cases s :
  (exists z rest, begins_int s z rest) \/
  (stoll s = Throw InvalidArgument /\ ~ exists z rest, begins_int s z rest).
Proof.
  assert (stoll s = Throw InvalidArgument \/ exists z rest, begins_int s z rest) as [H|H]; [|right; split; [done|]|by left].
  2:{ intros (z & rest & Hb). rewrite (stoll_begins _ _ _ Hb) in H. by destruct (fits_s64 z). }
  unfold stoll. destruct (drop_ws_split s) as (pre & Hpre & Es). destruct (drop_ws s) as [|c r]; [by left|].
  assert (forall sign c' r' z0, (sign = ["-"%char] /\ z0 = -1) \/ ((sign = [] \/ sign = ["+"%char]) /\ z0 = 1) -> c :: r = sign ++ c' :: r' ->
    digit_of c' = None \/ exists z rest, begins_int s z rest) as Hgo.
  { intros sign c' r' z0 Hsign E. destruct (digit_of c') eqn:Ed; [|by left]. right.
    destruct (digits_split r') as (ds & rest & Hds & Hr & ->).
    assert (digit c') as Hc'.
    { unfold digit, digit_of in *. cbv zeta in Ed. destruct (_ && _) eqn:Eb in Ed; [lia|done]. }
    exists (z0 * dec_value (c' :: ds)), rest. apply (Begins _ _ _ pre sign (c' :: ds)); try done.
    - by constructor.
    - by rewrite Es, E.
    - destruct Hsign as [[-> ->]|[H ->]]; [left|right]; (split; [done|]); lia. }
  destruct (Ascii.eqb_spec c "-"%char) as [->|Hm].
  { destruct r as [|c' r']; [by left|]. destruct (Hgo ["-"%char] c' r' (-1)) as [->|H]; auto. }
  destruct (Ascii.eqb_spec c "+"%char) as [->|Hp].
  { destruct r as [|c' r']; [by left|]. destruct (Hgo ["+"%char] c' r' 1) as [->|H]; auto. }
  destruct (Hgo [] c r 1) as [->|H]; auto.
Qed.
Lemma begins_trim s z rest : begins_int (trim s) z rest -> exists rest', begins_int s z rest'.
Proof.
  intros [pre sign ds Hpre Hds Hdig Hrest E Hz]. destruct (trim_split s) as (a & b & Ha & Hb & Es).
  exists (rest ++ b). apply (Begins _ _ _ (a ++ pre) sign ds); try done.
  - by apply Forall_app.
  - intros (c & Hc & Hd). destruct rest as [|c' rest]; simpl in Hc.
    + destruct b as [|x b]; [done|]. simpl in Hc. injection Hc as ->.
      apply Forall_cons_1 in Hb as [Hb _]. by eapply not_blank; [left|].
    + injection Hc as ->. apply Hrest. by exists c.
  - rewrite Es, E. by rewrite <- !app_assoc.
Qed.
Lemma stoll_trim_bad s : (~ exists z rest, begins_int s z rest) -> stoll (trim s) = Throw InvalidArgument.
Proof.
  intros H. destruct (stoll_cases (trim s)) as [(z & rest & Hb)|[-> _]]; [|done].
  exfalso. apply H. destruct (begins_trim _ _ _ Hb) as [rest' Hb']. by exists z, rest'.
Qed.
Lemma int_trim s z : int_text s z -> trim s <> [] /\ stoll (trim s) = if fits_s64 z then Ok z else Throw OutOfRange.
Proof.
  intros (rest & Hrest & [pre sign ds Hpre Hds Hdig Hr -> Hz]).
  assert (exists x core, sign ++ ds = x :: core /\ ~ blank x) as (x & core & E & Hx).
  { destruct ds as [|d ds]; [done|]. apply Forall_cons_1 in Hdig as [Hd _].
    destruct Hz as [[-> _]|[[-> | ->] _]]; eexists _, _; (split; [done|]); apply not_blank; auto. }
  assert (exists m y, sign ++ ds = m ++ [y] /\ ~ blank y) as (m & y & E' & Hy).
  { destruct ds as [|y ds _] using rev_ind; [done|]. exists (sign ++ ds), y. rewrite app_assoc. split; [done|].
    apply Forall_app in Hdig as [_ Hd]. rewrite Forall_singleton in Hd. apply not_blank. by left. }
  assert (trim (pre ++ sign ++ ds ++ rest) = x :: core) as ->.
  { rewrite (app_assoc sign), E. eapply trim_core; try done. rewrite <- E. exact E'. }
  split; [done|]. apply (stoll_begins _ _ []). apply (Begins _ _ _ [] sign ds); try done.
  - by intros (? & ? & _).
  - by rewrite app_nil_r.
Qed.

(** ** characters of parts *)
Definition plain_char (c : ascii) : Prop := c <> ":"%char /\ c <> ","%char.
Lemma blank_plain c : blank c -> plain_char c.
Proof.
  intros Hb. unfold blank in Hb. apply elem_of_list_fmap in Hb as (n & -> & Hn). set_unfold in Hn.
  split; intros E; destruct_or! Hn; subst; discriminate E.
Qed.
Lemma digit_plain c : digit c -> plain_char c.
Proof. unfold digit. intros H. split; intros ->; vm_compute in H; lia. Qed.
Lemma int_plain s z : int_text s z -> Forall plain_char s.
Proof.
  intros (rest & Hrest & [pre sign ds Hpre Hds Hdig Hr -> Hz]). rewrite !Forall_app.
  split; [by eapply Forall_impl; [|apply blank_plain]|]. split.
  { destruct Hz as [[-> _]|[[-> | ->] _]]; try done; by apply Forall_singleton. }
  split; [by eapply Forall_impl; [|apply digit_plain]|]. by eapply Forall_impl; [|apply blank_plain].
Qed.
Lemma int_nonempty s z : int_text s z -> s <> [].
Proof. intros (rest & Hrest & [pre sign ds Hpre Hds Hdig Hr -> Hz]) E. destruct pre, sign, ds; done. Qed.
Lemma part_plain s o : part_text s o -> Forall plain_char s.
Proof.
  destruct o; simpl; [intros [H _]; by eapply int_plain|]. intros H. by eapply Forall_impl; [|apply blank_plain].
Qed.
Lemma plain_no s : Forall plain_char s -> ":"%char ∉ s /\ ","%char ∉ s.
Proof. rewrite Forall_forall. intros H. split; intros Hi; destruct (H _ Hi); done. Qed.
Lemma item_ok s x : item_text s x -> s <> [] /\ ","%char ∉ s.
Proof.
  intros [s' i H _|tb te b e Hb He|tb te ts b e st Hb He Hs].
  - split; [by eapply int_nonempty|]. apply plain_no. by eapply int_plain.
  - split; [by destruct tb|]. apply part_plain, plain_no in Hb as [_ Hb]. apply part_plain, plain_no in He as [_ He].
    rewrite elem_of_app, elem_of_cons. naive_solver.
  - split; [by destruct tb|]. apply part_plain, plain_no in Hb as [_ Hb]. apply part_plain, plain_no in He as [_ He].
    apply part_plain, plain_no in Hs as [_ Hs].
    rewrite elem_of_app, elem_of_cons, elem_of_app, elem_of_cons. naive_solver.
Qed.
