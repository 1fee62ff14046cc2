(** The text of a float, read back, is the element rounded to six decimals. *)
From Coq Require Import QArith Qcanon Qabs Qpower Lqa Floats.SpecFloat Ascii.
From Verif.Proofs Require Export Round2 Text.
From Verif.Spec Require Export Decimal.
From Verif.Model Require Import Ieee Exact Api.
Local Open Scope Z_scope.

Lemma digit_char x : (x < 10)%N -> digit (pretty_N_char x) = Some (Z.of_N x) /\ pretty_N_char x <> "."%char /\ pretty_N_char x <> "-"%char.
Proof.
  intros H. assert (x = 0 \/ x = 1 \/ x = 2 \/ x = 3 \/ x = 4 \/ x = 5 \/ x = 6 \/ x = 7 \/ x = 8 \/ x = 9)%N as Hx by lia.
  repeat (destruct Hx as [->|Hx]; [done|]). by subst.
Qed.
Lemma read_char x s n k : (x < 10)%N -> read_digits (String (pretty_N_char x) s) n k = read_digits s (10 * n + Z.of_N x) (S <$> k).
Proof. intros H. destruct (digit_char x H) as (E & Hd & _). cbn [read_digits]. rewrite bool_decide_eq_false_2 by done. by rewrite E. Qed.
Lemma read_go x : forall s, read_digits (pretty_N_go x s) 0 None = read_digits s (Z.of_N x) None.
Proof.
  induction (N.lt_wf_0 x) as [x _ IH]. intros s. assert (x = 0 \/ 0 < x)%N as [->|Hx] by lia; [by rewrite pretty_N_go_0|].
  rewrite pretty_N_go_step by done. rewrite IH by (apply N.div_lt; lia). assert (x mod 10 < 10)%N by (by apply N.mod_lt). rewrite read_char by done. f_equal.
  pose proof (N.div_mod x 10 ltac:(lia)) as E. rewrite E at 3. lia.
Qed.
Lemma go_app x : forall s, pretty_N_go x s = pretty_N_go x "" +:+ s.
Proof.
  induction (N.lt_wf_0 x) as [x _ IH]. intros s. assert (x = 0 \/ 0 < x)%N as [->|Hx] by lia; [by rewrite pretty_N_go_0|].
  rewrite !(pretty_N_go_step x) by done. rewrite (IH _ (N.div_lt x 10 Hx eq_refl) (String _ s)), (IH _ (N.div_lt x 10 Hx eq_refl) (String _ "")).
  generalize (pretty_N_go (x / 10) ""). intros t. induction t as [|c t IHt]; [done|]. exact (f_equal (String c) IHt).
Qed.

(** the text of a non-negative integer *)
Lemma pretty_pos z : 0 <= z -> pretty z = (if z =? 0 then "0" else pretty_N_go (Z.to_N z) "").
Proof. intros H. destruct z as [|p|p]; [done| |lia]. cbn. unfold pretty, pretty_positive, pretty, pretty_N. by rewrite decide_False by done. Qed.
Lemma read_int z s : 0 <= z -> read_digits (pretty z +:+ s) 0 None = read_digits s z None.
Proof.
  intros H. rewrite pretty_pos by done. destruct (Z.eqb_spec z 0) as [->|Hz]; [done|]. rewrite <- go_app, read_go. by rewrite Z2N.id by done.
Qed.
Lemma pretty_dash z s : 0 <= z -> read_number (pretty z +:+ String "." s) = read_digits (pretty z +:+ String "." s) 0 None.
Proof.
  intros H. unfold read_number. assert (forall s', pretty z +:+ String "." s <> String "-" s') as Hc.
  { rewrite pretty_pos by done. destruct (Z.eqb_spec z 0) as [->|Hz]; [done|]. rewrite <- go_app. intros s'. by apply (pretty_N_go_ne_dash _ _ s'). }
  destruct (pretty z +:+ String "." s) as [|c s']; [done|]. destruct (decide (c = "-"%char)) as [->|Hn]; [by destruct (Hc s')|].
  destruct c as [[] [] [] [] [] [] [] []]; try done. 
Qed.
(** six digits *)
Lemma go_digit y g s : (g < 10)%N -> (0 < y * 10 + g)%N -> pretty_N_go (y * 10 + g) s = pretty_N_go y (String (pretty_N_char g) s).
Proof.
  intros Hg Hp. rewrite pretty_N_go_step by done. rewrite N.div_add_l by done. rewrite (N.div_small g) by done. rewrite N.add_0_r. by rewrite N.add_comm, N.mod_add, N.mod_small by done.
Qed.
Lemma read_six l n : length l = 6%nat -> Forall (fun x => x < 10)%N l ->
  read_digits (foldr (fun x s => String (pretty_N_char x) s) "" l) n (Some 0%nat) = Some (inject_Z (foldl (fun m x => 10 * m + Z.of_N x)%Z n l) / inject_Z 1000000)%Q.
Proof.
  intros El Hl. assert (forall l, Forall (fun x => x < 10)%N l -> forall n k, read_digits (foldr (fun x s => String (pretty_N_char x) s) "" l) n (Some k) = 
    Some (inject_Z (foldl (fun m x => 10 * m + Z.of_N x)%Z n l) / inject_Z (10 ^ Z.of_nat (k + length l)))%Q) as R.
  { clear. induction 1 as [|y l Hy _ IH]; intros m k; [cbn; by rewrite Nat.add_0_r|]. cbn [foldr]. rewrite read_char by done. cbn [fmap option_fmap option_map]. rewrite IH. cbn [foldl length]. do 3 f_equal. f_equal. lia. }
  rewrite R by done. by rewrite El.
Qed.
Lemma go_last x s : (0 < x < 10)%N -> pretty_N_go x s = String (pretty_N_char x) s.
Proof. intros H. rewrite <- (N.add_0_l x) at 1. change 0%N with (0 * 10)%N. rewrite go_digit by lia. apply pretty_N_go_0. Qed.
Lemma read_pad z n : 0 <= z < 1000000 -> read_digits (pad6 (pretty z)) n (Some 0%nat) = Some (inject_Z (n * 1000000 + z) / inject_Z 1000000)%Q.
Proof.
  intros Hz. unfold pad6. rewrite pretty_pos by lia. destruct (Z.eqb_spec z 0) as [->|H0].
  { etrans; [apply (read_six [0; 0; 0; 0; 0; 0]%N); [done|by repeat constructor]|]. cbn [foldl]. do 3 f_equal. lia. }
  assert (exists x, z = Z.of_N x /\ 0 < x < 1000000)%N as (x & -> & Hx). { exists (Z.to_N z). lia. } rewrite N2Z.id. clear Hz H0.
  assert (exists a b c d e f, x = ((((a * 10 + b) * 10 + c) * 10 + d) * 10 + e) * 10 + f /\ a < 10 /\ b < 10 /\ c < 10 /\ d < 10 /\ e < 10 /\ f < 10)%N as (a & b & c & d & e & f & -> & Ha & Hb & Hc & Hd & He & Hf).
  { exists (x / 10 / 10 / 10 / 10 / 10)%N, ((x / 10 / 10 / 10 / 10) mod 10)%N, ((x / 10 / 10 / 10) mod 10)%N, ((x / 10 / 10) mod 10)%N, ((x / 10) mod 10)%N, (x mod 10)%N.
    split; [|split; [rewrite !N.div_div by done; apply N.div_lt_upper_bound; [done|]; cbn; lia|by repeat split; apply N.mod_lt]].
    pose proof (N.div_mod x 10 ltac:(done)). pose proof (N.div_mod (x / 10) 10 ltac:(done)). pose proof (N.div_mod (x / 10 / 10) 10 ltac:(done)). pose proof (N.div_mod (x / 10 / 10 / 10) 10 ltac:(done)). pose proof (N.div_mod (x / 10 / 10 / 10 / 10) 10 ltac:(done)). lia. }
  etrans; [|etrans; [apply (read_six [a; b; c; d; e; f] n); [done|by repeat constructor]|]]; [f_equal|cbn [foldl]; do 3 f_equal; lia].
  destruct (decide (a = 0)%N) as [->|Na]; [|rewrite !go_digit, go_last by lia; reflexivity].
  change (0 * 10 + b)%N with b in *.
  destruct (decide (b = 0)%N) as [->|Nb]; [|rewrite !go_digit, go_last by lia; reflexivity].
  change (0 * 10 + c)%N with c in *.
  destruct (decide (c = 0)%N) as [->|Nc]; [|rewrite !go_digit, go_last by lia; reflexivity].
  change (0 * 10 + d)%N with d in *.
  destruct (decide (d = 0)%N) as [->|Nd]; [|rewrite !go_digit, go_last by lia; reflexivity].
  change (0 * 10 + e)%N with e in *.
  destruct (decide (e = 0)%N) as [->|Ne]; [|rewrite !go_digit, go_last by lia; reflexivity].
  change (0 * 10 + f)%N with f in *. rewrite go_last by lia. reflexivity.
Qed.
Lemma read_decimal sg r : 0 <= r -> exists d, read_number ((if sg : bool then "-" else "") +:+ pretty (r / 1000000) +:+ "." +:+ pad6 (pretty (r mod 1000000))) = Some d /\ (d == sgn sg (r # 1000000))%Q.
Proof.
  intros Hr. assert (0 <= r / 1000000) as Hd by (by apply Z.div_pos). pose proof (Z.mod_pos_bound r 1000000 ltac:(lia)) as Hm.
  assert (read_digits (pretty (r / 1000000) +:+ "." +:+ pad6 (pretty (r mod 1000000))) 0 None = Some (inject_Z r / inject_Z 1000000)%Q) as E.
  { rewrite read_int by done. change ("." +:+ ?s) with (String "." s). cbn [read_digits]. rewrite bool_decide_eq_true_2 by done. rewrite read_pad by done. do 3 f_equal. pose proof (Z.div_mod r 1000000 ltac:(lia)). lia. }
  assert (inject_Z r / inject_Z 1000000 == r # 1000000)%Q as Eq by (unfold Qdiv; cbn; unfold Qeq; cbn; lia).
  destruct sg.
  - exists (- (inject_Z r / inject_Z 1000000))%Q. split; [|cbn; by rewrite Eq]. change ("-" +:+ ?s) with (String "-" s). cbn [read_number]. by rewrite E.
  - exists (inject_Z r / inject_Z 1000000)%Q. split; [|done]. change ("" +:+ ?s) with s. change ("." +:+ ?s) with (String "." s) in E |- *. by rewrite pretty_dash.
Qed.
Lemma near_six s r u q : near r (u * 1000000) -> (q == sgn s u)%Q -> six_decimals q (sgn s (r # 1000000)).
Proof.
  intros Hn Eq. assert (forall j, (j # 1000000) == inject_Z j * (1 # 1000000))%Q as Ej by (intros j; unfold Qeq; cbn; lia).
  assert (forall j, Qabs (sgn s (j # 1000000) - q) == (1 # 1000000) * Qabs (inject_Z j - u * 1000000))%Q as Ed.
  { intros j. rewrite Eq. setoid_replace ((1 # 1000000) * Qabs (inject_Z j - u * 1000000))%Q with (Qabs ((1 # 1000000) * (inject_Z j - u * 1000000)))%Q by (rewrite Qabs_Qmult; done).
    setoid_replace ((1 # 1000000) * (inject_Z j - u * 1000000))%Q with ((j # 1000000) - u)%Q by (rewrite (Ej j); lra).
    destruct s; unfold sgn; [|done]. rewrite <- Qabs_opp. apply Qabs_wd. lra. }
  exists (if s then - r else r). split. { destruct s; [|done]. unfold sgn, Qeq. cbn. lia. }
  intros j. destruct (Hn (if s then - j else j)) as [H1 H2].
  assert (Qabs ((j # 1000000) - q) == (1 # 1000000) * Qabs (inject_Z (if s then - j else j) - u * 1000000))%Q as Ej'.
  { rewrite <- Ed. apply Qabs_wd. destruct s; unfold sgn; [|done]. rewrite (Ej j), (Ej (- j)), inject_Z_opp. lra. }
  rewrite Ed, Ej'. split; [lra|]. intros E. destruct (H2 ltac:(lra)) as [Hj|He]; [left; destruct s; lia|right; destruct s; [by rewrite Z.even_opp|done]].
Qed.
Theorem float_text x q : sf_value x = Some q -> exists d, read_number (@f_str Ieee x) = Some d /\ six_decimals q d.
Proof.
  intros Ex. cbn [f_str Ieee]. destruct x as [s|s| |s m e]; try done.
  - cbn in Ex. apply (inj Some) in Ex as <-. exists (sgn s (0 # 1000000))%Q. split; [by destruct s|]. apply (near_six s 0 0); [|by destruct s].
    intros j. split; [change (Qabs (inject_Z 0 - 0 * 1000000)) with 0%Q; apply Qabs_nonneg|]. by right.
  - assert (q == sgn s (scale (Zpos m) e))%Q as Eq. { destruct (fval_finite s m e q ltac:(by exists q)). by rewrite <- sq_sgn; apply fval_finite; exists q. }
    cbn [ieee_str]. set (r := if 0 <=? e then _ else _). assert (near r (scale (Zpos m) e * 1000000) /\ 0 <= r) as [Hn Hr].
    { unfold r. destruct (Z.leb_spec 0 e) as [He|He].
      - split; [|nia]. assert (inject_Z (Zpos m * 1000000 * 2 ^ e) == scale (Zpos m) e * 1000000)%Q as E. { unfold scale. rewrite !inject_Z_mult, pow2_Z by lia. change (inject_Z 1000000) with 1000000%Q. ring. }
        intros j. rewrite <- E. split. { setoid_replace (inject_Z (Zpos m * 1000000 * 2 ^ e) - inject_Z (Zpos m * 1000000 * 2 ^ e))%Q with 0%Q by ring. apply Qabs_nonneg. }
        right. rewrite !Z.even_mul. by rewrite orb_true_r.
      - assert (0 < 2 ^ (- e)) as HD by (apply Z.pow_pos_nonneg; lia). pose proof (rne_near (Zpos m * 1000000) (2 ^ (- e)) ltac:(lia) HD) as H.
        assert (inject_Z (Zpos m * 1000000) / inject_Z (2 ^ (- e)) == scale (Zpos m) e * 1000000)%Q as E. { unfold scale. rewrite inject_Z_mult, <- pow2_Z by lia. unfold Qdiv. rewrite Qpower_opp, Qinv_involutive. change (inject_Z 1000000) with 1000000%Q. ring. }
        set (X := Zpos m * 1000000) in *. set (D := 2 ^ (- e)) in *.
        assert (0 <= X / D) by (apply Z.div_pos; lia). pose proof (Z.mod_pos_bound X D HD).
        assert (round_nearest_even (X / D) (locf (X mod D) D) = (if 2 * (X mod D) <? D then X / D else if D <? 2 * (X mod D) then X / D + 1 else if Z.even (X / D) then X / D else X / D + 1)) as Er.
        { unfold locf. destruct (Z.eqb_spec (X mod D) 0) as [->|N0]; cbn [round_nearest_even]; [destruct (Z.ltb_spec (2 * 0) D); [done|lia]|].
          destruct (Z.compare_spec (2 * (X mod D)) D), (Z.ltb_spec (2 * (X mod D)) D), (Z.ltb_spec D (2 * (X mod D))); try lia; done. }
        rewrite Er in H. split; [|repeat case_match; lia]. intros j. rewrite <- E. apply H. }
    destruct (read_decimal s r Hr) as (d & Hd & Ed). exists d. split; [exact Hd|]. destruct (near_six s r _ q Hn Eq) as (r' & Er & Hb). exists r'. rewrite Ed. split; [done|]. intros j. rewrite Ed. apply Hb.
Qed.
Lemma six_error q d : six_decimals q d -> (Qabs (d - q) <= 1 # 2000000)%Q.
Proof.
  intros (r & Er & H). destruct (H (r + 1)) as [H1 _], (H (r - 1)) as [H2 _].
  assert (r + 1 # 1000000 == d + (1 # 1000000))%Q as E1 by (rewrite Er; unfold Qeq; cbn; lia).
  assert (r - 1 # 1000000 == d - (1 # 1000000))%Q as E2 by (rewrite Er; unfold Qeq; cbn; lia).
  rewrite E1 in H1. rewrite E2 in H2. absq (d - q)%Q; absq (d + (1 # 1000000) - q)%Q; absq (d - (1 # 1000000) - q)%Q; lra.
Qed.
Lemma app_no_sep a b : no_sep a -> no_sep b -> no_sep (a +:+ b).
Proof. induction a as [|c a IH]; [done|]. intros [H1 H2] H. split; [done|]. by apply IH. Qed.
Lemma sub_no_sep s : no_sep s -> forall i n, no_sep (String.substring i n s).
Proof.
  induction s as [|c s IH]; intros H i n; [by destruct i, n|]. destruct H as [H1 H2]. destruct i as [|i]; cbn [String.substring].
  - destruct n as [|n]; [done|]. split; [done|]. by apply IH.
  - by apply IH.
Qed.
Ltac nosep := repeat (split; [by intros [?|?]|]); done.
Lemma float_no_sep x : no_sep (@f_str Ieee x).
Proof.
  cbn [f_str Ieee]. destruct x as [s|s| |s m e]; [destruct s; nosep..|nosep|]. cbn [ieee_str]. apply app_no_sep; [destruct s; nosep|]. apply app_no_sep; [apply pretty_no_sep|]. apply app_no_sep; [nosep|].
  unfold pad6. apply sub_no_sep, app_no_sep; [nosep|apply pretty_no_sep].
Qed.
#[local] Existing Instance Ieee.
Theorem text_close h t r v h' t' r' v' s : tensor_at h t r v -> tensor_at h' t' r' v' ->
  (forall cs, cells h (t_sto r) = Some cs -> size_of (t_dt r) * Z.of_nat (length cs) < two63) ->
  (forall cs, cells h' (t_sto r') = Some cs -> size_of (t_dt r') * Z.of_nat (length cs) < two63) ->
  is_int (t_dt r) = false -> is_int (t_dt r') = false -> shape r = shape r' ->
  exec (QToString (Some t)) h = (Ok (RString s), h) -> exec (QToString (Some t')) h' = (Ok (RString s), h') ->
  forall idx, in_range (shape r) idx -> exists x y, v idx = VF x /\ v' idx = VF y /\ match sf_value x, sf_value y with
    | Some a, Some b => (Qabs (a - b) <= 1 # 1000000)%Q
    | None, None => x = y
    | _, _ => False
    end.
Proof.
  intros H H' Hc Hc' Hi Hi' Hs E E' idx Hidx. rewrite (to_string_holds _ _ _ _ H Hc) in E. rewrite (to_string_holds _ _ _ _ H' Hc') in E'. rewrite <- Hs in E'.
  assert (brackets (shape r) (fun idx => val_str (v idx)) = brackets (shape r) (fun idx => val_str (v' idx))) as Eb by congruence. clear E E'.
  assert (forall i, in_range (shape r) i -> exists z, v i = VF z) as V.
  { intros i Hr. destruct H as [_ [_ K]]. destruct (K i Hr) as [_ Ty]. destruct (v i) as [z|q]; [|by exists q]. cbn in Ty. destruct (t_dt r); naive_solver. }
  assert (forall i, in_range (shape r) i -> exists z, v' i = VF z) as V'.
  { intros i Hr. rewrite Hs in Hr. destruct H' as [_ [_ K]]. destruct (K i Hr) as [_ Ty]. destruct (v' i) as [z|q]; [|by exists q]. cbn in Ty. destruct (t_dt r'); naive_solver. }
  destruct (brackets_inj (shape r) (fun idx => val_str (v idx)) (fun idx => val_str (v' idx)) "" "") as [[_ K] _]; [|done|done|by rewrite Eb|].
  - intros i Hr. destruct (V i Hr) as [z ->], (V' i Hr) as [z' ->]. split; apply float_no_sep.
  - specialize (K idx Hidx). destruct (V idx Hidx) as [x Ex], (V' idx Hidx) as [y Ey]. exists x, y. split; [done|]. split; [done|]. rewrite Ex, Ey in K. cbn [val_str] in K. clear -K.
    assert (forall x, sf_value x = None -> read_number (f_str x) = None) as Hnone by (by intros [[]|[]| |]).
    destruct (sf_value x) as [a|] eqn:Ea, (sf_value y) as [b|] eqn:Eb.
    + destruct (float_text x a Ea) as (d & Hd & H1%six_error), (float_text y b Eb) as (d' & Hd' & H2%six_error). rewrite K, Hd' in Hd. assert (d' = d) as -> by congruence. clear -H1 H2. absq (d - a)%Q; absq (d - b)%Q; absq (a - b)%Q; lra.
    + destruct (float_text x a Ea) as (d & Hd & _). by rewrite K, Hnone in Hd.
    + destruct (float_text y b Eb) as (d & Hd & _). by rewrite <- K, Hnone in Hd.
    + destruct x as [|[]| |], y as [|[]| |]; done.
Qed.
