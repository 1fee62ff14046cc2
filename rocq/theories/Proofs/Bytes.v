(** What all() does on every type. *)
From Verif.Spec Require Export Bytes.
From Verif.Proofs Require Export Part3.
From Verif.Model Require Import Ieee Api.
From Coq Require Import Floats.SpecFloat.
#[local] Existing Instance Ieee.

Lemma decode_bits t z x : 0 <= z < 2 ^ (1 + fraction_bits t + exponent_bits t) -> decode t z = x -> x <> S754_nan -> ieee_bits t x = z.
Proof.
  intros Hz <-. unfold decode.
  set (fb := fraction_bits t) in *. set (eb := exponent_bits t) in *.
  assert (2 ^ fb > 0 /\ 2 ^ eb > 1 /\ 2 ^ (fb + eb) = 2 ^ fb * 2 ^ eb /\ 2 ^ (1 + fb + eb) = 2 * (2 ^ fb * 2 ^ eb)) as (H1 & H2 & H3 & H4) by (by destruct t).
  rewrite H3, H4 in *.
  pose proof (Z.div_mod z (2 ^ fb) ltac:(lia)) as D1. pose proof (Z.mod_pos_bound z (2 ^ fb) ltac:(lia)) as D2.
  pose proof (Z.div_mod (z / 2 ^ fb) (2 ^ eb) ltac:(lia)) as D3. pose proof (Z.mod_pos_bound (z / 2 ^ fb) (2 ^ eb) ltac:(lia)) as D4.
  rewrite <- Z.div_div by lia.
  assert (0 <= z / 2 ^ fb / 2 ^ eb < 2) as D5. { split; [apply Z.div_pos; [apply Z.div_pos|]; lia|]. apply Z.div_lt_upper_bound; [lia|]. apply Z.div_lt_upper_bound; [lia|]. lia. }
  set (s := z / 2 ^ fb / 2 ^ eb) in *. set (e := z / 2 ^ fb mod 2 ^ eb) in *. set (f := z mod 2 ^ fb) in *. clearbody s e f.
  set (q := z / 2 ^ fb) in *. clearbody q. subst q.
  assert (2 ^ fb * (2 ^ eb * (if negb (s =? 0) then 1 else 0)) = 2 ^ fb * (2 ^ eb * s)) as Es.
  { destruct (Z.eqb_spec s 0) as [->|]; [done|]. assert (s = 1) as -> by lia. done. }
  set (sg := negb (s =? 0)) in *. clearbody sg.
  assert (match t with FT32 => 32 | FT64 => 64 end - 1 = fb + eb) as Ew by (by destruct t).
  assert (fprec t - 1 = fb) as Ep by (by destruct t). assert (2 * femax t - 1 = 2 ^ eb - 1) as Em by (by destruct t).
  assert (3 - femax t - fprec t = 1 - (2 ^ (eb - 1) - 1) - fb) as En by (by destruct t).
  assert ((if sg then 2 ^ (fb + eb) else 0) = 2 ^ fb * (2 ^ eb * s)) as Esg. { rewrite <- Es, H3. destruct sg; lia. }
  unfold ieee_bits. rewrite Ew, Ep, Em, En. intros Hn.
  destruct (Z.eqb_spec e 0) as [He|He].
  - subst e. destruct (Z.eqb_spec f 0) as [Hf|Hf]; [subst f; lia|]. rewrite Z2Pos.id by lia. destruct (Z.ltb_spec f (2 ^ fb)); lia.
  - destruct (Z.eqb_spec e (2 ^ eb - 1)) as [He'|He'].
    + destruct (Z.eqb_spec f 0) as [Hf|Hf]; [|done]. subst f e. lia.
    + rewrite Z2Pos.id by lia. destruct (Z.ltb_spec (2 ^ fb + f) (2 ^ fb)) as [?|_]; [lia|]. rewrite Esg. nia.
Qed.
Lemma bytes_pattern T v z k : pattern T v z -> (k < Z.to_nat (size_of T))%nat -> nth k (val_bytes T v) 0 = z / 256 ^ Z.of_nat k mod 256.
Proof.
  intros [Hz Hv] Hk. unfold val_bytes. destruct v as [n|x].
  - destruct Hv as [Hf ->]. assert (bits_of T = 8 * size_of T) as -> by (by destruct T). by rewrite le_bytes_nth by lia.
  - destruct Hv as (Hf & Hn & Hd). cbn [f_bytes Ieee]. unfold ieee_bytes.
    assert (fty_of T = match T with F32 => FT32 | _ => FT64 end) as -> by (by destruct T).
    rewrite (decode_bits _ z x); [| |done|done].
    + rewrite le_bytes_nth; [done| |lia]. by destruct T.
    + by destruct T.
Qed.
Lemma byte_is_load h r v p b : holds h r v -> 0 <= p < two63 -> byte_is h r p b ->
  load_bool_byte (t_sto r) p h = (if b =? 0 then Ok false else if b =? 1 then Ok true else UB BadBool, h).
Proof.
  intros [(cs & (bt & Hs) & _ & _ & Hlen) _] Hp (cs' & x & z & Hc' & Hl & Hx & ->). pose proof (size_of_pos (t_dt r)) as Hw.
  unfold cells in Hc'. rewrite Hs in Hc'. cbn [sto_blob] in Hc'. apply (inj Some) in Hc' as <-.
  unfold load_bool_byte. erewrite bind_ok by (by apply get_sto_ok). cbn [sto_blob sto_ty]. rewrite Hl.
  pose proof (lookup_lt_Some _ _ _ Hl) as Hlt. pose proof (Z.div_pos p (size_of (t_dt r)) ltac:(lia) ltac:(lia)).
  pose proof (Z.mul_succ_div_gt p (size_of (t_dt r)) ltac:(lia)) as Hg.
  destruct (Z.leb_spec 0 p); [|lia]. destruct (Z.ltb_spec p (size_of (t_dt r) * Z.of_nat (length cs))); [|nia]. cbn [andb].
  pose proof (Z.mod_pos_bound p (size_of (t_dt r)) ltac:(lia)) as Hm.
  rewrite (bytes_pattern _ _ z) by (done || lia). rewrite Z2Nat.id by lia. cbv zeta. by repeat case_match.
Qed.
(** the answer of the loop *)
Definition found (bs : list Z) : outcome (option bool) :=
  match verdict bs with Ok (RBool true) => Ok None | Ok _ => Ok (Some false) | Throw e => Throw e | UB u => UB u | Diverge => Diverge end.
Lemma run_verdict h r v b l :
  holds h r v -> (forall idx, idx ∈ l -> in_range (sizes (t_lay r)) idx) ->
  (forall idx, in_range (sizes (t_lay r)) idx -> byte_is h r (pos (t_lay r) idx) (b idx)) ->
  run_idx (fun sv =>
             let! p := idx_exact r sv in
             let! b := load_bool_byte (t_sto r) p in
             mret (if b : bool then None else Some false)) l h = (found (map b l), h).
Proof.
  intros Hh Hl Hv. induction l as [|idx l IH]; [done|].
  assert (in_range (sizes (t_lay r)) idx) as Hi by (apply Hl; left).
  destruct (Hh) as [(cs & Hb) _]. destruct (backed_idx _ _ _ idx Hb Hi) as [Hp Hp'].
  assert (0 <= pos (t_lay r) idx < two63) as Hr by (destruct Hb as (_ & _ & _ & ?); lia).
  pose proof (byte_is_load h r v _ _ Hh Hr (Hv idx Hi)) as Hld.
  cbn [run_idx]. rewrite bind_assoc. erewrite bind_ok by exact Hp. rewrite bind_assoc. unfold found. cbn [map verdict].
  destruct (Z.eqb_spec (b idx) 0) as [E0|E0].
  - rewrite E0. erewrite bind_ok by exact Hld. by rewrite bind_ret.
  - destruct (Z.eqb_spec (b idx) 1) as [E1|E1].
    + erewrite bind_ok by exact Hld. rewrite bind_ret. apply IH. intros idx' Hi'. apply Hl. by right.
    + by erewrite bind_ub by exact Hld.
Qed.
Lemma all_outcome h t r v b : tensor_at h t r v ->
  (forall idx, in_range (shape r) idx -> byte_is h r (pos (t_lay r) idx) (b idx)) ->
  exec (QAll (Some t)) h = (verdict (map b (indices (shape r))), h).
Proof.
  intros [Ht Hh] Hv. unfold shape in *. cbn [exec deref]. rewrite bind_ret. unfold op_all. rewrite bind_assoc.
  erewrite bind_ok by (by apply get_ten_ok). pose proof (holds_nonneg _ _ _ Hh) as Hn.
  destruct (existsb (Z.eqb 0) (sizes (t_lay r))) eqn:Hz.
  { apply existsb_zero_true in Hz. by rewrite indices_empty. }
  pose proof (existsb_zero_false _ Hn Hz) as Hp.
  pose proof (run_verdict h r v b (indices (sizes (t_lay r))) Hh ltac:(by intros ? ?%elem_of_indices) Hv) as Hrun.
  assert (forall bs, verdict bs = Ok (RBool true) \/ verdict bs = Ok (RBool false) \/ verdict bs = UB BadBool) as Hcase.
  { intros bs. induction bs as [|x bs IH]; [by left|]. cbn [verdict]. destruct (x =? 1); [done|]. destruct (x =? 0); auto. }
  destruct (sizes (t_lay r)) as [|n ss] eqn:Hs.
  - destruct (Hh) as [(cs & Hb) _].
    destruct (backed_idx _ _ _ [] Hb) as [Hpos Hpr]; [rewrite Hs; constructor|].
    rewrite bind_assoc. erewrite bind_ok by exact Hpos.
    assert (0 <= pos (t_lay r) [] < two63) as Hr by (destruct Hb as (_ & _ & _ & ?); lia).
    pose proof (byte_is_load h r v _ _ Hh Hr (Hv [] ltac:(constructor))) as Hld. cbn [indices map verdict].
    destruct (Z.eqb_spec (b []) 0) as [E0|E0].
    + rewrite E0. by erewrite bind_ok by exact Hld.
    + destruct (Z.eqb_spec (b []) 1) as [E1|E1]; [by erewrite bind_ok by exact Hld|by erewrite bind_ub by exact Hld].
  - rewrite bind_assoc. unfold found in Hrun. destruct (Hcase (map b (indices (n :: ss)))) as [E|[E|E]]; rewrite E in Hrun |- *.
    + erewrite bind_ok by (rewrite odometer_run by done; exact Hrun). done.
    + erewrite bind_ok by (rewrite odometer_run by done; exact Hrun). done.
    + erewrite bind_ub by (rewrite odometer_run by done; exact Hrun). done.
Qed.
(** the first byte may decide *)
Lemma indices_first ss : Forall (fun n => 0 < n) ss -> exists l, indices ss = map (fun _ => 0) ss :: l.
Proof.
  induction 1 as [|n ss Hn _ [l IH]]; [by exists []|]. cbn [indices map]. rewrite seqZ_cons by lia. cbn [flat_map]. rewrite IH. by eexists.
Qed.
Lemma all_first h t r v b : tensor_at h t r v -> Forall (fun n => 0 < n) (shape r) ->
  byte_is h r (pos (t_lay r) (map (fun _ => 0) (shape r))) b -> b <> 1 -> exec (QAll (Some t)) h = (verdict [b], h).
Proof.
  intros [Ht Hh] Hp Hb H1. unfold shape in *. cbn [exec deref]. rewrite bind_ret. unfold op_all. rewrite bind_assoc.
  erewrite bind_ok by (by apply get_ten_ok). set (i0 := map (fun _ => 0) (sizes (t_lay r))) in *.
  assert (in_range (sizes (t_lay r)) i0) as Hi. { subst i0. clear - Hp. induction Hp; constructor; [lia|done]. }
  destruct (Hh) as [(cs & Hbk) _]. destruct (backed_idx _ _ _ i0 Hbk Hi) as [Hpos Hpr].
  assert (0 <= pos (t_lay r) i0 < two63) as Hr by (destruct Hbk as (_ & _ & _ & ?); lia).
  pose proof (byte_is_load h r v _ _ Hh Hr Hb) as Hld.
  assert (existsb (Z.eqb 0) (sizes (t_lay r)) = false) as ->.
  { clear - Hp. induction Hp as [|n ss Hn _ IH]; [done|]. cbn [existsb]. rewrite IH. destruct (Z.eqb_spec 0 n); [lia|done]. }
  cbn [verdict]. rewrite (proj2 (Z.eqb_neq b 1)) in Hld |- * by done.
  destruct (indices_first _ Hp) as [l El]. fold i0 in El. subst i0.
  destruct (sizes (t_lay r)) as [|n ss] eqn:Hs.
  - rewrite bind_assoc. erewrite bind_ok by exact Hpos. cbn [map] in Hld.
    destruct (b =? 0); [by erewrite bind_ok by exact Hld|by erewrite bind_ub by exact Hld].
  - rewrite bind_assoc. destruct (b =? 0).
    + by erewrite bind_ok by (rewrite odometer_run by done; rewrite El; cbn [run_idx]; rewrite bind_assoc; erewrite bind_ok by exact Hpos; rewrite bind_assoc; erewrite bind_ok by exact Hld; reflexivity).
    + by erewrite bind_ub by (rewrite odometer_run by done; rewrite El; cbn [run_idx]; rewrite bind_assoc; erewrite bind_ok by exact Hpos; rewrite bind_assoc; erewrite bind_ub by exact Hld; reflexivity).
Qed.
(** ones, or any elements whose lowest byte is zero *)
Lemma all_low h t r v z : tensor_at h t r v -> Forall (fun n => 0 < n) (shape r) -> pos (t_lay r) (map (fun _ => 0) (shape r)) = 0 ->
  pattern (t_dt r) (v (map (fun _ => 0) (shape r))) z -> z mod 256 = 0 -> exec (QAll (Some t)) h = (Ok (RBool false), h).
Proof.
  intros Ta Hp H0 Hz Hm. apply (all_first h t r v 0 Ta Hp); [|done]. rewrite H0. pose proof (size_of_pos (t_dt r)) as Hw.
  destruct Ta as [Ht [_ Hel]]. set (i0 := map (fun _ => 0) (shape r)) in *.
  assert (in_range (shape r) i0) as Hi. { subst i0. clear - Hp. induction Hp; constructor; [lia|done]. }
  destruct (Hel i0 Hi) as [He _]. apply elem_lookup in He as (cs & Hc & _ & Hl). rewrite H0 in Hl. exists cs, (v i0), z.
  rewrite Z.div_0_l, Z.mod_0_l by lia. split; [done|]. split; [done|]. split; [done|]. by rewrite Z.pow_0_r, Z.div_1_r.
Qed.
