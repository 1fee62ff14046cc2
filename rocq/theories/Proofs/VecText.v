(** Text of vectors *)
From Verif.Proofs Require Export Decimal.
From Verif.Spec Require Export Vector.
From Verif.Model Require Export VecText.
Local Open Scope Z_scope.

Lemma app_nil_s (s : string) : s +:+ "" = s.
Proof. induction s as [|c s IH]; [done|]. change (String c (s +:+ "") = String c s). by rewrite IH. Qed.
Definition rest (l : list Z) : string := foldr (fun i s => ", " +:+ (pretty i +:+ s)) "" l.
Lemma iter_later l : forall s, iter_text s false l = s +:+ rest l.
Proof.
  induction l as [|i l IH]; intros s; cbn [iter_text rest foldr]; [by rewrite app_nil_s|].
  by rewrite IH, !app_assoc_s.
Qed.
Lemma commas l : forall i, pretty i +:+ rest l = String.concat ", " (map (pretty : Z -> string) (i :: l)).
Proof.
  induction l as [|j l IH]; intros i; [apply app_nil_s|].
  change (pretty i +:+ (", " +:+ (pretty j +:+ rest l)) = pretty i +:+ (", " +:+ String.concat ", " (map (pretty : Z -> string) (j :: l)))).
  by rewrite IH.
Qed.
Lemma vec_form l : vec_to_string l = "[" +:+ String.concat ", " (map pretty l) +:+ "]".
Proof.
  unfold vec_to_string. destruct l as [|i l]; [done|]. cbn [iter_text]. by rewrite iter_later, !app_assoc_s, <- (app_assoc_s (pretty i)), commas.
Qed.

Lemma items_char x s m n : (x < 10)%N -> read_items (String (pretty_N_char x) s) m n = read_items s m (Some (10 * default 0 n + Z.of_N x)).
Proof.
  intros H. assert (x = 0 \/ x = 1 \/ x = 2 \/ x = 3 \/ x = 4 \/ x = 5 \/ x = 6 \/ x = 7 \/ x = 8 \/ x = 9)%N as K by lia.
  by destruct K as [->|[->|[->|[->|[->|[->|[->|[->|[->| ->]]]]]]]]]; destruct n.
Qed.
Lemma items_go x : forall s m, (0 < x)%N -> read_items (pretty_N_go x s) m None = read_items s m (Some (Z.of_N x)).
Proof.
  induction (N.lt_wf_0 x) as [x _ IH]. intros s m Hx. rewrite pretty_N_go_step by done.
  pose proof (N.mod_lt x 10 ltac:(done)) as L.
  assert (x `div` 10 = 0 \/ 0 < x `div` 10)%N as [E|E] by lia.
  - rewrite E, pretty_N_go_0, items_char by done. do 2 f_equal. pose proof (N.div_mod x 10 ltac:(done)). cbn [from_option]; unfold id; lia.
  - rewrite IH by (try done; apply N.div_lt; lia). rewrite items_char by done. do 2 f_equal.
    pose proof (N.div_mod x 10 ltac:(done)). cbn [from_option]; unfold id; lia.
Qed.
Lemma items_int z s : read_items (pretty z +:+ s) false None = read_items s (z <? 0) (Some (Z.abs z)).
Proof.
  destruct z as [|p|p].
  - done.
  - rewrite pretty_pos by done. cbn [Z.eqb]. rewrite <- go_app. by rewrite items_go.
  - change (pretty (Z.neg p)) with ("-" +:+ pretty (Z.pos p)). rewrite app_assoc_s.
    change (read_items (pretty (Z.pos p) +:+ s) true None = read_items s true (Some (Z.pos p))).
    rewrite pretty_pos by done. cbn [Z.eqb]. rewrite <- go_app. by rewrite items_go.
Qed.
Lemma signed z : (if z <? 0 then - Z.abs z else Z.abs z) = z.
Proof. destruct (Z.ltb_spec z 0); lia. Qed.
Lemma items_all i l : read_items (String.concat ", " (map (pretty : Z -> string) (i :: l)) +:+ "]") false None = Some (i :: l).
Proof.
  revert i. induction l as [|j l IH]; intros i.
  - cbn [map String.concat]. rewrite items_int. cbn. by rewrite signed.
  - change (String.concat ", " (map pretty (i :: j :: l))) with (pretty i +:+ (", " +:+ String.concat ", " (map (pretty : Z -> string) (j :: l)))).
    rewrite !app_assoc_s, items_int.
    change (read_items (", " +:+ (String.concat ", " (map pretty (j :: l)) +:+ "]")) (i <? 0) (Some (Z.abs i))) with
      (cons (if i <? 0 then - Z.abs i else Z.abs i) <$> read_items (String.concat ", " (map (pretty : Z -> string) (j :: l)) +:+ "]") false None).
    rewrite IH, signed. done.
Qed.
Lemma vector_items s l : read_items s false None = Some l -> read_vector (String "[" s) = Some l.
Proof.
  intros E. destruct s as [|c [|c' s]]; [discriminate E| |exact (ltac:(by destruct c as [[] [] [] [] [] [] [] []]))].
  by destruct c as [[] [] [] [] [] [] [] []].
Qed.
Lemma vec_read l : read_vector (vec_to_string l) = Some l.
Proof. rewrite vec_form. destruct l as [|i l]; [done|]. apply vector_items, items_all. Qed.
