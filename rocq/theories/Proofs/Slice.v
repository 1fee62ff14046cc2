(** operator[]: the layouts it computes are the selections of Spec/Slice.v. *)
From Verif.Proofs Require Export SliceText Track.
From Verif.Model Require Export Impl.

(** ** one dimension *)
(** what is pushed for a dimension of size [n] and stride [st], and the offset added *)
Definition dim_res (n st : Z) (x : sub) : option (Z * Z) * Z :=
  match x with
  | At i => (None, st * from_end n i)
  | Range b e s =>
      if sel_len n b e s =? 0 then (Some (0, 0), 0)
      else (Some (sel_len n b e s, py_step s * st), py_start n (py_step s) b * st)
  end.
Definition parse (p : list ascii) : outcome (option Z) :=
  match p with [] => Ok None | _ => let? z := stoll p in Ok (Some z) end.
Definition beg_of (n step : Z) (b : option Z) : option Z :=
  match b with
  | None => Some (if 0 <? step then 0 else s64 (u64 (n - 1)))
  | Some b =>
      let b := if b <? 0 then s64 (u64 (b + n)) else b in
      if (b <? 0) && negb (0 <? step) then None else
      let b := if b <? 0 then 0 else b in
      if s64 n <=? b then (if 0 <? step then None else Some (s64 (u64 (n - 1)))) else Some b
  end.
Definition end_of (n step : Z) (e : option Z) : outcome (option Z) :=
  match e with
  | None => Ok (Some (if 0 <? step then s64 n else -1))
  | Some e =>
      let e := if e <? 0 then s64 (u64 (e + n)) else e in
      if 0 <? step then
        if e <=? 0 then Ok None else Ok (Some (if s64 n <? e then s64 n else e))
      else
        let e := if e <? 0 then -1 else e in
        let? n1 := schk (s64 n - 1) in
        if n1 <=? e then Ok None else Ok (Some e)
  end.
Definition range_core (n st : Z) (p0 p1 p2 : list ascii) : outcome (option (Z * Z) * Z) :=
  let empty := Ok (Some (0, 0), 0) in
  if n =? 0 then empty else
  let? s := parse p2 in
  let? _ := orun_expect (negb (bool_decide (s = Some 0))) in
  let step := py_step s in
  let? b := parse p0 in
  match beg_of n step b with
  | None => empty
  | Some beg =>
      let? e := parse p1 in
      let? fin := end_of n step e in
      match fin with
      | None => empty
      | Some fin =>
          if ((0 <? step) && (fin <=? beg)) || ((step <? 0) && (beg <=? fin)) then empty
          else
            let? df := schk (fin - beg) in
            let? _ := schk (Z.abs df) in
            let? _ := schk (Z.abs step) in
            let size := Z.quot (Z.abs df - 1) (Z.abs step) + 1 in
            let? st' := schk (step * st) in
            let? d := schk (beg * st) in
            Ok (Some (size, st'), d)
      end
  end.
Lemma slice_dim_range n st parts : (forall p, parts <> [p]) ->
  slice_dim n st parts = range_core n st (nth 0 parts []) (nth 1 parts []) (nth 2 parts []).
Proof.
  intros Hp. unfold slice_dim, range_core.
  assert (forall (A B : outcome (option (Z * Z) * Z)), A = B -> match parts with [p0] =>
      let? idx := stoll p0 in
      let idx := if idx <? 0 then s64 (u64 (idx + n)) else idx in
      let? _ := orun_expect ((0 <=? idx) && (idx <? s64 n)) in
      let? d := schk (st * idx) in
      Ok (None, d) | _ => A end = B) as Hm.
  { intros A B ->. destruct parts as [|p [|q r]]; [done| |done]. by destruct (Hp p). }
  apply Hm. clear Hm. destruct (n =? 0); [done|]. generalize (nth 0 parts []) (nth 1 parts []) (nth 2 parts []).
  intros p0 p1 p2. unfold parse.
  assert ((match p2 with [] => Ok 1 | c :: l => let? z := stoll (c :: l) in let? _ := orun_expect (negb (z =? 0)) in Ok z end) =
    (let? s := match p2 with [] => Ok None | _ => let? z := stoll p2 in Ok (Some z) end in
     let? _ := orun_expect (negb (bool_decide (s = Some 0))) in Ok (py_step s))) as ->.
  { destruct p2; [done|]. destruct (stoll _) as [z| | |]; simpl; [|done..].
    destruct (Z.eqb_spec z 0) as [->|Hz]; [done|]. rewrite bool_decide_eq_false_2 by congruence. done. }
  destruct (match p2 with [] => Ok None | _ => _ end) as [s| | |]; simpl; [|done..].
  destruct (negb (bool_decide (s = Some 0))); simpl; [|done].
  destruct p0 as [|c p0]; simpl.
  - destruct p1 as [|c' p1]; simpl; [done|]. destruct (stoll (c' :: p1)) as [e| | |]; simpl; [|done..].
    by destruct (0 <? py_step s).
  - destruct (stoll (c :: p0)) as [b| | |]; simpl; [|done..].
    destruct (_ && _); [done|]. destruct (s64 n <=? _); [destruct (0 <? py_step s) eqn:Es; [done|]|]; simpl.
    all: destruct p1 as [|c' p1]; simpl; [try rewrite Es; done|].
    all: destruct (stoll (c' :: p1)) as [e| | |]; simpl; [|done..]; try rewrite Es; done.
Qed.

Lemma stoll_in_s64 s z : stoll s = Ok z -> in_s64 z.
Proof.
  intros H. destruct (stoll_cases s) as [(z' & rest & Hb)|[E _]]; [|congruence].
  rewrite (stoll_begins _ _ _ Hb) in H. destruct (fits_s64 z') eqn:E; [|done]. injection H as <-. by apply in_s64_fits.
Qed.
Lemma parse_in_s64 p o : parse p = Ok o -> match o with Some z => in_s64 z | None => True end.
Proof.
  unfold parse. destruct p as [|c p]; [by intros [= <-]|]. destruct (stoll (c :: p)) as [z| | |] eqn:E; try done.
  intros [= <-]. by apply (stoll_in_s64 (c :: p)).
Qed.
Lemma sum_s64 n i : 0 <= n < two63 -> in_s64 i -> i < 0 -> s64 (u64 (i + n)) = i + n.
Proof. intros Hn Hi Hlt. rewrite s64_u64. apply s64_id. unfold in_s64, two63 in *. lia. Qed.
Lemma from_end_eq n i : 0 <= n < two63 -> in_s64 i -> (if i <? 0 then s64 (u64 (i + n)) else i) = from_end n i.
Proof. intros Hn Hi. unfold from_end. destruct (Z.ltb_spec i 0); [|done]. by apply sum_s64. Qed.
Lemma s64_size n : 0 <= n < two63 -> s64 n = n.
Proof. intros. apply s64_id. unfold two63 in *. lia. Qed.
Lemma s64_pred n : 0 < n < two63 -> s64 (u64 (n - 1)) = n - 1.
Proof. intros. rewrite s64_u64. apply s64_id. unfold two63 in *. lia. Qed.

Lemma beg_of_spec n step b : 0 < n < two63 -> step <> 0 -> match b with Some z => in_s64 z | None => True end ->
  match beg_of n step b with
  | None => (0 < step /\ py_start n step b = n) \/ (step < 0 /\ py_start n step b = -1)
  | Some x => x = py_start n step b /\ 0 <= x < n
  end.
Proof.
  intros Hn Hs Hb. unfold beg_of, py_start, clamp. destruct b as [b|].
  - rewrite from_end_eq by (done || lia). rewrite s64_size, s64_pred by lia. generalize (from_end n b). intros i.
    destruct (Z.ltb_spec 0 step); destruct (Z.ltb_spec i 0); simpl; try lia;
      repeat (match goal with |- context [n <=? ?x] => destruct (Z.leb_spec n x) end; simpl); try lia.
  - rewrite s64_pred by lia. destruct (Z.ltb_spec 0 step); lia.
Qed.
Lemma end_of_spec n step e : 0 < n < two63 -> step <> 0 -> match e with Some z => in_s64 z | None => True end ->
  exists o, end_of n step e = Ok o /\
  match o with
  | None => (0 < step /\ py_stop n step e = 0) \/ (step < 0 /\ py_stop n step e = n - 1)
  | Some x => x = py_stop n step e /\ -1 <= x <= n
  end.
Proof.
  intros Hn Hs He. unfold end_of, py_stop, clamp. destruct e as [e|].
  - rewrite from_end_eq by (done || lia). rewrite s64_size by lia. generalize (from_end n e). intros i.
    unfold schk. assert (fits_s64 (n - 1) = true) as -> by (apply in_s64_fits; unfold in_s64, two63 in *; lia). simpl.
    destruct (Z.ltb_spec 0 step); [destruct (Z.leb_spec i 0)|destruct (Z.ltb_spec i 0)];
      [| destruct (Z.ltb_spec n i) | destruct (Z.leb_spec (n - 1) (-1)) | destruct (Z.leb_spec (n - 1) i)];
      eexists; (split; [done|]); simpl; lia.
  - rewrite s64_size by lia. destruct (Z.ltb_spec 0 step); eexists; (split; [done|]); simpl; lia.
Qed.
Lemma schk_ok z : in_s64 z -> schk z = Ok z.
Proof. intros H. unfold schk. by rewrite (proj1 (in_s64_fits z)). Qed.

(** the range branch after parsing *)
Lemma range_core_spec n st p0 p1 p2 : 0 < n < two63 ->
  match parse p2 with
  | Ok s =>
      if bool_decide (s = Some 0) then range_core n st p0 p1 p2 = Throw RuntimeError
      else match parse p0 with
      | Ok b =>
          (sel_len n b None s = 0 /\ range_core n st p0 p1 p2 = Ok (Some (0, 0), 0) /\ forall e, sel_len n b e s = 0) \/
          (0 <= py_start n (py_step s) b < n /\
           match parse p1 with
           | Ok e =>
               (sub_fits n st (Range b e s) -> range_core n st p0 p1 p2 = Ok (dim_res n st (Range b e s))) /\
               (range_core n st p0 p1 p2 = Ok (dim_res n st (Range b e s)) \/ range_core n st p0 p1 p2 = UB SignedOverflow)
           | Throw x => range_core n st p0 p1 p2 = Throw x
           | _ => False
           end)
      | Throw x => range_core n st p0 p1 p2 = Throw x
      | _ => False
      end
  | Throw x => range_core n st p0 p1 p2 = Throw x
  | _ => False
  end.
Proof.
  assert (forall p, match parse p with Ok _ => True | Throw _ => True | _ => False end) as Hpar.
  { intros p. unfold parse. destruct p as [|c p]; [done|].
    destruct (stoll_cases (c :: p)) as [(z & rest & Hb)|[-> _]]; [|done].
    rewrite (stoll_begins _ _ _ Hb). by destruct (fits_s64 z). }
  intros Hn. unfold range_core. assert (n =? 0 = false) as -> by lia.
  pose proof (Hpar p2) as Hp2. destruct (parse p2) as [s|x| |] eqn:E2; simpl; try done.
  case_bool_decide as Hs0; simpl; [done|]. assert (py_step s <> 0) as Hstep.
  { destruct s; simpl; [congruence|lia]. }
  pose proof (Hpar p0) as Hp0. destruct (parse p0) as [b|x| |] eqn:E0; simpl; try done.
  pose proof (beg_of_spec n (py_step s) b Hn Hstep (parse_in_s64 _ _ E0)) as Hb.
  destruct (beg_of n (py_step s) b) as [beg|].
  - right. destruct Hb as [-> Hb]. split; [done|].
    pose proof (Hpar p1) as Hp1. destruct (parse p1) as [e|x| |] eqn:E1; simpl; try done.
    destruct (end_of_spec n (py_step s) e Hn Hstep (parse_in_s64 _ _ E1)) as (o & -> & Ho). simpl.
    unfold dim_res, sub_fits. set (start := py_start n (py_step s) b) in *. set (stop := py_stop n (py_step s) e) in *.
    set (step := py_step s) in *.
    assert (sel_len n b e s = py_len start stop step) as -> by done. unfold py_len.
    destruct o as [fin|].
    + destruct Ho as [-> Ho]. destruct ((0 <? step) && (stop <=? start) || (step <? 0) && (start <=? stop)) eqn:Ec.
      * assert ((if 0 <? step then if start <? stop then (stop - start - 1) / step + 1 else 0
          else if stop <? start then (start - stop - 1) / - step + 1 else 0) = 0) as ->.
        { destruct (Z.ltb_spec 0 step), (Z.ltb_spec start stop), (Z.ltb_spec stop start); lia. }
        simpl. auto.
      * assert (in_s64 (stop - start)) as Hd by (unfold in_s64, two63 in *; lia).
        assert (in_s64 (Z.abs (stop - start))) as Hda by (unfold in_s64, two63 in *; lia). rewrite (schk_ok _ Hd). cbn [obind]. rewrite (schk_ok _ Hda). simpl.
        set (len := if 0 <? step then _ else _).
        assert (0 < len /\ Z.quot (Z.abs (stop - start) - 1) (Z.abs step) + 1 = len) as [Hl Hq].
        { subst len. destruct (Z.ltb_spec 0 step).
          - destruct (Z.ltb_spec start stop); [|lia]. rewrite (Z.abs_eq step), (Z.abs_eq (stop - start)) by lia.
            rewrite Z.quot_div_nonneg by lia. split; [|done]. pose proof (Z.div_pos (stop - start - 1) step). lia.
          - destruct (Z.ltb_spec stop start); [|lia]. rewrite (Z.abs_neq step), (Z.abs_neq (stop - start)) by lia.
            rewrite Z.quot_div_nonneg by lia. split; [|f_equal; f_equal; lia]. pose proof (Z.div_pos (start - stop - 1) (- step)). lia. }
        rewrite Hq. assert (len =? 0 = false) as -> by lia.
        split.
        -- intros Hfit. destruct (Hfit Hl) as (F1 & F2 & F3).
           assert (in_s64 (Z.abs step)) as Ha.
           { assert (in_s64 step). { subst step. destruct s; simpl; [exact (parse_in_s64 _ _ E2)|done]. } unfold in_s64 in *. lia. }
           rewrite (schk_ok _ Ha), (schk_ok _ F1), (schk_ok _ F2). done.
        -- unfold schk. destruct (fits_s64 (Z.abs step)); simpl; [|by right]. destruct (fits_s64 (step * st)); simpl; [|by right].
           destruct (fits_s64 (start * st)); simpl; [|by right]. by left.
    + assert ((if 0 <? step then if start <? stop then (stop - start - 1) / step + 1 else 0
          else if stop <? start then (start - stop - 1) / - step + 1 else 0) = 0) as ->.
      { destruct (Z.ltb_spec 0 step), (Z.ltb_spec start stop), (Z.ltb_spec stop start); lia. }
      simpl. auto.
  - left. assert (forall e, sel_len n b e s = 0) as Hz; [|done].
    intros e. unfold sel_len, py_len. set (step := py_step s) in *.
    assert (if 0 <? step then py_stop n step e <= n else -1 <= py_stop n step e) as Hst.
    { unfold py_stop, clamp. destruct e as [e|]; destruct (Z.ltb_spec 0 step); lia. }
    destruct Hb as [[H1 ->]|[H1 ->]].
    + assert (0 <? step = true) as Es by lia. rewrite Es in *. destruct (Z.ltb_spec n (py_stop n step e)); lia.
    + assert (0 <? step = false) as Es by lia. rewrite Es in *. destruct (Z.ltb_spec (py_stop n step e) (-1)); lia.
Qed.

(** an empty dimension *)
Lemma range_core_zero st p0 p1 p2 : range_core 0 st p0 p1 p2 = Ok (Some (0, 0), 0).
Proof. done. Qed.
Lemma sel_len_zero b e s : s <> Some 0 -> sel_len 0 b e s = 0.
Proof.
  intros Hs. unfold sel_len, py_len, py_start, py_stop, clamp, from_end.
  destruct b as [b|], e as [e|]; repeat (match goal with |- context [?x <? ?y] => destruct (Z.ltb_spec x y) end); try lia.
Qed.
Lemma sel_len_nonneg n b e s : 0 <= sel_len n b e s.
Proof.
  unfold sel_len, py_len. repeat (match goal with |- context [?x <? ?y] => destruct (Z.ltb_spec x y) end); try lia.
  - pose proof (Z.div_pos (py_stop n (py_step s) e - py_start n (py_step s) b - 1) (py_step s)). lia.
  - destruct (decide (py_step s = 0)) as [->|]; [simpl; rewrite Zdiv_0_r; lia|].
    pose proof (Z.div_pos (py_start n (py_step s) b - py_stop n (py_step s) e - 1) (- py_step s)). lia.
Qed.
(** selected indices are in range *)
Lemma sel_at_range n b e s k : 0 <= n -> s <> Some 0 -> 0 <= k < sel_len n b e s -> 0 <= sel_at n b s k < n.
Proof.
  intros Hn Hs Hk. unfold sel_at. unfold sel_len, py_len in Hk. set (step := py_step s) in *.
  assert (step <> 0) as Hstep by (subst step; destruct s; simpl; [congruence|lia]).
  assert (0 < step -> 0 <= py_start n step b /\ py_stop n step e <= n) as Hpos.
  { intros. unfold py_start, py_stop, clamp. assert (0 <? step = true) as -> by lia. destruct b, e; lia. }
  assert (step < 0 -> py_start n step b < n /\ -1 <= py_stop n step e) as Hneg.
  { intros. unfold py_start, py_stop, clamp. assert (0 <? step = false) as -> by lia. destruct b, e; lia. }
  destruct (Z.ltb_spec 0 step) as [Hp|Hp].
  - destruct (Hpos Hp). destruct (Z.ltb_spec (py_start n step b) (py_stop n step e)); [|lia].
    pose proof (Z.mul_div_le (py_stop n step e - py_start n step b - 1) step). nia.
  - destruct Hneg; [lia|]. destruct (Z.ltb_spec (py_stop n step e) (py_start n step b)); [|lia].
    pose proof (Z.mul_div_le (py_start n step b - py_stop n step e - 1) (- step)). nia.
Qed.

Lemma part_parse p o : part_text p o -> parse (trim p) = Ok o.
Proof.
  destruct o as [z|]; simpl.
  - intros [H Hz]. destruct (int_trim _ _ H) as [H1 H2]. rewrite (proj1 (in_s64_fits z) Hz) in H2.
    unfold parse. destruct (trim p); [done|]. by rewrite H2.
  - intros H. by rewrite trim_blank.
Qed.
Lemma range_text_ok n st parts b e s : 0 <= n < two63 -> (forall p, parts <> [p]) ->
  parse (nth 0 parts []) = Ok b -> parse (nth 1 parts []) = Ok e -> parse (nth 2 parts []) = Ok s ->
  s <> Some 0 -> sub_fits n st (Range b e s) ->
  slice_dim n st parts = Ok (dim_res n st (Range b e s)).
Proof.
  intros Hn Hp E0 E1 E2 Hs Hfit. rewrite slice_dim_range by done.
  destruct (decide (n = 0)) as [->|Hn0]. { rewrite range_core_zero. unfold dim_res. by rewrite sel_len_zero. }
  pose proof (range_core_spec n st (nth 0 parts []) (nth 1 parts []) (nth 2 parts [])) as H.
  rewrite E2, E0, E1 in H. rewrite bool_decide_eq_false_2 in H by done.
  destruct H as [(_ & -> & Hz)|(_ & H & _)]; [lia| |by apply H].
  unfold dim_res. by rewrite Hz.
Qed.
Lemma slice_dim_text n st t x : 0 <= n < two63 -> item_text t x -> legal n x -> sub_fits n st x ->
  slice_dim n st (map trim (ssplit t ":"%char)) = Ok (dim_res n st x).
Proof.
  intros Hn Ht Hl Hfit. destruct Ht as [s i Hi Hz|tb te b e Hb He|tb te ts b e s Hb He Hs].
  - rewrite ssplit_one; [|by eapply int_nonempty|by apply plain_no; eapply int_plain]. cbn [map slice_dim].
    destruct (int_trim _ _ Hi) as [_ ->]. rewrite (proj1 (in_s64_fits i) Hz). cbn [obind].
    rewrite from_end_eq by done. rewrite s64_size by done. simpl in Hl.
    assert ((0 <=? from_end n i) && (from_end n i <? n) = true) as ->.
    { unfold from_end. destruct (Z.ltb_spec i 0); lia. }
    simpl. simpl in Hfit. by rewrite (schk_ok _ Hfit).
  - pose proof (plain_no _ (part_plain _ _ Hb)) as [Hb' _]. pose proof (plain_no _ (part_plain _ _ He)) as [He' _].
    rewrite ssplit_two by done. apply range_text_ok; try done; by apply part_parse.
  - pose proof (plain_no _ (part_plain _ _ Hb)) as [Hb' _]. pose proof (plain_no _ (part_plain _ _ He)) as [He' _].
    pose proof (plain_no _ (part_plain _ _ Hs)) as [Hs' _].
    rewrite ssplit_three by done. apply range_text_ok; try done; by apply part_parse.
Qed.
(** whatever the text, an accepted item is some selection *)
Lemma slice_dim_inv n st parts x : 0 <= n < two63 -> slice_dim n st parts = Ok x ->
  exists y, legal n y /\ x = dim_res n st y.
Proof.
  intros Hn H. 
  assert ((exists p, parts = [p]) \/ (forall p, parts <> [p])) as [[p ->]|Hp].
  { destruct parts as [|p [|q r]]; [by right|left; by exists p|by right]. }
  - cbn [slice_dim] in H. destruct (stoll p) as [i| | |] eqn:Ei; try done. cbn [obind] in H.
    rewrite from_end_eq in H by (done || by eapply stoll_in_s64). rewrite s64_size in H by done.
    destruct ((0 <=? from_end n i) && (from_end n i <? n)) eqn:Eb; [|done]. simpl in H. unfold schk in H.
    destruct (fits_s64 _); [|done]. injection H as <-. exists (At i). split; [|done].
    simpl. unfold from_end in Eb. destruct (Z.ltb_spec i 0); lia.
  - rewrite slice_dim_range in H by done.
    destruct (decide (n = 0)) as [->|Hn0].
    { exists whole. split; [done|]. rewrite range_core_zero in H. injection H as <-. done. }
    pose proof (range_core_spec n st (nth 0 parts []) (nth 1 parts []) (nth 2 parts [])) as Hr.
    specialize (Hr ltac:(lia)).
    destruct (parse (nth 2 parts [])) as [s|y| |]; [|rewrite Hr in H; done|done..].
    case_bool_decide as Hs; [rewrite Hr in H; done|].
    destruct (parse (nth 0 parts [])) as [b|y| |]; [|rewrite Hr in H; done|done..].
    destruct Hr as [(Hz & Hr & _)|[_ Hr]].
    + rewrite Hr in H. injection H as <-. exists (Range b None s). split; [done|]. unfold dim_res. by rewrite Hz.
    + destruct (parse (nth 1 parts [])) as [e|y| |]; [|rewrite Hr in H; done|done..].
      destruct Hr as [_ [Hr|Hr]]; rewrite Hr in H; [|done]. injection H as <-. by exists (Range b e s).
Qed.

Lemma sel_len_le n b e s : 0 <= n -> s <> Some 0 -> sel_len n b e s <= n.
Proof.
  intros Hn Hs. unfold sel_len, py_len. set (step := py_step s) in *.
  assert (step <> 0) as Hstep by (subst step; destruct s; simpl; [congruence|lia]).
  assert (0 < step -> 0 <= py_start n step b /\ py_stop n step e <= n) as Hpos.
  { intros. unfold py_start, py_stop, clamp. assert (0 <? step = true) as -> by lia. destruct b, e; lia. }
  assert (step < 0 -> py_start n step b < n /\ -1 <= py_stop n step e) as Hneg.
  { intros. unfold py_start, py_stop, clamp. assert (0 <? step = false) as -> by lia. destruct b, e; lia. }
  destruct (Z.ltb_spec 0 step) as [Hp|Hp].
  - destruct (Hpos Hp). destruct (Z.ltb_spec (py_start n step b) (py_stop n step e)); [|lia].
    pose proof (Z.div_le_upper_bound (py_stop n step e - py_start n step b - 1) step (py_stop n step e - py_start n step b - 1)). nia.
  - destruct Hneg; [lia|]. destruct (Z.ltb_spec (py_stop n step e) (py_start n step b)); [|lia].
    pose proof (Z.div_le_upper_bound (py_start n step b - py_stop n step e - 1) (- step) (py_start n step b - py_stop n step e - 1)). nia.
Qed.
Lemma sel_len_whole n : 0 <= n -> sel_len n None None None = n.
Proof.
  intros Hn. unfold sel_len, py_len. simpl. destruct (Z.ltb_spec 0 n); [|lia]. rewrite Z.div_1_r. lia.
Qed.
Lemma dim_whole n st : 0 <= n -> dim_res n st whole = if n =? 0 then (Some (0, 0), 0) else (Some (n, st), 0).
Proof. intros Hn. unfold dim_res, whole. rewrite sel_len_whole by done. simpl py_start. simpl py_step. by rewrite Z.mul_1_l. Qed.

(** ** all dimensions *)
Fixpoint sel_lay (ss sts : list Z) (xs : list sub) : list Z * list Z * Z :=
  match ss, sts with
  | n :: ss', st :: sts' =>
      let d := dim_res n st (match xs with [] => whole | x :: _ => x end) in
      let y := sel_lay ss' sts' (tail xs) in
      match d.1 with
      | Some (n', st') => (n' :: y.1.1, st' :: y.1.2, d.2 + y.2)
      | None => (y.1.1, y.1.2, d.2 + y.2)
      end
  | _, _ => ([], [], 0)
  end.
Lemma u64_add_u64 a b : u64 (u64 a + b) = u64 (a + b).
Proof. unfold u64. by rewrite Zplus_mod_idemp_l. Qed.
Lemma slice_dims_text ss : forall sts each xs off,
  (length ss <= length sts)%nat -> (length xs <= length ss)%nat ->
  Forall (fun n => 0 <= n < two63) ss -> Forall in_s64 sts -> 0 <= off < two64 ->
  Forall2 item_text each xs -> all_legal ss xs -> subs_fit ss sts xs ->
  slice_dims ss sts each off = Ok ((sel_lay ss sts xs).1.1, (sel_lay ss sts xs).1.2, u64 (off + (sel_lay ss sts xs).2)).
Proof.
  induction ss as [|n ss IH]; intros sts each xs off Hls Hlx Hss Hst Hoff He Hleg Hfit.
  - destruct xs; [|simpl in Hlx; lia]. apply Forall2_nil_inv_r in He as ->. simpl. by rewrite Z.add_0_r, u64_id.
  - destruct sts as [|st sts]; [simpl in Hls; lia|]. apply Forall_cons_1 in Hss as [Hn Hss]. apply Forall_cons_1 in Hst as [Hs Hst].
    simpl in Hls. assert (0 <= u64 0 < two64) as _ by done.
    assert (forall z, 0 <= u64 z < two64) as Hu by (intros; apply Z.mod_pos_bound; done).
    destruct xs as [|x xs].
    + apply Forall2_nil_inv_r in He as ->. cbn [slice_dims sel_lay tail].
      rewrite (range_text_ok n st [[]; []; []] None None None); try done.
      2:{ intros _. simpl. rewrite Z.mul_1_l. done. }
      fold whole. cbn [obind]. rewrite (IH _ _ []) by (first [done | simpl; lia | by destruct ss, sts | by apply Hu]). cbn [obind fst snd].
      rewrite u64_add_u64, <- Z.add_assoc. destruct (dim_res n st whole) as [[[? ?]|] ?]; done.
    + apply Forall2_cons_inv_r in He as (e & each' & He1 & He & ->). cbn [slice_dims sel_lay tail].
      destruct Hleg as [Hl1 Hleg]. destruct Hfit as [Hf1 Hfit]. simpl in Hlx.
      rewrite (slice_dim_text n st e x) by done. cbn [obind]. rewrite (IH _ _ xs) by (done || lia). cbn [obind fst snd].
      rewrite u64_add_u64, <- Z.add_assoc. destruct (dim_res n st x) as [[[? ?]|] ?]; done.
Qed.
Lemma slice_dims_inv ss : forall sts each off y,
  Forall (fun n => 0 <= n < two63) ss -> 0 <= off < two64 ->
  slice_dims ss sts each off = Ok y ->
  (length ss <= length sts)%nat /\ exists xs, length xs = length ss /\ all_legal ss xs /\
  y = ((sel_lay ss sts xs).1.1, (sel_lay ss sts xs).1.2, u64 (off + (sel_lay ss sts xs).2)).
Proof.
  induction ss as [|n ss IH]; intros sts each off y Hss Hoff H.
  - simpl in H. injection H as <-. split; [simpl; lia|]. exists []. split; [done|]. split; [done|]. simpl. by rewrite Z.add_0_r, u64_id.
  - destruct sts as [|st sts]; [done|]. apply Forall_cons_1 in Hss as [Hn Hss]. cbn [slice_dims] in H.
    assert (forall z, 0 <= u64 z < two64) as Hu by (intros; apply Z.mod_pos_bound; done).
    destruct (match each with [] => _ | _ => _ end) as [parts each'].
    destruct (slice_dim n st parts) as [x| | |] eqn:Ex; try done. cbn [obind] in H.
    destruct (slice_dim_inv _ _ _ _ Hn Ex) as (z & Hz & ->).
    destruct (slice_dims ss sts each' _) as [y'| | |] eqn:Ey; try done. cbn [obind] in H.
    destruct (IH _ _ _ _ Hss (Hu _) Ey) as (Hl & xs & Hlx & Hleg & ->). simpl. split; [lia|].
    exists (z :: xs). split; [simpl; lia|]. split; [done|]. injection H as <-. cbn [fst snd].
    rewrite u64_add_u64, <- Z.add_assoc. destruct (dim_res n st z) as [[[? ?]|] ?]; done.
Qed.

Lemma out_shape_nil ss : out_shape ss [] = ss. Proof. by destruct ss. Qed.
Lemma src_index_nil ss idx : src_index ss [] idx = idx. Proof. by destruct ss. Qed.
Lemma sel_lay_shape ss : forall sts xs, (length ss <= length sts)%nat -> all_legal ss xs -> Forall (fun n => 0 <= n) ss ->
  (sel_lay ss sts xs).1.1 = out_shape ss xs /\ length (sel_lay ss sts xs).1.2 = length (out_shape ss xs).
Proof.
  induction ss as [|n ss IH]; intros sts xs Hl Hleg Hss; [done|].
  destruct sts as [|st sts]; [simpl in Hl; lia|]. simpl in Hl. apply Forall_cons_1 in Hss as [Hn Hss].
  cbn [sel_lay]. destruct xs as [|x xs]; cbn [tail].
  - rewrite dim_whole by done. destruct (IH sts [] ltac:(lia)) as [E1 E2]; [by destruct ss|done|].
    rewrite out_shape_nil in E1, E2 |- *. destruct (Z.eqb_spec n 0) as [->|]; cbn [fst snd]; split; [by f_equal|simpl; congruence|by f_equal|simpl; congruence].
  - destruct Hleg as [Hx Hleg]. destruct (IH sts xs ltac:(lia) Hleg Hss) as [E1 E2]. destruct x as [i|b e s]; cbn [dim_res out_shape fst snd].
    + done.
    + destruct (Z.eqb_spec (sel_len n b e s) 0) as [E|E]; cbn [fst snd]; split; [by f_equal|simpl; congruence|by f_equal|simpl; congruence].
Qed.
Lemma sel_lay_pos ss : forall sts xs idx, (length ss <= length sts)%nat -> all_legal ss xs -> Forall (fun n => 0 <= n) ss ->
  in_range (out_shape ss xs) idx ->
  in_range ss (src_index ss xs idx) /\
  (sel_lay ss sts xs).2 + dot (sel_lay ss sts xs).1.2 idx = dot sts (src_index ss xs idx).
Proof.
  induction ss as [|n ss IH]; intros sts xs idx Hl Hleg Hss Hi.
  - destruct xs; [|done]. simpl in *. apply Forall2_nil_inv_l in Hi as ->. split; [apply Forall2_nil_2|]. by destruct sts.
  - destruct sts as [|st sts]; [simpl in Hl; lia|]. simpl in Hl. apply Forall_cons_1 in Hss as [Hn Hss].
    cbn [sel_lay]. destruct xs as [|x xs]; cbn [tail].
    + simpl out_shape in Hi. simpl src_index. split; [done|]. apply Forall2_cons_inv_l in Hi as (i & idx' & Hi1 & Hi2 & ->).
      rewrite dim_whole by done. destruct (Z.eqb_spec n 0) as [->|Hn0]; [lia|].
      destruct (IH sts [] idx' ltac:(lia)) as [_ E]; [by destruct ss|done|by rewrite out_shape_nil|].
      rewrite src_index_nil in E. cbn [fst snd dot]. lia.
    + destruct Hleg as [Hx Hleg]. destruct x as [i|b e s]; cbn [dim_res out_shape src_index fst snd] in *.
      * destruct (IH sts xs idx ltac:(lia) Hleg Hss Hi) as [H1 E]. split.
        -- apply Forall2_cons_2; [|done]. simpl in Hx. unfold from_end. destruct (Z.ltb_spec i 0); lia.
        -- cbn [dot]. lia.
      * apply Forall2_cons_inv_l in Hi as (k & idx' & Hk & Hi & ->).
        destruct (IH sts xs idx' ltac:(lia) Hleg Hss Hi) as [H1 E]. split.
        -- apply Forall2_cons_2; [|done]. by eapply sel_at_range.
        -- destruct (Z.eqb_spec (sel_len n b e s) 0); [lia|]. cbn [fst snd dot]. unfold sel_at. rewrite <- E. ring.
Qed.
Lemma out_shape_bound ss : forall xs, all_legal ss xs -> Forall (fun n => 0 <= n < two64) ss ->
  Forall (fun n => 0 <= n < two64) (out_shape ss xs).
Proof.
  induction ss as [|n ss IH]; intros xs Hleg Hss; [done|]. destruct xs as [|x xs]; [done|].
  apply Forall_cons_1 in Hss as [Hn Hss]. destruct Hleg as [Hx Hleg]. destruct x as [i|b e s]; simpl; [by apply IH|].
  constructor; [|by apply IH]. pose proof (sel_len_nonneg n b e s). pose proof (sel_len_le n b e s). simpl in Hx. naive_solver lia.
Qed.
Lemma u64_range z : 0 <= u64 z < two64.
Proof. apply Z.mod_pos_bound. done. Qed.

Section with_fops.
Context {fo : FOps}.
(** the layout a selection gives *)
Definition sel_layout (l : layout) (xs : list sub) : layout :=
  Lay (sel_lay (sizes l) (strides l) xs).1.1 (sel_lay (sizes l) (strides l) xs).1.2
      (u64 (offset l + (sel_lay (sizes l) (strides l) xs).2)).
Lemma sel_layout_ok l xs : lay_ok l -> all_legal (sizes l) xs -> lay_ok (sel_layout l xs) /\ sizes (sel_layout l xs) = out_shape (sizes l) xs.
Proof.
  intros (Hl & Hs & Ho) Hleg. destruct (sel_lay_shape (sizes l) (strides l) xs Hl Hleg) as [E1 E2].
  { eapply Forall_impl; [exact Hs|]. simpl. lia. }
  split; [|done]. split; [|split]; simpl.
  - rewrite E1, E2. lia.
  - rewrite E1. by apply out_shape_bound.
  - apply u64_range.
Qed.
Lemma sel_layout_pos l xs n idx : lay_ok l -> lay_in l n -> n <= two64 -> all_legal (sizes l) xs ->
  in_range (out_shape (sizes l) xs) idx ->
  in_range (sizes l) (src_index (sizes l) xs idx) /\ pos (sel_layout l xs) idx = pos l (src_index (sizes l) xs idx).
Proof.
  intros (Hl & Hs & Ho) Hin Hn Hleg Hi.
  assert (Forall (fun n => 0 <= n) (sizes l)) as Hs0 by (eapply Forall_impl; [exact Hs|]; simpl; lia).
  destruct (sel_lay_pos _ (strides l) xs idx Hl Hleg Hs0 Hi) as [H1 E1]. split; [done|].
  unfold pos, sel_layout. cbn [offset strides].
  pose proof (in_range_zeros _ (in_range_pos _ _ Hi)) as Hz.
  destruct (sel_lay_pos _ (strides l) xs _ Hl Hleg Hs0 Hz) as [H2 E2]. rewrite dot_zeros in E2.
  specialize (Hin _ H2). unfold pos in Hin. rewrite u64_id; lia.
Qed.
Lemma sel_layout_in l xs n : lay_ok l -> lay_in l n -> n <= two64 -> all_legal (sizes l) xs -> lay_in (sel_layout l xs) n.
Proof.
  intros Hok Hin Hn Hleg idx Hi. destruct (sel_layout_ok l xs Hok Hleg) as [_ E]. rewrite E in Hi.
  destruct (sel_layout_pos l xs n idx) as [H1 ->]; try done. by apply Hin.
Qed.
(** distinct indices of the result have distinct sources *)
Lemma src_index_inj ss : forall xs i j, all_legal ss xs -> in_range (out_shape ss xs) i -> in_range (out_shape ss xs) j ->
  src_index ss xs i = src_index ss xs j -> i = j.
Proof.
  induction ss as [|n ss IH]; intros xs i j Hleg Hi Hj E.
  - destruct xs; [|done]. simpl in *. apply Forall2_nil_inv_l in Hi as ->. by apply Forall2_nil_inv_l in Hj as ->.
  - destruct xs as [|x xs]; [done|]. destruct Hleg as [Hx Hleg]. destruct x as [a|b e s]; simpl in *.
    + injection E as E. by eapply IH.
    + apply Forall2_cons_inv_l in Hi as (k & i' & Hk & Hi & ->). apply Forall2_cons_inv_l in Hj as (k' & j' & Hk' & Hj & ->).
      injection E as E1 E2. f_equal; [|by eapply IH]. unfold sel_at in E1.
      assert (py_step s <> 0) by (destruct s; simpl; [congruence|lia]). nia.
Qed.
Lemma sel_layout_inj l xs n : lay_ok l -> lay_in l n -> n <= two64 -> lay_inj l -> all_legal (sizes l) xs -> lay_inj (sel_layout l xs).
Proof.
  intros Hok Hin Hn Hinj Hleg i j Hi Hj E. destruct (sel_layout_ok l xs Hok Hleg) as [_ Es]. rewrite Es in Hi, Hj.
  destruct (sel_layout_pos l xs n i) as [H1 E1]; try done. destruct (sel_layout_pos l xs n j) as [H2 E2]; try done.
  eapply src_index_inj; try done. apply Hinj; congruence.
Qed.

Lemma exec_slice h t r s lay : h_ten h !! t = Some r -> slice_layout (t_lay r) s = Ok lay ->
  exec (OSlice (Some t) s) h = new_handle (let! ret := create_view (t_dt r) lay (t_sto r) in finish_view ret t) h.
Proof.
  intros Ht E. cbn [exec]. rewrite un_some, !new_handle_eq. unfold op_slice. erewrite bind_ok by (by apply get_ten_ok).
  rewrite bind_lift. by rewrite E.
Qed.
Lemma slice_layout_text l s xs : lay_ok l -> Forall in_s64 (strides l) -> Forall (fun n => n < two63) (sizes l) ->
  subs_text s xs -> all_legal (sizes l) xs -> subs_fit (sizes l) (strides l) xs ->
  slice_layout l s = Ok (sel_layout l xs).
Proof.
  intros (Hl & Hs & Ho) Hst Hsz (items & Hit & ->) Hleg Hfit. unfold slice_layout.
  assert (length xs <= length (sizes l))%nat as Hlx.
  { clear -Hleg. revert Hleg. generalize (sizes l). induction xs as [|x xs IH]; intros [|n ss] H; simpl in *; try lia; try done.
    destruct H as [_ H]. apply IH in H. lia. }
  rewrite ssplit_commas.
  2:{ clear -Hit. induction Hit; constructor; [by eapply item_ok|done]. }
  pose proof (Forall2_length _ _ _ Hit) as Hlen.
  assert (Nat.leb (length items) (length (sizes l)) = true) as -> by (apply Nat.leb_le; lia). cbn [orun_expect obind].
  rewrite (slice_dims_text _ _ _ xs); try done.
  rewrite Forall_forall in Hs, Hsz |- *. intros n Hn. specialize (Hs n Hn). specialize (Hsz n Hn). simpl in *. lia.
Qed.
Lemma slice_new h t r cs s xs : reachable h -> h_ten h !! t = Some r -> backed h r cs ->
  Forall in_s64 (strides (t_lay r)) -> Forall (fun n => n < two63) (shape r) ->
  subs_text s xs -> all_legal (shape r) xs -> subs_fit (shape r) (strides (t_lay r)) xs ->
  exists t' h', exec (OSlice (Some t) s) h = (Ok (RHandle (Some t')), h') /\
    new_view h h' r t' (out_shape (shape r) xs) (src_index (shape r) xs) (t_rg r).
Proof.
  intros Hr Ht (Hb & Hok & Hin & Hn) Hst Hsz Htx Hleg Hfit. unfold shape in *.
  pose proof (slice_layout_text _ _ _ Hok Hst Hsz Htx Hleg Hfit) as El.
  destruct (sel_layout_ok _ _ Hok Hleg) as [Hok' Es].
  destruct (view_op_new (OSlice (Some t) s) h t r (sel_layout (t_lay r) xs) (src_index (sizes (t_lay r)) xs)) as (t' & h' & r' & E & Hv & _); try done.
  - intros g Hg. by eapply (reachable_grads_exist h).
  - by apply exec_slice.
  - intros idx Hi. rewrite Es in Hi. eapply sel_layout_pos; try done. unfold two63, two64 in *. lia.
  - exists t', h'. split; [done|]. by rewrite <- Es.
Qed.
End with_fops.
