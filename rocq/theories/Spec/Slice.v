(** Subscripts: what Python's indexing selects, and how subscripts are written. Nothing
    here refers to the model. *)
From Verif.Spec Require Export Index.
From Coq Require Export Strings.Ascii.

(** [i], or [b:e:s] with parts left out *)
Inductive sub := At (i : Z) | Range (b e s : option Z).
Definition whole : sub := Range None None None.

(** ** selection from one dimension of size [n] *)
(** negative numbers count from the end *)
Definition from_end (n i : Z) : Z := if i <? 0 then i + n else i.
Definition py_step (s : option Z) : Z := default 1 s.
(** a given bound, brought into range: for a positive step [0, n], for a negative one [-1, n-1] *)
Definition clamp (n step i : Z) : Z :=
  let i := from_end n i in
  if 0 <? step then Z.max 0 (Z.min n i) else Z.max (-1) (Z.min (n - 1) i).
Definition py_start (n step : Z) (b : option Z) : Z :=
  match b with None => if 0 <? step then 0 else n - 1 | Some i => clamp n step i end.
Definition py_stop (n step : Z) (e : option Z) : Z :=
  match e with None => if 0 <? step then n else -1 | Some i => clamp n step i end.
(** how many of start, start+step, ... lie before stop *)
Definition py_len (start stop step : Z) : Z :=
  if 0 <? step then (if start <? stop then (stop - start - 1) / step + 1 else 0)
  else (if stop <? start then (start - stop - 1) / (- step) + 1 else 0).
Definition sel_len (n : Z) (b e s : option Z) : Z :=
  py_len (py_start n (py_step s) b) (py_stop n (py_step s) e) (py_step s).
(** the [k]-th selected index *)
Definition sel_at (n : Z) (b s : option Z) (k : Z) : Z := py_start n (py_step s) b + k * py_step s.
Definition legal (n : Z) (x : sub) : Prop :=
  match x with At i => - n <= i < n | Range _ _ s => s <> Some 0 end.

(** ** selection from all dimensions; unmentioned ones are taken whole *)
Fixpoint out_shape (ss : list Z) (xs : list sub) : list Z :=
  match ss, xs with
  | n :: ss', At _ :: xs' => out_shape ss' xs'
  | n :: ss', Range b e s :: xs' => sel_len n b e s :: out_shape ss' xs'
  | _, _ => ss
  end.
(** the source index of the result's element [idx] *)
Fixpoint src_index (ss : list Z) (xs : list sub) (idx : list Z) : list Z :=
  match ss, xs with
  | n :: ss', At i :: xs' => from_end n i :: src_index ss' xs' idx
  | n :: ss', Range b e s :: xs' =>
      match idx with
      | k :: idx' => sel_at n b s k :: src_index ss' xs' idx'
      | [] => []
      end
  | _, _ => idx
  end.
Fixpoint all_legal (ss : list Z) (xs : list sub) : Prop :=
  match ss, xs with
  | _, [] => True
  | n :: ss', x :: xs' => legal n x /\ all_legal ss' xs'
  | [], _ :: _ => False
  end.
(** The products of indices and steps with the strides are representable as long long. *)
Definition in_s64 (z : Z) : Prop := - 2 ^ 63 <= z < 2 ^ 63.
Definition sub_fits (n st : Z) (x : sub) : Prop :=
  match x with
  | At i => in_s64 (st * from_end n i)
  | Range b e s => 0 < sel_len n b e s ->
      in_s64 (py_step s * st) /\ in_s64 (py_start n (py_step s) b * st) /\ - 2 ^ 63 < py_step s
  end.
Fixpoint subs_fit (ss st : list Z) (xs : list sub) : Prop :=
  match ss, st, xs with
  | n :: ss', s :: st', x :: xs' => sub_fits n s x /\ subs_fit ss' st' xs'
  | _, _, _ => True
  end.

(** ** text *)
Definition blank (c : ascii) : Prop := c ∈ map ascii_of_nat [32; 9; 10; 11; 12; 13]%nat.
Definition digit (c : ascii) : Prop := (48 <= nat_of_ascii c <= 57)%nat.
Definition dec_value (ds : list ascii) : Z :=
  fold_left (fun a c => 10 * a + (Z.of_nat (nat_of_ascii c) - 48)) ds 0.
(** [s] begins with the integer [z], possibly after blanks; the rest is [rest] *)
Inductive begins_int (s : list ascii) (z : Z) (rest : list ascii) : Prop :=
| Begins (pre : list ascii) (sign : list ascii) (ds : list ascii) :
    Forall blank pre -> ds <> [] -> Forall digit ds -> ~ (exists c, head rest = Some c /\ digit c) ->
    s = pre ++ sign ++ ds ++ rest ->
    (sign = ["-"%char] /\ z = - dec_value ds) \/ ((sign = [] \/ sign = ["+"%char]) /\ z = dec_value ds) ->
    begins_int s z rest.
Definition int_text (s : list ascii) (z : Z) : Prop := exists rest, Forall blank rest /\ begins_int s z rest.
(** a part of a range: an integer a long long can hold, or nothing *)
Definition part_text (s : list ascii) (o : option Z) : Prop :=
  match o with None => Forall blank s | Some z => int_text s z /\ in_s64 z end.
Inductive item_text : list ascii -> sub -> Prop :=
| ItemAt s i : int_text s i -> in_s64 i -> item_text s (At i)
| ItemRange2 tb te b e : part_text tb b -> part_text te e ->
    item_text (tb ++ ":"%char :: te) (Range b e None)
| ItemRange3 tb te ts b e s : part_text tb b -> part_text te e -> part_text ts s ->
    item_text (tb ++ ":"%char :: te ++ ":"%char :: ts) (Range b e s).
(** comma-separated; the empty string for none *)
Fixpoint commas (l : list (list ascii)) : list ascii :=
  match l with [] => [] | [s] => s | s :: r => s ++ ","%char :: commas r end.
Definition subs_text (s : list ascii) (xs : list sub) : Prop :=
  exists items, Forall2 item_text items xs /\ s = commas items.

(** steps that do not leave the dimension at once *)
Fixpoint small_steps (ss : list Z) (xs : list sub) : Prop :=
  match ss, xs with
  | n :: ss', Range _ _ s :: xs' => (Z.abs (py_step s) = 1 \/ Z.abs (py_step s) < n) /\ small_steps ss' xs'
  | n :: ss', At _ :: xs' => small_steps ss' xs'
  | _, _ => True
  end.

(** ** bad items: not a single index in range, and not a range. [err]: the exception *)
Inductive err := BadIndex | NoInteger | TooLarge.
Definition no_int (t : list ascii) : Prop := ~ exists z rest, begins_int t z rest.
(** a part of a range that is neither empty nor an integer a long long can hold *)
Definition bad_part (t : list ascii) (e : err) : Prop :=
  (e = NoInteger /\ no_int t /\ ~ Forall blank t) \/
  (e = TooLarge /\ exists z, int_text t z /\ ~ in_s64 z).
Definition no_colon (t : list ascii) : Prop := ":"%char ∉ t.
(** the text of a range: two or three parts *)
Inductive range_text : list ascii -> list ascii -> list ascii -> list ascii -> Prop :=
| Range2 tb te : no_colon tb -> no_colon te -> range_text (tb ++ ":"%char :: te) tb te []
| Range3 tb te ts : no_colon tb -> no_colon te -> no_colon ts ->
    range_text (tb ++ ":"%char :: te ++ ":"%char :: ts) tb te ts.
Inductive bad_item (n : Z) : list ascii -> err -> Prop :=
| BadAt t i : int_text t i -> in_s64 i -> ~ (- n <= i < n) -> bad_item n t BadIndex
| BadAtText t : no_colon t -> t <> [] -> no_int t -> bad_item n t NoInteger
| BadAtLarge t i : int_text t i -> ~ in_s64 i -> bad_item n t TooLarge
| BadZero t tb te ts : range_text t tb te ts -> n <> 0 -> int_text ts 0 -> bad_item n t BadIndex
| BadStep t tb te ts e : range_text t tb te ts -> n <> 0 -> bad_part ts e -> bad_item n t e
| BadBegin t tb te ts s e : range_text t tb te ts -> n <> 0 -> part_text ts s -> s <> Some 0 ->
    bad_part tb e -> bad_item n t e
| BadEnd t tb te ts b s e : range_text t tb te ts -> n <> 0 -> part_text ts s -> s <> Some 0 ->
    part_text tb b -> 0 <= py_start n (py_step s) b < n -> bad_part te e -> bad_item n t e.
