(** What operator[] makes of a subscript text, whatever the text: text after an integer and
    after a third part is ignored, an empty item is the whole dimension, and parts that are
    not needed are not looked at. *)
From Verif.Spec Require Export Slice.

(** a part of a range: nothing, the integer it begins with, or an error *)
Inductive part_reads (t : list ascii) : option Z + err -> Prop :=
| ReadNothing : Forall blank t -> part_reads t (inl None)
| ReadInt z rest : begins_int t z rest -> in_s64 z -> part_reads t (inl (Some z))
| ReadText : no_int t -> ~ Forall blank t -> part_reads t (inr NoInteger)
| ReadLarge z rest : begins_int t z rest -> ~ in_s64 z -> part_reads t (inr TooLarge).
(** the first three parts of a range *)
Inductive lax_range : list ascii -> list ascii -> list ascii -> list ascii -> Prop :=
| LaxExact t tb te ts : range_text t tb te ts -> lax_range t tb te ts
| LaxMore tb te ts more : no_colon tb -> no_colon te -> no_colon ts ->
    lax_range (tb ++ ":"%char :: te ++ ":"%char :: ts ++ ":"%char :: more) tb te ts.
(** an item for a dimension of size [n]: the subscript it is taken for, or the error *)
Inductive item_reads (n : Z) : list ascii -> sub + err -> Prop :=
| ReadEmpty : item_reads n [] (inl whole)
(** one part *)
| ReadAt t i : no_colon t -> part_reads t (inl (Some i)) -> - n <= i < n -> item_reads n t (inl (At i))
| ReadOutside t i : no_colon t -> part_reads t (inl (Some i)) -> ~ (- n <= i < n) -> item_reads n t (inr BadIndex)
| ReadBlank t : no_colon t -> t <> [] -> part_reads t (inl None) -> item_reads n t (inr NoInteger)
| ReadBad t e : no_colon t -> part_reads t (inr e) -> item_reads n t (inr e)
(** two parts or more: the step is read first, then the begin, then the end *)
| ReadNoRoom t tb te ts : lax_range t tb te ts -> n = 0 -> item_reads n t (inl whole)
| ReadBadStep t tb te ts e : lax_range t tb te ts -> n <> 0 ->
    part_reads ts (inr e) -> item_reads n t (inr e)
| ReadZeroStep t tb te ts : lax_range t tb te ts -> n <> 0 ->
    part_reads ts (inl (Some 0)) -> item_reads n t (inr BadIndex)
| ReadBadBegin t tb te ts s e : lax_range t tb te ts -> n <> 0 ->
    part_reads ts (inl s) -> s <> Some 0 -> part_reads tb (inr e) -> item_reads n t (inr e)
| ReadPast t tb te ts s b : lax_range t tb te ts -> n <> 0 ->
    part_reads ts (inl s) -> s <> Some 0 -> part_reads tb (inl b) ->
    ~ (0 <= py_start n (py_step s) b < n) -> item_reads n t (inl (Range b None s))
| ReadBadEnd t tb te ts s b e : lax_range t tb te ts -> n <> 0 ->
    part_reads ts (inl s) -> s <> Some 0 -> part_reads tb (inl b) ->
    0 <= py_start n (py_step s) b < n -> part_reads te (inr e) -> item_reads n t (inr e)
| ReadRange t tb te ts s b e : lax_range t tb te ts -> n <> 0 ->
    part_reads ts (inl s) -> s <> Some 0 -> part_reads tb (inl b) ->
    0 <= py_start n (py_step s) b < n -> part_reads te (inl e) -> item_reads n t (inl (Range b e s)).

(** All items, from the left: the subscripts; or the first error; or a product with a
    stride that a long long cannot hold. [ss]: the sizes, [sts]: the strides *)
Inductive reading := Selects (xs : list sub) | Fails (e : err) | Overflows.
Definition first_then (x : sub) (y : reading) : reading :=
  match y with Selects xs => Selects (x :: xs) | _ => y end.
Inductive items_read : list Z -> list Z -> list (list ascii) -> reading -> Prop :=
| NoItems ss sts : items_read ss sts [] (Selects [])
| ItemFails n ss st sts t ts e : item_reads n t (inr e) -> items_read (n :: ss) (st :: sts) (t :: ts) (Fails e)
| ItemOverflows n ss st sts t ts x : item_reads n t (inl x) -> ~ sub_fits n st x ->
    items_read (n :: ss) (st :: sts) (t :: ts) Overflows
| ItemSelects n ss st sts t ts x y : item_reads n t (inl x) -> sub_fits n st x -> items_read ss sts ts y ->
    items_read (n :: ss) (st :: sts) (t :: ts) (first_then x y).
