(** Memory errors, and the calls a careful program makes. *)
From Verif.Spec Require Export Elem Broadcast Sized Graph Init Reshape Cat Result.
From Verif.Model Require Export Api.

Section with_fops.
Context {fo : FOps}.
(** Access outside a buffer or through a null one, at the wrong element type, to memory never
    initialised, or through a dispatch with no case for the type. The rest (overflow, division
    by zero, conversion out of range, a byte that is no bool) is not a memory error. *)
Definition memory_error (u : ub) : Prop :=
  match u with SignedOverflow | DivByZero | FloatRange | BadBool => False | _ => True end.

(** The program holds tensor [a], and its record is [r]. *)
Definition holding (h : heap) (H : list nat) (a : nat) (r : tensor) : Prop := a ∈ H /\ h_ten h !! a = Some r.
(** the number of bytes is a size_t; whether they can be had is another matter *)
Definition bytes_ok (dt : dtype) (ss : list Z) : Prop := Forall (fun n => 0 <= n) ss /\ size_of dt * size_prod ss < 2 ^ 64.
(** the elements lie among the first cells of the buffer, as many as there are elements *)
Definition compact (r : tensor) : Prop := lay_in (t_lay r) (size_prod (shape r)).
(** if tracked: it has its gradient already, or a gradient of its own layout fits a new buffer *)
Definition grad_fits (r : tensor) : Prop := t_rg r = true -> t_grad r <> None \/ compact r.
(** nothing else was computed from [a] by a division *)
Definition no_quotient (h : heap) (a : nat) : Prop :=
  forall x f, fn_of h x = Some f -> gf_kind f = DivBack -> a ∉ gf_in f.
Definition has_buffer (h : heap) (r : tensor) : Prop :=
  exists x cs, h_sto h !! t_sto r = Some x /\ sto_blob x = Some cs.

(** The calls of a careful program that holds [H]. It never calls release(), and randn() only
    for F32. It passes sizes whose number of bytes is a size_t. Besides:
    - a tracked quotient has both operands tracked, and the divisor has the shape of the result;
    - abs() is called on compact tensors, max() and min() on tensors with elements;
    - a view of a tracked tensor is taken only if its gradient fits; a tracked scalar is not
      reshaped;
    - requires_grad(false) is called on leaves that were not used in a tracked quotient;
    - grad() is called when the gradient has a buffer;
    - backward() is called on a compact root, over a graph of compact tracked tensors, or over
      one that no backward has passed and whose tracked tensors have or fit their gradient. *)
Inductive careful (h : heap) (H : list nat) : op -> Prop :=
| SScalar dt v : careful h H (OScalar dt v)
| SNew ss dt : bytes_ok dt ss -> careful h H (ONew ss dt)
| SInit t : no_empty_node t -> (forall ss dt, rectangular t ss dt -> Forall (fun n => n < 2 ^ 64) ss /\ fits dt ss) -> careful h H (OInit t)
| SZeros ss dt : bytes_ok dt ss -> careful h H (OZeros ss dt)
| SOnes ss dt : bytes_ok dt ss -> careful h H (OOnes ss dt)
| SZerosLike a r : holding h H a r -> careful h H (OZerosLike (Some a))
| SOnesLike a r : holding h H a r -> careful h H (OOnesLike (Some a))
| SFullInt ss n dt : bytes_ok dt ss -> careful h H (OFullInt ss n dt)
| SFullDouble ss x dt : bytes_ok dt ss -> careful h H (OFullDouble ss x dt)
| SEye n m dt : bytes_ok dt [n; m] -> careful h H (OEye n m dt)
| SFromBlob data ss dt : bytes_ok dt ss -> size_prod ss <= Z.of_nat (length data) -> careful h H (OFromBlob data ss dt)
| SRandn ss xs : bytes_ok F32 ss -> careful h H (ORandn ss F32 xs)
| SRandnLike a r xs : holding h H a r -> t_dt r = F32 -> careful h H (ORandnLike (Some a) xs)
| SAdd a b ra rb : holding h H a ra -> holding h H b rb -> bytes_ok (dt_join (t_dt ra) (t_dt rb)) (max_shape (shape ra) (shape rb)) ->
    careful h H (OAdd (Some a) (Some b))
| SSub a b ra rb : holding h H a ra -> holding h H b rb -> bytes_ok (dt_join (t_dt ra) (t_dt rb)) (max_shape (shape ra) (shape rb)) ->
    careful h H (OSub (Some a) (Some b))
| SMul a b ra rb : holding h H a ra -> holding h H b rb -> bytes_ok (dt_join (t_dt ra) (t_dt rb)) (max_shape (shape ra) (shape rb)) ->
    careful h H (OMul (Some a) (Some b))
| SDiv a b ra rb : holding h H a ra -> holding h H b rb -> bytes_ok (dt_join (t_dt ra) (t_dt rb)) (max_shape (shape ra) (shape rb)) ->
    (t_rg ra = true \/ t_rg rb = true -> t_rg ra = true /\ t_rg rb = true /\ shape rb = max_shape (shape ra) (shape rb)) ->
    careful h H (ODiv (Some a) (Some b))
| SPos a r : holding h H a r -> careful h H (OPos (Some a))
| SNeg a r : holding h H a r -> bytes_ok (dt_join I32 (t_dt r)) (shape r) -> careful h H (ONeg (Some a))
| SCmp c a b ra rb : holding h H a ra -> holding h H b rb -> bytes_ok I8 (max_shape (shape ra) (shape rb)) -> careful h H (OCmp c (Some a) (Some b))
| SAddEq a b ra rb : holding h H a ra -> holding h H b rb -> careful h H (OAddEq (Some a) (Some b))
| SType a r dt : holding h H a r -> bytes_ok dt (shape r) -> careful h H (OTypeTo (Some a) dt)
| SSlice a r s : holding h H a r -> grad_fits r -> careful h H (OSlice (Some a) s)
| STranspose a r i j : holding h H a r -> grad_fits r -> careful h H (OTranspose (Some a) i j)
| SReshape a r xs : holding h H a r -> grad_fits r -> (t_rg r = true -> shape r <> []) ->
    Forall in_ll xs -> Forall (fun x => -1 <= x) xs -> given xs < 2 ^ 64 -> careful h H (OReshape (Some a) xs)
| SReshapeAs a b r rb : holding h H a r -> holding h H b rb -> grad_fits r -> (t_rg r = true -> shape r <> []) -> careful h H (OReshapeAs (Some a) (Some b))
| SCat ts r0 rs dim : Forall2 (holding h H) ts (r0 :: rs) ->
    bytes_ok (cat_type r0 (r0 :: rs)) (cat_shape (Z.to_nat dim) r0 (r0 :: rs)) ->
    total_len (sizes_along (Z.to_nat dim) (r0 :: rs)) < 2 ^ 64 -> careful h H (OCat (map Some ts) dim)
| SSum a r : holding h H a r -> careful h H (OSum (Some a))
| SMean a r : holding h H a r -> careful h H (OMean (Some a))
| SAbs a r : holding h H a r -> compact r -> careful h H (OAbs (Some a))
| SMax a r : holding h H a r -> 0 < size_prod (shape r) -> careful h H (OMax (Some a))
| SMin a r : holding h H a r -> 0 < size_prod (shape r) -> careful h H (OMin (Some a))
| SContiguous a r : holding h H a r -> careful h H (OContiguous (Some a))
| SClone a r : holding h H a r -> careful h H (OClone (Some a))
| SDetach a r : holding h H a r -> careful h H (ODetach (Some a))
| SGrad a r : holding h H a r -> (forall g gr, t_grad r = Some g -> h_ten h !! g = Some gr -> has_buffer h gr) -> careful h H (OGrad (Some a))
| SBackward t r : holding h H t r ->
    (forall u q, below h t u -> h_ten h !! u = Some q -> t_rg q = true -> compact q) \/
    untraversed h t /\ compact r /\ (forall u q, below h t u -> h_ten h !! u = Some q -> grad_fits q) ->
    careful h H (OBackward (Some t))
| SZeroGrad a r : holding h H a r -> careful h H (OZeroGrad (Some a))
| SRequires a r : holding h H a r -> careful h H (ORequires (Some a) true)
| SForget a r : holding h H a r -> ~ is_node h a -> no_quotient h a -> careful h H (ORequires (Some a) false)
| SRetain a r b : holding h H a r -> careful h H (ORetain (Some a) b)
| SAll a r : holding h H a r -> careful h H (QAll (Some a))
| SText a : (forall x, a = Some x -> exists r, holding h H x r) -> careful h H (QToString a)
| SSize a r : holding h H a r -> careful h H (QSize (Some a))
| SStride a r : holding h H a r -> careful h H (QStride (Some a))
| SNumel a r : holding h H a r -> careful h H (QNumel (Some a))
| STypeOf a r : holding h H a r -> careful h H (QType (Some a))
| SReq a r : holding h H a r -> careful h H (QRequires (Some a))
| SRet a r : holding h H a r -> careful h H (QRetain (Some a))
| SCon a r : holding h H a r -> careful h H (QContiguous (Some a)).

(** The tensor a call returns is held from then on; but not one made by Tensor(sizes, dtype),
    whose elements are indeterminate. *)
Definition obtained (o : op) (v : ret) : list nat :=
  match o, v with
  | ONew _ _, _ => []
  | _, RHandle (Some t) => [t]
  | _, _ => []
  end.
(** every call of the history is careful in the state it is made in *)
Fixpoint careful_run (h : heap) (H : list nat) (ops : list op) : Prop :=
  match ops with
  | [] => True
  | o :: rest =>
      careful h H o /\
      match exec o h with
      | (Ok v, h') => careful_run h' (obtained o v ++ H) rest
      | (Throw _, h') => careful_run h' H rest
      | _ => True
      end
  end.
(** the same, except that nothing is asked of the call at position [k] *)
Fixpoint careful_except (k : nat) (h : heap) (H : list nat) (ops : list op) {struct ops} : Prop :=
  match ops with
  | [] => True
  | o :: rest =>
      match k with O => True | S _ => careful h H o end /\
      match exec o h with
      | (Ok v, h') => match k with O => careful_run h' | S j => careful_except j h' end
                        (match v with RHandle (Some t) => [t] | _ => [] end ++ H) rest
      | (Throw _, h') => match k with O => careful_run h' | S j => careful_except j h' end H rest
      | _ => True
      end
  end.
End with_fops.
