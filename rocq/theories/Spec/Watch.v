(** IEEE arithmetic that also keeps the exact value of every number for as long as no rounding
    took place on the way to it. *)
From Verif.Spec Require Export Tensor.
From Verif.Model Require Import Ieee Exact Api.
From Coq Require Import Floats.SpecFloat QArith Qcanon.

(** the rational number that a finite float denotes *)
Definition sf_value (x : spec_float) : option Qc :=
  match x with
  | S754_zero _ => Some 0%Qc
  | S754_finite s m e => Some (Q2Qc (cond_Zopp s (Zpos m) * 2 ^ Z.max e 0 # Z.to_pos (2 ^ Z.max (- e) 0)))
  | _ => None
  end.
(** binary32 and binary64: the bits of the significand, and the least power of two out of range *)
Definition precision (t : fty) : Z := match t with FT32 => 24 | FT64 => 53 end.
Definition exp_limit (t : fty) : Z := match t with FT32 => 128 | FT64 => 1024 end.
(** the float [x] is a number of format [t] and denotes [q] *)
Definition denotes (t : fty) (x : spec_float) (q : Qc) : bool :=
  valid_binary (precision t) (exp_limit t) x && match sf_value x with Some v => Qc_eq_bool v q | None => false end.
Definition keep (t : fty) (x : spec_float) (o : option Qc) : spec_float * option Qc :=
  (x, match o with Some q => if denotes t x q then Some q else None | None => None end).
Definition both (f : Qc -> Qc -> Qc) (a b : option Qc) : option Qc :=
  match a, b with Some x, Some y => Some (f x y) | _, _ => None end.

(** The first component of a result is the IEEE result. Converting a float whose exact value is
    lost to an integer is an error, so that no history goes on after it. *)
Definition Watch : FOps := {|
  F := spec_float * option Qc;
  f_zero := (S754_zero false, Some 0%Qc);
  f_of_Z t z := keep t (ieee_of_Z t z) (Some (qc_of_Z z));
  f_cvt t x := keep t (ieee_cvt t x.1) x.2;
  f_add t x y := keep t (SFadd (precision t) (exp_limit t) x.1 y.1) (both Qcplus x.2 y.2);
  f_sub t x y := keep t (SFsub (precision t) (exp_limit t) x.1 y.1) (both Qcminus x.2 y.2);
  f_mul t x y := keep t (SFmul (precision t) (exp_limit t) x.1 y.1) (both Qcmult x.2 y.2);
  f_div t x y := keep t (SFdiv (precision t) (exp_limit t) x.1 y.1) (both Qcdiv x.2 y.2);
  f_neg x := (SFopp x.1, option_map Qcopp x.2);
  f_lt x y := SFltb x.1 y.1;
  f_le x y := SFleb x.1 y.1;
  f_eq x y := SFeqb x.1 y.1;
  f_trunc x := match x.2 with Some _ => ieee_trunc x.1 | None => None end;
  f_bytes t x := ieee_bytes t x.1;
  f_str x := ieee_str x.1
|}.

(** ** the same calls in another arithmetic *)
Section map.
Context {fa fb : FOps} (g : @F fa -> @F fb).
Definition map_val (v : @val fa) : @val fb := match v with VI z => VI z | VF x => VF (g x) end.
Fixpoint map_tinit (t : @tinit fa) : @tinit fb :=
  match t with TLeaf dt xs => TLeaf dt (map map_val xs) | TNode ts => TNode (map map_tinit ts) end.
Definition map_op (o : @op fa) : @op fb :=
  match o with
  | OScalar dt v => OScalar dt (map_val v) | ONew ss dt => ONew ss dt | OInit t => OInit (map_tinit t)
  | OZeros ss dt => OZeros ss dt | OOnes ss dt => OOnes ss dt | OZerosLike a => OZerosLike a | OOnesLike a => OOnesLike a
  | OFullInt ss n dt => OFullInt ss n dt | OFullDouble ss x dt => OFullDouble ss (g x) dt | OEye n m dt => OEye n m dt
  | OFromBlob d ss dt => OFromBlob (map map_val d) ss dt | ORandn ss dt xs => ORandn ss dt (map g xs) | ORandnLike a xs => ORandnLike a (map g xs)
  | OAdd a b => OAdd a b | OSub a b => OSub a b | OMul a b => OMul a b | ODiv a b => ODiv a b | OPos a => OPos a | ONeg a => ONeg a
  | OCmp c a b => OCmp c a b | OAddEq a b => OAddEq a b | OTypeTo a dt => OTypeTo a dt | OSlice a s => OSlice a s
  | OTranspose a i j => OTranspose a i j | OReshape a ss => OReshape a ss | OReshapeAs a b => OReshapeAs a b | OCat ts d => OCat ts d
  | OSum a => OSum a | OMean a => OMean a | OAbs a => OAbs a | OMax a => OMax a | OMin a => OMin a
  | OContiguous a => OContiguous a | OClone a => OClone a | ODetach a => ODetach a | OGrad a => OGrad a | OBackward a => OBackward a
  | OZeroGrad a => OZeroGrad a | ORequires a b => ORequires a b | ORetain a b => ORetain a b | ORelease a => ORelease a
  | QAll a => QAll a | QToString a => QToString a | QSize a => QSize a | QStride a => QStride a | QNumel a => QNumel a
  | QType a => QType a | QRequires a => QRequires a | QRetain a => QRetain a | QContiguous a => QContiguous a
  end.
End map.
(** the literal values in a call, with their types *)
Fixpoint tinit_lits {fo : FOps} (t : tinit) : list (dtype * val) :=
  match t with TLeaf dt xs => map (pair dt) xs | TNode ts => concat (map tinit_lits ts) end.
Definition lits {fo : FOps} (o : op) : list (dtype * val) :=
  match o with
  | OScalar dt v => [(dt, v)]
  | OInit t => tinit_lits t
  | OFullDouble _ x _ => [(F64, VF x)]
  | OFromBlob d _ dt => map (pair dt) d
  | ORandn _ _ xs | ORandnLike _ xs => map (fun x => (F32, VF x)) xs
  | _ => []
  end.
(** The literals are of their types; floats are numbers of their formats. *)
Definition proper (o : @op Ieee) : Prop :=
  forall t v, (t, v) ∈ lits o -> match v with VI _ => is_int t = true | VF x => is_int t = false /\ valid_binary (precision (fty_of t)) (exp_limit (fty_of t)) x = true end.
Definition watched : @op Ieee -> @op Watch := map_op (fa:=Ieee) (fb:=Watch) (fun x : spec_float => (x, sf_value x)).
Definition exactly : @op Ieee -> @op Exact := map_op (fa:=Ieee) (fb:=Exact) (fun x : spec_float => default 0%Qc (sf_value x)).

(** ** comparisons *)
(** all elements of the buffer of [a] that are floats have exact values *)
Definition all_exact (h : @heap Watch) (a : handle) : Prop :=
  forall x r s cs v, a = Some x -> h_ten h !! x = Some r -> h_sto h !! t_sto r = Some s -> sto_blob s = Some cs -> Some (VF v) ∈ cs -> v.2 <> None.
Definition no_floats (h : @heap Watch) (a : handle) : Prop :=
  forall x r, a = Some x -> h_ten h !! x = Some r -> is_int (t_dt r) = true /\ forall s, h_sto h !! t_sto r = Some s -> is_int (sto_ty s) = true.
Definition same_type (h : @heap Watch) (a b : handle) : Prop :=
  forall x r y s, a = Some x -> h_ten h !! x = Some r -> b = Some y -> h_ten h !! y = Some s -> t_dt r = t_dt s.
(** The call compares only floats with exact values, and does not look at the bytes of floats. *)
Definition compares_exact (h : @heap Watch) (o : @op Ieee) : Prop :=
  match o with
  | OAbs a | OMax a | OMin a => all_exact h a
  | OCmp _ a b => no_floats h a /\ no_floats h b \/ same_type h a b /\ all_exact h a /\ all_exact h b
  | QAll a => no_floats h a
  | _ => True
  end.
(** the history of calls keeps this up *)
Fixpoint compares_all (h : @heap Watch) (ops : list (@op Ieee)) : Prop :=
  match ops with
  | [] => True
  | o :: rest => compares_exact h o /\ compares_all (exec (watched o) h).2 rest
  end.

(** ** what is compared at the end *)
Definition element {fo : FOps} (h : heap) (t : nat) (idx : list Z) : option val :=
  match h_ten h !! t with Some r => elem h r idx | None => None end.
(** element [idx] of t.grad() *)
Definition grad_element {fo : FOps} (h : heap) (t : nat) (idx : list Z) : option val :=
  match h_ten h !! t with
  | Some r => match t_grad r with Some g => element h g idx | None => None end
  | None => None
  end.
(** The tensors and the graph are the same, elements that are integers too, and elements whose
    exact value was kept are finite floats and denote that value. *)
Definition agree (h : @heap Ieee) (w : @heap Watch) (e : @heap Exact) : Prop :=
  h_ten h = h_ten w /\ h_ten e = h_ten w /\
  forall t idx,
    match @element Watch w t idx with
    | Some (VI z) => @element Ieee h t idx = Some (@VI Ieee z) /\ @element Exact e t idx = Some (@VI Exact z)
    | Some (VF (x, o)) => @element Ieee h t idx = Some (@VF Ieee x) /\
        exists y, @element Exact e t idx = Some (@VF Exact y) /\ forall q, o = Some q -> y = q /\ sf_value x = Some q
    | None => @element Ieee h t idx = None /\ @element Exact e t idx = None
    end.
(** the same results of calls; numbers are printed in another way *)
Definition same_result (r r' : outcome ret) : Prop :=
  r = r' \/ exists s s', r = Ok (RString s) /\ r' = Ok (RString s').
