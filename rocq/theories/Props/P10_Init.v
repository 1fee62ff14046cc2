(** Nested initializer lists. *)
From Verif.Proofs Require Import InitEx.

(** C35: a rectangular nesting gives a new tensor of the nesting's shape, the leaf type and
    with the number found by following the index through the nesting at every index. The
    sizes are representable and the buffer can be allocated. *)
Theorem C35_rectangular : forall {fo : FOps} h t ss dt,
  rectangular t ss dt -> typed t -> Forall (fun n => n < 2 ^ 64) ss -> fits dt ss ->
  exists t' h' w, exec (OInit t) h = (Ok (RHandle (Some t')), h') /\
    new_tensor h h' t' dt ss false w /\ forall idx, in_range ss idx -> leaf_at t idx (w idx).
Proof. exact @init_new. Qed.
Print Assumptions C35_rectangular.
(** A nesting that is not rectangular, or mixes leaf types, throws and changes nothing.
    Partial: an empty list of lists inside the nesting is excluded, see C35_refuted. *)
Theorem C35_ragged_partial : forall {fo : FOps} h t,
  no_empty_node t -> (forall ss dt, ~ rectangular t ss dt) ->
  exec (OInit t) h = (Throw InvalidArgument, h).
Proof. exact @init_ragged. Qed.
Print Assumptions C35_ragged_partial.
Theorem C35_empty : forall {fo : FOps} h,
  exec (OInit (TNode [])) h = (Ok (RHandle None), h) /\
  exec (QToString None) h = (Ok (RString "[]"), h).
Proof. exact @init_empty. Qed.
Print Assumptions C35_empty.
(** A list of empty lists compares the never assigned leaf types of its parts. *)
Theorem C35_refuted :
  exists t, typed t /\ (forall ss dt, ~ rectangular t ss dt) /\
    (exec (OInit t) (@empty_heap Ieee)).1 = UB Uninit.
Proof. exact init_refuted. Qed.
Print Assumptions C35_refuted.

(** What every nesting does: the empty list gives the null tensor, a rectangular nesting a
    tensor; otherwise the lists are compared from the inside out and from left to right, and the
    call throws at the first list whose parts differ ([mismatched]) and is undefined at the first
    that begins with an empty list ([unassigned]). *)
Theorem C35_outcome : forall {fo : FOps} h t,
  (t = TNode [] <-> exec (OInit t) h = (Ok (RHandle None), h)) /\
  ((exists ss dt, rectangular t ss dt) <-> exists x h', exec (OInit t) h = (Ok (RHandle (Some x)), h')) /\
  (mismatched t <-> exec (OInit t) h = (Throw InvalidArgument, h)) /\
  (unassigned t <-> exec (OInit t) h = (UB Uninit, h)) /\
  (t = TNode [] \/ (exists ss dt, rectangular t ss dt) \/ mismatched t \/ unassigned t).
Proof. exact @init_outcome. Qed.
Print Assumptions C35_outcome.
(** {{1,2},{}} throws, {{},{1,2}} and {{{1}},{{}},{1,2,3}} are undefined, {{{1},{}},{{}}} throws *)
Example C35_outcome_example :
  let l xs : @tinit Ieee := TLeaf I16 (map VI xs) in let e : @tinit Ieee := TNode [] in
  mismatched (TNode [l [1; 2]; e]) /\ unassigned (TNode [e; l [1; 2]]) /\
  unassigned (TNode [TNode [l [1]]; TNode [e]; l [1; 2; 3]]) /\ mismatched (TNode [TNode [l [1]; e]; TNode [e]]) /\
  rectangular (TNode [TNode [l [1]]; TNode [l [2]]]) [2; 1; 1] I16.
Proof. exact outcome_example. Qed.

(** {{{1,2},{3,4},{5,6}}} of int16 *)
Example C35_example :
  rectangular six [1; 3; 2] I16 /\ typed six /\ fits I16 [1; 3; 2] /\
  (let h := (exec (OInit six) (after demo_ops)).2 in
   map (contents h (rec_of h 9)) (indices [1; 3; 2]) = map VI [1; 2; 3; 4; 5; 6]) /\
  leaf_at six [0; 2; 1] (VI 6).
Proof.
  split; [exact six_rect|]. split; [exact six_typed|]. split; [fits_ok|]. split; [cbv zeta; vm|exact six_leaf].
Qed.
(** {{1,2},{3}} and {{1,2},{3.,4.}} *)
Example C35_example_ragged :
  let a : @tinit Ieee := TNode [TLeaf I16 [VI 1; VI 2]; TLeaf I16 [VI 3]] in
  let b := TNode [TLeaf I16 [VI 1; VI 2]; TLeaf F64 [f64 3; f64 4]] in
  no_empty_node a /\ no_empty_node b /\
  (forall ss dt, ~ rectangular a ss dt) /\ (forall ss dt, ~ rectangular b ss dt).
Proof.
  cbv zeta. split; [by repeat constructor|]. split; [by repeat constructor|].
  split; (eapply ragged_ok; [|reflexivity|reflexivity]); [by right|by left].
Qed.
