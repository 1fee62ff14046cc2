(** Passes of backward() over graphs of which parts were walked before or cut off. *)
From Verif.Proofs Require Import StaleEx.
#[local] Existing Instance Ieee.

(** C66: if every intermediate below the root was never passed or is stopped, the pass consists
    of its preparation and one step for each open intermediate: those for which no stopped
    intermediate lies on any path from the root. It takes them once each and consumers first.
    It changes no record but as [passed_over] says, and writes no buffer but new ones and those
    of gradients of operands of open intermediates. *)
Theorem C66_pass : forall {fo : FOps} ops rs h t,
  Forall size_ok ops -> run empty_heap ops = (Ok rs, h) -> may_start h t -> settled h t ->
  exists order, backward t h = (prepare t ;;; process_all order) h /\ NoDup order /\
  (forall k x, order !! k = Some x -> open h t x /\ forall c, below h t c -> x ∈ inputs h c -> c ∈ take k order) /\
  (forall h', backward t h = (Ok tt, h') ->
    (forall x, x ∈ order <-> open h t x) /\
    (forall x r, h_ten h !! x = Some r -> exists r', h_ten h' !! x = Some r' /\ passed_over h t order x r r') /\
    kept_outside (operand_grad_buffer h t) h h').
Proof. exact @reached_hist. Qed.
Print Assumptions C66_pass.
(** y = x*x was passed from sum(y): the pass from sum(y + w), w = x + x, skips y and gives x
    only the derivative along w *)
Example C66_example :
  Forall size_ok walk_ops /\ (exists rs, run empty_heap walk_ops = (Ok rs, after walk_ops)) /\
  may_start (after walk_ops) 5 /\ settled (after walk_ops) 5 /\ open (after walk_ops) 5 3 /\ ~ open (after walk_ops) 5 1 /\
  map (inputs (after walk_ops)) [5; 4; 3; 1]%nat = [[4]; [1; 3]; [0; 0]; [0; 0]]%nat /\
  (backward 5 (after walk_ops)).1 = Ok tt /\ ((prepare 5 ;;; process_all [5; 4; 3]%nat) (after walk_ops)).1 = Ok tt /\
  grad_elems (after walk_ops) 0 = Some (map f64 [2; 4]) /\ grad_elems (after (walk_ops ++ [OBackward (#5)])) 0 = Some (map f64 [4; 6]).
Proof.
  split; [exact walk_size|]. split; [exact walk_run|]. split; [exact walk_start|]. split; [exact walk_settled|].
  split; [exact walk_open|]. split; [exact walk_closed|]. split_and!; vm.
Qed.

(** C53: after requires_grad(false) on some intermediates of a graph that no backward has walked,
    a tracked leaf without gradient gets one exactly if it is an operand of an intermediate
    above which nothing is cut, on any path. Full C53 asks for one path without a cut; that is
    false (C53_refuted). *)
Theorem C53_cut_partial : forall {fo : FOps} ops rs h t h' a ra,
  Forall size_ok ops -> run empty_heap ops = (Ok rs, h) -> unwalked h t ->
  exec (OBackward (Some t)) h = (Ok RUnit, h') -> h_ten h !! a = Some ra -> t_fn ra = None -> t_rg ra = true -> t_grad ra = None ->
  exists ra', h_ten h' !! a = Some ra' /\
    (is_Some (t_grad ra') <-> exists p, below h t p /\ a ∈ inputs h p /\ ~ cut_above h t p).
Proof. exact @cut_hist. Qed.
Print Assumptions C53_cut_partial.
(** Where cuts lie above all uses of a tensor, its gradient stays what it was. *)
Theorem C53_kept_partial : forall {fo : FOps} ops rs h t h' a ra,
  Forall size_ok ops -> run empty_heap ops = (Ok rs, h) -> unwalked h t ->
  exec (OBackward (Some t)) h = (Ok RUnit, h') -> h_ten h !! a = Some ra -> a <> t ->
  (forall p, below h t p -> a ∈ inputs h p -> cut_above h t p) ->
  exists ra', h_ten h' !! a = Some ra' /\ t_grad ra' = t_grad ra.
Proof. exact @uncut_hist. Qed.
Print Assumptions C53_kept_partial.
Theorem C53_unwalked : forall {fo : FOps} ops rs h t,
  (forall u, OBackward u ∉ ops) -> run empty_heap ops = (Ok rs, h) -> unwalked h t.
Proof. exact @nobackward_unwalked. Qed.
Print Assumptions C53_unwalked.
(** y = clone(x), z = clone(y), root y*z + v with z cut: v gets its gradient, x does not *)
Example C53_example : let h := after cut_ops in
  Forall size_ok cut_ops /\ (exists rs, run empty_heap cut_ops = (Ok rs, h)) /\ (forall u, OBackward u ∉ cut_ops) /\ unwalked h 5 /\
  exec (OBackward (#5)) h = (Ok RUnit, after (cut_ops ++ [OBackward (#5)])) /\
  map (fun a => (t_rg (rec_of h a), t_fn (rec_of h a), t_grad (rec_of h a))) [0; 4]%nat = [(true, None, None); (true, None, None)] /\
  map (inputs h) [5; 3; 2; 1]%nat = [[3; 4]; [1; 2]; [1]; [0]]%nat /\ cut_above h 5 1 /\ ~ cut_above h 5 5 /\
  map (fun a => t_grad (rec_of (after (cut_ops ++ [OBackward (#5)])) a)) [0]%nat = [None] /\
  grad_elems (after (cut_ops ++ [OBackward (#5)])) 4 = Some [f64 1].
Proof.
  cbv zeta. split; [exact cut_size|]. split; [exact cut_run|]. split; [exact cut_free|]. split; [exact cut_unwalked|]. split; [vm|].
  split; [vm|]. split; [vm|]. split; [exact cut_path|]. split; [exact uncut_path|]. split_and!; vm.
Qed.

(** C51: a pass that reaches a division with an untracked operand does not succeed. Full C51
    asks for the gradient of the other operand. *)
Theorem C51_constant_partial : forall {fo : FOps} ops rs h t x f a b,
  Forall size_ok ops -> run empty_heap ops = (Ok rs, h) -> settled h t ->
  open h t x -> fn_of h x = Some f -> gf_kind f = DivBack -> inputs h x = [a; b] ->
  (exists c r, c ∈ [a; b] /\ h_ten h !! c = Some r /\ t_rg r = false /\ t_grad r = None) ->
  forall v h', exec (OBackward (Some t)) h <> (Ok v, h').
Proof. exact @div_hist. Qed.
Print Assumptions C51_constant_partial.
Example C51_constant_example : let h := after const_ops in
  Forall size_ok const_ops /\ (exists rs, run empty_heap const_ops = (Ok rs, h)) /\ settled h 3 /\ open h 3 2 /\
  (gf_kind <$> fn_of h 2) = Some DivBack /\ inputs h 2 = [0; 1]%nat /\
  (t_rg (rec_of h 1), t_grad (rec_of h 1)) = (false, None) /\ (exec (OBackward (#3)) h).1 = UB NullDeref.
Proof.
  cbv zeta. split; [exact const_size|]. split; [exact const_run|]. split; [exact const_settled|]. split; [exact const_open|]. split_and!; vm.
Qed.

(** C51: nor does one that reaches a non-empty quotient by a tensor of lower rank, for example by
    a tracked 0-dimensional tensor. *)
Theorem C51_rank_partial : forall {fo : FOps} ops rs h t x f a b rb rx,
  Forall size_ok ops -> run empty_heap ops = (Ok rs, h) -> settled h t ->
  open h t x -> fn_of h x = Some f -> gf_kind f = DivBack -> inputs h x = [a; b] ->
  h_ten h !! b = Some rb -> h_ten h !! x = Some rx -> (length (shape rb) < length (shape rx))%nat -> 0 ∉ shape rx ->
  forall v h', exec (OBackward (Some t)) h <> (Ok v, h').
Proof. exact @rank_hist. Qed.
Print Assumptions C51_rank_partial.
(** sum((1, 2) / s) for a tracked 0-dimensional s = 4 *)
Example C51_rank_example : let h := after rank_ops in
  Forall size_ok rank_ops /\ (exists rs, run empty_heap rank_ops = (Ok rs, h)) /\ settled h 4 /\ open h 4 3 /\
  (gf_kind <$> fn_of h 3) = Some DivBack /\ inputs h 3 = [0; 2]%nat /\
  map (fun a => shape (rec_of h a)) [2; 3]%nat = [[]; [2]] /\ map (fun a => t_rg (rec_of h a)) [0; 2]%nat = [true; true] /\
  (exec (OBackward (#4)) h).1 = Throw RuntimeError.
Proof.
  cbv zeta. split; [exact rank_size|]. split; [exact rank_run|]. split; [exact rank_settled|]. split; [exact rank_open|]. split_and!; vm.
Qed.

(** C51: nor does one that reaches a quotient by a tracked dense tensor that is stretched along
    one of its dimensions, if this is its only use and it has no gradient yet. *)
Theorem C51_wide_partial : forall {fo : FOps} ops rs h t x f a b rb rx,
  Forall size_ok ops -> run empty_heap ops = (Ok rs, h) -> settled h t ->
  open h t x -> fn_of h x = Some f -> gf_kind f = DivBack -> inputs h x = [a; b] -> a <> b ->
  (forall y, open h t y -> b ∈ inputs h y -> y = x) ->
  h_ten h !! b = Some rb -> t_rg rb = true -> t_grad rb = None -> t_lay rb = contig (shape rb) ->
  h_ten h !! x = Some rx -> 0 ∉ shape rx -> size_prod (shape rx) < 2 ^ 63 ->
  Forall2 (fun m n => m = n \/ m = 1) (shape rb) (shape rx) -> shape rb <> shape rx ->
  forall v h', exec (OBackward (Some t)) h <> (Ok v, h').
Proof. exact @wide_hist. Qed.
Print Assumptions C51_wide_partial.
(** sum({{3, 3}, {3, 3}} / {{4, 4}}) *)
Example C51_wide_example : let h := after wide_ops in
  Forall size_ok wide_ops /\ (exists rs, run empty_heap wide_ops = (Ok rs, h)) /\ settled h 5 /\ open h 5 4 /\
  (forall y, open h 5 y -> 3%nat ∈ inputs h y -> y = 4%nat) /\
  (gf_kind <$> fn_of h 4) = Some DivBack /\ inputs h 4 = [1; 3]%nat /\
  map (fun a => shape (rec_of h a)) [3; 4]%nat = [[1; 2]; [2; 2]] /\ t_lay (rec_of h 3) = contig [1; 2] /\
  map (fun a => (t_rg (rec_of h a), t_grad (rec_of h a))) [1; 3]%nat = [(true, None); (true, None)] /\
  (exec (OBackward (#5)) h).1 = UB OutOfBounds.
Proof.
  cbv zeta. split; [exact wide_size|]. split; [exact wide_run|]. split; [exact wide_settled|]. split; [exact wide_open|]. split; [exact wide_sole|]. split_and!; vm.
Qed.

(** C48: a second successful pass from the same root consists of the root's own step: what is
    not an operand of the root, and has a gradient on a buffer of its own, gets nothing. Full
    C48 asks that every leaf gets its derivative again; that is false (C48_refuted). *)
Theorem C48_second_partial : forall {fo : FOps} ops rs h h1 t,
  Forall size_ok ops -> run empty_heap ops = (Ok rs, h) -> untraversed h t ->
  exec (OBackward (Some t)) h = (Ok RUnit, h1) -> forall h2, exec (OBackward (Some t)) h1 = (Ok RUnit, h2) ->
  (prepare t ;;; process_all [t]) h1 = (Ok tt, h2) /\
  forall a ra g gr st, a <> t -> a ∉ inputs h t ->
    h_ten h1 !! a = Some ra -> t_grad ra = Some g -> h_ten h1 !! g = Some gr -> h_sto h1 !! t_sto gr = Some st ->
    (forall y r g' gr', y ∈ inputs h t -> h_ten h1 !! y = Some r -> t_grad r = Some g' -> h_ten h1 !! g' = Some gr' -> t_sto gr' <> t_sto gr) ->
    grad_elems h2 a = grad_elems h1 a.
Proof. exact @second_pass. Qed.
Print Assumptions C48_second_partial.
(** two passes from sum((y+y)*y), y = x*x *)
Example C48_second_example :
  let h1 := after (ord_ops ++ [OBackward (#12)]) in let h2 := after (ord_ops ++ [OBackward (#12); OBackward (#12)]) in
  Forall size_ok ord_ops /\ (exists rs, run empty_heap ord_ops = (Ok rs, ord_heap)) /\ untraversed ord_heap 12 /\
  exec (OBackward (#12)) ord_heap = (Ok RUnit, h1) /\ exec (OBackward (#12)) h1 = (Ok RUnit, h2) /\ inputs ord_heap 12 = [11]%nat /\
  t_grad (rec_of h1 11) = None /\
  match t_grad (rec_of h1 6) with Some g => match h_sto h1 !! t_sto (rec_of h1 g) with Some _ => true | None => false end | None => false end = true /\
  grad_elems h1 6 = Some (map f64 [8; 64; -216]) /\ grad_elems h2 6 = Some (map f64 [8; 64; -216]).
Proof.
  cbv zeta. split; [exact ord_size|]. split; [exact ord_run|]. split; [exact ord_untraversed|]. split_and!; vm.
Qed.
