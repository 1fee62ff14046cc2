(** retain_grad() and requires_grad() *)
From Verif.Proofs Require Import Flags ProgEx.
From Verif.Model Require Import Exact Api.
#[local] Existing Instance Exact.

(** C65: whatever calls are made, a tensor that existed before them has afterwards the
    retain_grad flag of the last retain_grad call on it and the requires_grad flag of the last
    requires_grad call on it that returned; without such calls the flags are what they were. *)
Theorem C65_flags : forall {fo : FOps} h ops rs h' x r,
  run h ops = (Ok rs, h') -> h_ten h !! x = Some r ->
  exists r', h_ten h' !! x = Some r' /\
    t_ret r' = last_retain x ops (t_ret r) /\ t_rg r' = last_requires x ops rs (t_rg r).
Proof. exact @flags_kept. Qed.
Print Assumptions C65_flags.
(** C65: no call makes a tensor that retains its gradient. *)
Theorem C65_unretained : forall {fo : FOps} h ops rs h' x r',
  run h ops = (Ok rs, h') -> h_ten h !! x = None -> h_ten h' !! x = Some r' -> t_ret r' = last_retain x ops false.
Proof. exact @flags_new. Qed.
Print Assumptions C65_unretained.
(** x (0) is tracked and retained; y = x*x (1); retain_grad(true), then (false), on y; an I32
    tensor (2) refuses requires_grad(true); z = x*y (3) is retained; after z.sum().backward()
    requires_grad(false) on x. Only z of the two intermediates has a gradient. *)
Example C65_example :
  let h := xafter ex_leaf in
  let ops := [ORetain (#0) true; OMul (#0) (#0); ORetain (#1) true; ORetain (#1) false;
              OZeros [3] I32; ORequires (#2) true; OMul (#0) (#1); ORetain (#3) true;
              OSum (#3); OBackward (#4); ORequires (#0) false] in
  let h' := (run h ops).2 in
  match (run h ops).1 with
  | Ok rs => Some (last_requires 0 ops rs true, map (fun o => match o with Throw _ => true | _ => false end) rs)
  | _ => None end = Some (false, [false; false; false; false; false; true; false; false; false; false; false]) /\
  map (fun x => (t_ret (xrec h' x), t_rg (xrec h' x))) [0; 1; 2; 3]%nat = [(true, false); (false, true); (false, false); (true, true)] /\
  map (fun x => last_retain x ops false) [0; 1; 2; 3]%nat = [true; false; false; true] /\
  map (fun x => match t_grad (xrec h' x) with Some _ => true | None => false end) [0; 1; 2; 3]%nat = [true; false; false; true].
Proof. cbv zeta. split_and!; vm. Qed.
