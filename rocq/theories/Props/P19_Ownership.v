(** Memory: which tensors keep which alive. *)
From Verif.Proofs Require Import OwnEx.
From Verif.Model Require Import Exact.

(** C62: after any calls, no tensor keeps itself alive through a chain of shared pointers. *)
Theorem C62_no_cycles : forall (fo : FOps) h x, reachable h -> ~ tc (owns h) x x.
Proof. exact @no_cycles. Qed.
Print Assumptions C62_no_cycles.

(** C62: so tensors that only other tensors of a group own do not keep each other alive: some
    member of any group is owned by no member of it. *)
Theorem C62_collected : forall (fo : FOps) h (group : list nat),
  reachable h -> group <> [] -> exists x, x ∈ group /\ forall y, y ∈ group -> ~ owns h y x.
Proof. exact @unowned. Qed.
Print Assumptions C62_collected.

(** The program of P18_Retained.v after backward(): an operand (10 of 9, 9 of 1, 1 of 0), a stored
    slope (5 of 6), a view of a leaf (2 of 0), and the gradients of the leaf and of the retained y. *)
Example C62_example :
  let h := xafter (ex_keep ++ [OBackward (#10)]) in
  reachable h /\ owns h 10 9 /\ owns h 9 1 /\ owns h 1 0 /\ owns h 5 6 /\ owns h 2 0 /\
  (exists g, owns h 0 g /\ (0 < g)%nat) /\ (exists g, owns h 1 g /\ (10 < g)%nat).
Proof.
  split; [apply reach_check; vm|]. do 5 (split; [apply owns_check; vm|]).
  split; [exists 3%nat; split; [apply owns_check; vm|lia]|exists 17%nat; split; [apply owns_check; vm|lia]].
Qed.

(** C68: after any calls, the gradient of a tensor is another tensor, of the same dtype and
    shape, laid out like the tensor or densely, and has no backward history. *)
Theorem C68_gradient_shape : forall (fo : FOps) h t r g, reachable h -> h_ten h !! t = Some r -> t_grad r = Some g ->
  exists gr, h_ten h !! g = Some gr /\ t_dt gr = t_dt r /\ sizes (t_lay gr) = sizes (t_lay r) /\
    (t_lay gr = t_lay r \/ t_lay gr = contig (sizes (t_lay r))) /\ t_fn gr = None /\ g <> t.
Proof. exact @grad_like. Qed.
Print Assumptions C68_gradient_shape.
Example C68_example :
  let h := xafter (ex_keep ++ [OBackward (#10)]) in
  reachable h /\
  map (fun t => match h_ten h !! t with
       | Some r => match t_grad r with
         | Some g => match h_ten h !! g with Some gr => Some (g, t_dt gr, sizes (t_lay gr), t_dt r, sizes (t_lay r)) | None => None end
         | None => None end
       | None => None end) [0; 1; 2]%nat =
  [Some (3%nat, F64, [3], F64, [3]); Some (17%nat, F64, [3], F64, [3]); None].
Proof. split; [apply reach_check; vm|vm]. Qed.
