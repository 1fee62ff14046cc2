(** Owning pointers after a backward pass of the program of ProgEx.v. *)
From Verif.Proofs Require Export Own RetainedEx.
From Verif.Model Require Export Exact Api.
#[local] Existing Instance Exact.

Lemma reach_check ops : (match (run empty_heap ops).1 with Ok _ => true | _ => false end) = true -> reachable (xafter ops).
Proof.
  intros E. unfold xafter, reachable. exists ops. destruct (run empty_heap ops) as [[rs|?|?|] h]; simpl in E; try discriminate E. by exists rs.
Qed.
Lemma owns_check (h : heap) x y :
  (match h_ten h !! x with
   | Some r => bool_decide (t_grad r = Some y) ||
       match t_fn r with
       | Some f => bool_decide (y ∈ gf_in f) || match gf_kind f with KnownGradBack g => bool_decide (g = y) | _ => false end
       | None => false
       end
   | None => false
   end) = true -> owns h x y.
Proof.
  intros E. destruct (h_ten h !! x) as [r|] eqn:Hr; [|discriminate E]. exists r. split; [exact Hr|].
  apply orb_true_iff in E as [E|E]; [left; by apply bool_decide_eq_true in E|]. right.
  destruct (t_fn r) as [f|]; [|discriminate E]. exists f. split; [reflexivity|].
  apply orb_true_iff in E as [E|E]; [left; by apply bool_decide_eq_true in E|].
  right. destruct (gf_kind f); try discriminate E. apply bool_decide_eq_true in E. by rewrite E.
Qed.
