(** Which tensors keep which alive. *)
From Verif.Model Require Export Api.
From stdpp Require Export relations.
Section with_fops.
Context {fo : FOps}.

(** The shared_ptr members reached from a TensorImpl: grad (tensorImpl.hpp:22), and through its
    grad_fn (owned by a unique_ptr, tensorImpl.hpp:29) the inputs (function.hpp:10-11) and the
    stored slope of KnownGradBack (function.hpp:87). Backward::this_tf (function.hpp:12) is a raw pointer. *)
Definition owns (h : heap) (x y : nat) : Prop :=
  exists r, h_ten h !! x = Some r /\
    (t_grad r = Some y \/
     exists f, t_fn r = Some f /\ (y ∈ gf_in f \/ gf_kind f = KnownGradBack y)).
End with_fops.
